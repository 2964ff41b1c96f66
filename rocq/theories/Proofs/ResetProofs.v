(** Two navigation data stores that differ only in the authentication bits stay so. *)
From Coq Require Import ZArith List Bool Lia ZifyBool ZifyNat.
From Verif Require Import Model.Prelude Model.Params Model.Gst Model.Svn Model.Bitfields Model.Tesla Model.Nav
  Spec.ResetSpec Proofs.Base.
Import ListNotations.
Open Scope Z_scope.

Definition out_rel {A A'} (R : A -> A' -> Prop) (x : outcome A) (y : outcome A') : Prop :=
  match x, y with Ok a, Ok b => R a b | Panic, Panic => True | _, _ => False end.

Lemma bind_rel {A A' E E'} (R : A -> A' -> Prop) (Q : E -> E' -> Prop) x y f g :
  out_rel R x y -> (forall a b, R a b -> out_rel Q (f a) (g b)) -> out_rel Q (bind x f) (bind y g).
Proof. destruct x as [a|], y as [b|]; cbn [out_rel bind]; intros H1 H2; try contradiction; auto. Qed.
Lemma eq_rel {A} (x : outcome A) : out_rel eq x x.
Proof. destruct x; cbn; auto. Qed.
Lemma ok_rel {A A'} (R : A -> A' -> Prop) a b : R a b -> out_rel R (Ok a) (Ok b).
Proof. auto. Qed.

Lemma fold_rel {A S S'} (R : S -> S' -> Prop) (f : S -> A -> outcome S) (g : S' -> A -> outcome S') l :
  (forall s s' x, R s s' -> out_rel R (f s x) (g s' x)) -> forall s s', R s s' -> out_rel R (fold_outcome f l s) (fold_outcome g l s').
Proof.
  intros H. induction l as [|x l IH]; intros s s' Hs; cbn [fold_outcome]; [exact Hs|].
  apply (bind_rel R R); [now apply H|]. intros a b. apply IH.
Qed.

Lemma Forall2_length {A A'} {R : A -> A' -> Prop} {l l'} : Forall2 R l l' -> length l = length l'.
Proof. induction 1; cbn [length]; congruence. Qed.

Section Lists.
Context {A A' : Type} (R : A -> A' -> Prop).
Lemma sub_rel a b l l' : Forall2 R l l' -> Forall2 R (sub a b l) (sub a b l').
Proof.
  unfold sub. intros H. generalize (b - a)%nat as n. revert a. induction H as [|x y l l' Hx Hl IH]; intros a n.
  - rewrite !skipn_nil, !firstn_nil. constructor.
  - destruct a as [|a]; cbn [skipn]; [|apply IH]. clear IH. revert n. generalize (@Forall2_cons _ _ R x y l l' Hx Hl). clear.
    generalize (x :: l) (y :: l'). clear. intros l l' H. induction H; intros [|n]; cbn [firstn]; constructor; auto.
Qed.
Lemma firstn_rel n l l' : Forall2 R l l' -> Forall2 R (firstn n l) (firstn n l').
Proof. intros H. rewrite <- !sub_0. now apply sub_rel. Qed.
Lemma skipn_rel n l l' : Forall2 R l l' -> Forall2 R (skipn n l) (skipn n l').
Proof. intros H. revert n. induction H; intros [|n]; cbn [skipn]; auto. Qed.
Lemma put_rel a s s' l l' : Forall2 R s s' -> Forall2 R l l' -> Forall2 R (put a s l) (put a s' l').
Proof.
  intros Hs Hl. unfold put. rewrite (Forall2_length Hs). apply Forall2_app; [now apply firstn_rel|].
  apply Forall2_app; [exact Hs|now apply skipn_rel].
Qed.
Lemma slice_rel a b l l' : Forall2 R l l' -> out_rel (Forall2 R) (slice l a b) (slice l' a b).
Proof. intros H. unfold slice. rewrite (Forall2_length H). destruct (_ && _); [|exact I]. now apply sub_rel. Qed.
Lemma copy_from_rel a b s s' l l' : Forall2 R s s' -> Forall2 R l l' ->
  out_rel (Forall2 R) (copy_from l a b s) (copy_from l' a b s').
Proof.
  intros Hs H. unfold copy_from. rewrite (Forall2_length H), (Forall2_length Hs). destruct (_ && _ && _); [|exact I]. now apply put_rel.
Qed.
Lemma index_rel i l l' : Forall2 R l l' -> out_rel R (index l i) (index l' i).
Proof. intros H. unfold index. revert i. induction H; intros [|i]; cbn; auto. Qed.
Lemma set_index_rel i v v' l l' : R v v' -> Forall2 R l l' -> out_rel (Forall2 R) (set_index l i v) (set_index l' i v').
Proof. intros Hv H. unfold set_index. rewrite (Forall2_length H). destruct (_ <? _)%nat; [|exact I]. apply put_rel; auto. Qed.
Lemma find_rel p p' l l' : (forall a b, R a b -> p a = p' b) -> Forall2 R l l' ->
  match find_first p l, find_first p' l' with Some a, Some b => R a b | None, None => True | _, _ => False end.
Proof.
  intros Hp H. unfold find_first. induction H as [|x y l l' Hx Hl IH]; cbn [find]; [exact I|].
  rewrite <- (Hp x y Hx). destruct (p x); auto.
Qed.
Lemma max_rel f f' l l' : (forall a b, R a b -> f a = f' b) -> Forall2 R l l' -> max_by_key f l = max_by_key f' l'.
Proof.
  intros Hf H. assert (G : forall i best k, max_by_key_from f (tl l) i best k = max_by_key_from f' (tl l') i best k).
  { destruct H as [|x y l l' Hx Hl]; [reflexivity|]. cbn [tl]. induction Hl as [|a b l l' Ha Hl IH]; intros i best k; [reflexivity|].
    cbn [max_by_key_from]. rewrite (Hf a b Ha). now destruct (k <=? f' b). }
  destruct H as [|x y l l' Hx Hl]; [reflexivity|]. cbn [max_by_key tl] in *. now rewrite (Hf x y Hx), G.
Qed.
Lemma map_rel h h' l l' : (forall a b, R a b -> R (h a) (h' b)) -> Forall2 R l l' -> Forall2 R (map h l) (map h' l').
Proof. intros Hh H. induction H; cbn [map]; auto. Qed.
End Lists.

(** ** Words *)

Section Words.
Context {S : storage}.
Variable R : entry -> entry -> Prop.
Hypothesis R_svn : forall a b, R a b -> e_svn a = e_svn b.
Hypothesis R_ages : forall a b, R a b -> e_age a = e_age b.
Hypothesis R_age : forall a b, R a b -> R (age_entry a) (age_entry b).
Hypothesis R_feed : forall k w svn bd a b, R a b -> R (entry_feed k w svn bd a) (entry_feed k w svn bd b).

Definition stores_rel (n' n : nav) : Prop :=
  Forall2 R (nv_ced n') (nv_ced n) /\ Forall2 R (nv_timing n') (nv_timing n) /\ nv_gsts n' = nv_gsts n /\ nv_wp n' = nv_wp n.

Lemma R_key svn a b : R a b -> slot_key svn a = slot_key svn b.
Proof. intros H. unfold slot_key, max_age. now rewrite (R_svn _ _ H), (R_ages _ _ H). Qed.

Lemma arr_rel k n' n : stores_rel n' n -> Forall2 R (nv_arr k n') (nv_arr k n).
Proof. intros (H1 & H2 & _). destruct k; auto. Qed.
Lemma set_arr_rel k l' l n' n : Forall2 R l' l -> stores_rel n' n -> stores_rel (set_nv_arr k l' n') (set_nv_arr k l n).
Proof. intros Hl (H1 & H2 & H3 & H4). destruct k; unfold stores_rel; cbn [set_nv_arr nv_ced nv_timing nv_gsts nv_wp]; auto. Qed.

Lemma copy_and_age_rel l' l from to : Forall2 R l' l -> out_rel (Forall2 R) (copy_and_age l' from to) (copy_and_age l from to).
Proof.
  intros H. unfold copy_and_age. eapply bind_rel; [apply slice_rel; exact H|]. intros r' r Hr.
  rewrite (Forall2_length Hr). eapply bind_rel; [apply copy_from_rel; eauto|]. intros m' m Hm.
  eapply bind_rel; [apply slice_rel; exact Hm|]. intros q' q Hq. apply copy_from_rel; [|exact Hm]. now apply map_rel.
Qed.

Lemma adjust_rel n' n g : stores_rel n' n -> out_rel stores_rel (nav_adjust n' g) (nav_adjust n g).
Proof.
  intros (H1 & H2 & H3 & H4). unfold nav_adjust. rewrite H3, H4. eapply bind_rel; [apply eq_rel|]. intros cur ? <-.
  apply (bind_rel stores_rel).
  - destruct cur as [g0|]; [|unfold stores_rel; cbn; auto]. destruct (negb _); [|unfold stores_rel; cbn; auto].
    eapply bind_rel; [apply copy_and_age_rel; exact H1|]. intros c' c Hc. eapply bind_rel; [apply copy_and_age_rel; exact H2|]. intros t' t Ht.
    apply ok_rel. unfold stores_rel. cbn [nv_ced nv_timing nv_gsts nv_wp]. auto.
  - intros m' m (M1 & M2 & M3 & M4). rewrite M3, M4. eapply bind_rel; [apply eq_rel|]. intros gs ? <-.
    apply ok_rel. unfold stores_rel. cbn [nv_ced nv_timing nv_gsts nv_wp]. auto.
Qed.

Lemma feed_kind_rel k word svn b n' n : stores_rel n' n -> out_rel stores_rel (nav_feed_kind k word svn b n') (nav_feed_kind k word svn b n).
Proof.
  intros H. pose proof (arr_rel k n' n H) as Ha. unfold nav_feed_kind, row_of. cbn zeta. destruct H as (H1 & H2 & H3 & H4). rewrite H4.
  eapply bind_rel; [apply slice_rel; exact Ha|]. intros r' r Hr.
  rewrite (max_rel R (slot_key svn) (slot_key svn) r' r (R_key svn) Hr). eapply bind_rel; [apply eq_rel|]. intros i ? <-.
  eapply bind_rel; [apply index_rel; exact Hr|]. intros e' e He.
  eapply bind_rel; [apply set_index_rel; [apply R_feed; exact He|exact Hr]|]. intros q' q Hq.
  eapply bind_rel; [apply copy_from_rel; [exact Hq|exact Ha]|]. intros l' l Hl. apply ok_rel. apply set_arr_rel; [exact Hl|].
  unfold stores_rel; auto.
Qed.

Lemma feed_rel n' n word svn g b : stores_rel n' n -> out_rel stores_rel (nav_feed n' word svn g b) (nav_feed n word svn g b).
Proof.
  intros H. unfold nav_feed. eapply bind_rel; [apply adjust_rel; exact H|]. intros m' m Hm.
  eapply bind_rel; [apply feed_kind_rel; exact Hm|]. intros q' q Hq. now apply feed_kind_rel.
Qed.
End Words.

(** ** The same data with fewer bits *)

Lemma same_reset a b : same_data a b -> same_data (entry_reset a) (entry_reset b).
Proof. intros (H1 & H2 & H3 & H4). unfold same_data, entry_reset. cbn [e_data e_age e_svn e_authbits]. rewrite H1, H2. repeat split; lia. Qed.
Lemma same_age a b : same_data a b -> same_data (age_entry a) (age_entry b).
Proof. intros (H1 & H2 & H3 & H4). unfold same_data, age_entry. cbn [e_data e_age e_svn e_authbits]. rewrite H1, H2, H3. repeat split; lia. Qed.
Lemma same_select svn a b : same_data a b -> same_data (entry_select_svn svn a) (entry_select_svn svn b).
Proof.
  intros H. pose proof (same_reset a b H) as (K1 & K2 & K3 & K4). pose proof H as (H1 & H2 & H3 & H4). unfold entry_select_svn. cbn zeta. rewrite H3.
  destruct (e_svn b) as [s|]; [destruct (s =? svn); [exact H|]|]; unfold same_data; cbn [e_data e_age e_svn e_authbits]; repeat split; auto; lia.
Qed.
Lemma same_copy x y src i a b : same_data a b -> same_data (copy_word x y src i a) (copy_word x y src i b).
Proof.
  intros (H1 & H2 & H3 & H4). unfold copy_word. cbn zeta. rewrite H1, H2, H3.
  destruct (bits_eqb _ _); unfold same_data; cbn [e_data e_age e_svn e_authbits]; repeat split; lia.
Qed.
Lemma same_feed k w svn bd a b : same_data a b -> same_data (entry_feed k w svn bd a) (entry_feed k w svn bd b).
Proof.
  intros H. apply (same_select svn) in H. destruct k; cbn [entry_feed]; unfold ced_feed, timing_feed; cbn zeta.
  - destruct (word_type _) as [|p|p]; auto. do 3 (destruct p as [p|p|]; auto using same_copy).
  - destruct (word_type _) as [|p|p]; auto. do 4 (destruct p as [p|p|]; try (destruct bd); auto using same_copy).
Qed.

Lemma same_store_rel n' n : same_store n' n <-> stores_rel same_data n' n.
Proof. split; auto. Qed.

Section Tags.
Context {C : crypto} {B : build} {S : storage}.

Lemma feed_same n' n word svn g b : same_store n' n -> out_rel same_store (nav_feed n' word svn g b) (nav_feed n word svn g b).
Proof.
  apply feed_rel; [intros x y (_ & _ & H & _); exact H|intros x y (_ & H & _); exact H|exact same_age|exact same_feed].
Qed.

Lemma message_bits_same k a b : same_data a b -> message_bits k a = message_bits k b.
Proof. intros (H & _). unfold message_bits. now rewrite H. Qed.

Lemma add_all_same k tag a b l' l : same_data a b -> Forall2 same_data l' l ->
  Forall2 same_data (add_authbits_all k tag a l') (add_authbits_all k tag b l).
Proof.
  intros Hab H. unfold add_authbits_all. apply map_rel; [|exact H]. intros x y Hxy.
  rewrite (message_bits_same k a b Hab), (message_bits_same k x y Hxy). destruct Hab as (_ & _ & Es & _).
  pose proof Hxy as (X1 & X2 & X3 & X4). rewrite Es, X3. destruct (_ && _); [|exact Hxy].
  unfold same_data, add_authbits, sat_add_u16. cbn [e_data e_age e_svn e_authbits]. repeat split; auto; lia.
Qed.

Lemma one_tag_same k key tag cop gm gn prnd ps prna j s n' n : same_store n' n ->
  out_rel same_store (process_one_tag k key tag cop gm gn prnd ps prna j s n') (process_one_tag k key tag cop gm gn prnd ps prna j s n).
Proof.
  intros H. unfold process_one_tag. destruct (cop =? 0). { eapply bind_rel; [apply eq_rel|]. intros ? ? _. exact H. }
  pose proof (arr_rel same_data k n' n (proj1 (same_store_rel n' n) H)) as Ha. pose proof H as (H1 & H2 & H3 & H4).
  assert (F : out_rel (fun a b => match a, b with Some x, Some y => same_data x y | None, None => True | _, _ => False end)
    (find_entry k n' ps gn) (find_entry k n ps gn)).
  { unfold find_entry, find_gst. rewrite H3. eapply bind_rel; [apply eq_rel|]. intros i ? <-. destruct i as [i|]; [|exact I].
    unfold row_of. eapply bind_rel; [apply slice_rel; exact Ha|]. intros r' r Hr. apply ok_rel. apply (find_rel same_data); [|exact Hr].
    intros x y (_ & _ & E & _). now rewrite E. }
  eapply bind_rel; [exact F|]. intros [e'|] [e|] He; try contradiction; [|exact H].
  unfold max_age. pose proof He as (_ & Eage & _). rewrite Eage. destruct (_ <=? cop); [|exact H].
  apply (bind_rel (fun a b => fst a = fst b /\ Forall2 same_data (snd a) (snd b))).
  - unfold nav_validate_tag. eapply bind_rel; [apply eq_rel|]. intros ctr ? <-. rewrite (message_bits_same k e' e He).
    eapply bind_rel; [apply eq_rel|]. intros r ? <-. apply ok_rel. split; [reflexivity|]. cbn [snd].
    destruct r; [|exact Ha]. destruct s; auto using add_all_same.
  - intros (r' & l') (r & l) (_ & Hl). apply ok_rel. now apply set_arr_rel.
Qed.

Lemma mack_same n' n m key prna g s : same_store n' n -> out_rel same_store (process_mack n' m key prna g s) (process_mack n m key prna g s).
Proof.
  intros H. unfold process_mack. eapply bind_rel; [apply eq_rel|]. intros gn ? <-. eapply bind_rel; [apply eq_rel|]. intros cop ? <-.
  eapply bind_rel; [apply eq_rel|]. intros t0 ? <-. eapply bind_rel; [apply one_tag_same; exact H|]. intros a b Hab.
  apply fold_rel; [|exact Hab]. intros x y j Hxy. unfold process_mack_tag. eapply bind_rel; [apply eq_rel|]. intros t ? <-.
  destruct (prnd_to_u8 _) as [p|]; [|exact Hxy]. destruct (tag_adkd t); try exact Hxy; (destruct (svn_try_from p) as [ps|]; [now apply one_tag_same|exact Hxy]).
Qed.
Lemma slow_same n' n m key prna g s : same_store n' n ->
  out_rel same_store (process_mack_slowmac n' m key prna g s) (process_mack_slowmac n m key prna g s).
Proof.
  intros H. unfold process_mack_slowmac. eapply bind_rel; [apply eq_rel|]. intros gn ? <-.
  apply fold_rel; [|exact H]. intros x y j Hxy. unfold process_slowmac_tag. eapply bind_rel; [apply eq_rel|]. intros t ? <-.
  destruct (negb _); [exact Hxy|]. destruct (prnd_to_u8 _) as [p|]; [|exact Hxy]. destruct (svn_try_from p) as [ps|]; [now apply one_tag_same|exact Hxy].
Qed.

Lemma reset_entries_same (l' l : list entry) : Forall2 same_data l' l ->
  Forall2 same_data (map (fun e => mkEntry (e_data e) (e_age e) (e_svn e) 0) l') (map (fun e => mkEntry (e_data e) (e_age e) (e_svn e) 0) l).
Proof.
  apply map_rel. intros a b (H1 & H2 & H3 & _). unfold same_data. cbn [e_data e_age e_svn e_authbits]. repeat split; auto; lia.
Qed.

Lemma call_same c n' n : same_store n' n -> out_rel same_store (nav_call_do n' c) (nav_call_do n c).
Proof.
  intros H. destruct c; cbn [nav_call_do].
  - now apply feed_same.
  - now apply mack_same.
  - now apply slow_same.
  - apply ok_rel. destruct H as (H1 & H2 & H3 & H4). unfold same_store, reset_authbits. cbn [nv_ced nv_timing nv_gsts nv_wp].
    repeat split; auto using reset_entries_same.
Qed.
Lemma calls_same l n' n : same_store n' n -> out_rel same_store (nav_calls n' l) (nav_calls n l).
Proof. apply fold_rel. intros s s' c. apply call_same. Qed.

(** The bits of a store made by calls are not negative. *)
Lemma new_same : same_store nav_new nav_new.
Proof.
  assert (G : forall k m, Forall2 same_data (repeat (entry_new k) m) (repeat (entry_new k) m)).
  { intros k m. induction m; cbn [repeat]; constructor; auto. unfold same_data, entry_new. cbn [e_authbits]. repeat split; lia. }
  unfold same_store, nav_new. cbn [nv_ced nv_timing nv_gsts nv_wp]. auto.
Qed.
Lemma reached_same l n : nav_calls nav_new l = Ok n -> same_store n n.
Proof. intros H. pose proof (calls_same l _ _ new_same) as E. rewrite H in E. exact E. Qed.

Lemma reset_same n : same_store n n -> same_store (reset_authbits n) n.
Proof.
  intros (H1 & H2 & _). assert (G : forall l, Forall2 same_data l l -> Forall2 same_data (map (fun e => mkEntry (e_data e) (e_age e) (e_svn e) 0) l) l).
  { intros l. induction l as [|e l IH]; intros H; cbn [map]; [constructor|]. inversion H as [|? ? ? ? He Hl]; subst. constructor; [|auto].
    destruct He as (_ & _ & _ & He). unfold same_data. cbn [e_data e_age e_svn e_authbits]. repeat split; lia. }
  unfold same_store, reset_authbits. cbn [nv_ced nv_timing nv_gsts nv_wp]. auto.
Qed.

(** ** Nothing is returned without bits *)

Hypothesis HS : storage_ok S.

Definition sized (n : nav) : Prop := length (nv_ced n) = nav_depth_sats /\ length (nv_timing n) = nav_depth_sats.
Definition no_bits (a b : entry) : Prop := a = b /\ e_authbits a = 0.

Lemma call_sized c n n' : sized n -> nav_call_do n c = Ok n' -> sized n'.
Proof.
  assert (L : forall n n' k l, sized n -> length l = length (nv_arr k n) -> n' = set_nv_arr k l n -> sized n').
  { intros m m' k l (M1 & M2) Hl ->. unfold sized. destruct k; cbn [set_nv_arr nv_ced nv_timing nv_arr] in *; split; congruence. }
  assert (CA : forall l a b l', copy_and_age l a b = Ok l' -> length l' = length l).
  { intros l a b l' H. unfold copy_and_age, row_of in H. apply bind_ok in H. destruct H as (r & _ & H).
    apply bind_ok in H. destruct H as (l1 & H1 & H). apply bind_ok in H. destruct H as (r2 & _ & H).
    apply copy_from_ok in H1, H. destruct H1 as (A1 & A2 & A3 & ->), H as (B1 & B2 & B3 & ->).
    rewrite length_put in * by lia. rewrite ?length_put by lia. reflexivity. }
  assert (FK : forall k w svn b m m', sized m -> nav_feed_kind k w svn b m = Ok m' -> sized m').
  { intros k w svn b m m' Hm H. unfold nav_feed_kind in H. cbn zeta in H. apply bind_ok in H. destruct H as (r & _ & H). apply bind_ok in H. destruct H as (i & _ & H).
    apply bind_ok in H. destruct H as (e & _ & H). apply bind_ok in H. destruct H as (r2 & _ & H). apply bind_ok in H. destruct H as (l & Hl & H).
    injection H as <-. apply copy_from_ok in Hl. destruct Hl as (A1 & A2 & A3 & ->). refine (L m _ k _ Hm _ eq_refl). apply length_put. lia. }
  assert (OT : forall k key tag cop gm gn prnd ps prna j s m m', sized m -> process_one_tag k key tag cop gm gn prnd ps prna j s m = Ok m' -> sized m').
  { intros k key tag cop gm gn prnd ps prna j s m m' Hm H. unfold process_one_tag in H. destruct (cop =? 0).
    - apply bind_ok in H. destruct H as (? & _ & H). now injection H as <-.
    - apply bind_ok in H. destruct H as (e & _ & H). destruct e as [e|]; [|now injection H as <-].
      destruct (_ <=? cop); [|now injection H as <-]. apply bind_ok in H. destruct H as ((r & l) & Hv & H). injection H as <-.
      unfold nav_validate_tag in Hv. apply bind_ok in Hv. destruct Hv as (ctr & _ & Hv). apply bind_ok in Hv. destruct Hv as (ret & _ & Hv).
      injection Hv as <- <-. refine (L m _ k _ Hm _ eq_refl). destruct ret; [|reflexivity]. destruct s; unfold add_authbits_all; rewrite ?map_length; reflexivity. }
  intros Hn H. destruct c as [w svn g b|m key prna g s|m key prna g s|]; cbn [nav_call_do] in H.
  - unfold nav_feed in H. cbn zeta in H. apply bind_ok in H. destruct H as (n1 & H1 & H). apply bind_ok in H. destruct H as (n2 & H2 & H).
    assert (Hn1 : sized n1).
    { unfold nav_adjust in H1. apply bind_ok in H1. destruct H1 as (cur & _ & H1). apply bind_ok in H1. destruct H1 as (n0 & H0 & H1).
      apply bind_ok in H1. destruct H1 as (gs & _ & H1). injection H1 as <-. unfold sized. cbn [nv_ced nv_timing].
      destruct Hn as (N1 & N2). destruct cur as [g0|]; [|injection H0 as <-; auto]. destruct (negb _); [|injection H0 as <-; auto].
      apply bind_ok in H0. destruct H0 as (c1 & E1 & H0). apply bind_ok in H0. destruct H0 as (t1 & E2 & H0). injection H0 as <-.
      cbn [nv_ced nv_timing]. apply CA in E1, E2. split; congruence. }
    eapply FK; [|exact H]. eapply FK; [exact Hn1|exact H2].
  - unfold process_mack in H. apply bind_ok in H. destruct H as (gn & _ & H). apply bind_ok in H. destruct H as (cop & _ & H).
    apply bind_ok in H. destruct H as (t0 & _ & H). apply bind_ok in H. destruct H as (n1 & H1 & H). apply OT in H1; [|exact Hn].
    revert H. apply (fold_outcome_inv _ sized); [|exact H1]. intros x j y _ Hx Hy. unfold process_mack_tag in Hy. apply bind_ok in Hy. destruct Hy as (t & _ & Hy).
    destruct (prnd_to_u8 _) as [p|]; [|now injection Hy as <-]. destruct (tag_adkd t); try (injection Hy as <-; exact Hx);
      (destruct (svn_try_from p) as [ps|]; [eapply OT; [exact Hx|exact Hy]|now injection Hy as <-]).
  - unfold process_mack_slowmac in H. apply bind_ok in H. destruct H as (gn & _ & H).
    revert H. apply (fold_outcome_inv _ sized); [|exact Hn]. intros x j y _ Hx Hy. unfold process_slowmac_tag in Hy. apply bind_ok in Hy. destruct Hy as (t & _ & Hy).
    destruct (negb _); [now injection Hy as <-|]. destruct (prnd_to_u8 _) as [p|]; [|now injection Hy as <-].
    destruct (svn_try_from p) as [ps|]; [eapply OT; [exact Hx|exact Hy]|now injection Hy as <-].
  - injection H as <-. destruct Hn as (N1 & N2). unfold sized, reset_authbits. cbn [nv_ced nv_timing]. rewrite !map_length. auto.
Qed.
Lemma calls_sized l n : nav_calls nav_new l = Ok n -> sized n.
Proof.
  unfold nav_calls. apply (fold_outcome_inv _ sized).
  - intros s c s' _ Hs H. exact (call_sized c s s' Hs H).
  - unfold sized, nav_new. cbn [nv_ced nv_timing]. now rewrite !repeat_length.
Qed.

Lemma no_bits_in l e : Forall2 no_bits l l -> In e l -> e_authbits e = 0.
Proof.
  assert (G : forall m m', Forall2 no_bits m m' -> In e m -> e_authbits e = 0).
  { intros m m' HF. induction HF as [|x y m m' Hx _ IH]; cbn [In]; [tauto|]. intros [<-|Hin]; [exact (proj2 Hx)|exact (IH Hin)]. }
  exact (G l l).
Qed.
Lemma none_without_bits k n svn : sized n -> stores_rel no_bits n n -> nav_get k n svn = Ok None.
Proof.
  intros Hs H. unfold nav_get. generalize (seq 0 nav_depth) as js. pose proof (arr_rel no_bits k n n H) as Ha.
  destruct HS as (P1 & P2 & _ & P4 & _).
  assert (Hl : length (nv_arr k n) = (num_sats * nav_depth)%nat) by (destruct Hs as (S1 & S2); destruct k; cbn [nv_arr]; congruence).
  induction js as [|j js IH]; cbn [nav_get_from]; [reflexivity|].
  set (i := ((nav_depth + nv_wp n - j) mod nav_depth)%nat). assert (Hi : (i < nav_depth)%nat) by (apply Nat.mod_upper_bound; lia).
  unfold row_of. rewrite slice_in by nia. cbn [bind].
  destruct (find_first _ _) as [e|] eqn:E; [|exact IH]. exfalso. unfold find_first in E. apply find_some in E. destruct E as (Hin & E).
  apply In_sub in Hin. pose proof (no_bits_in _ e Ha Hin) as Hz.
  unfold min_authbits in E. apply andb_true_iff in E. destruct E as (_ & E). lia.
Qed.

Lemma reset_no_bits n : stores_rel no_bits (reset_authbits n) (reset_authbits n).
Proof.
  unfold stores_rel, reset_authbits. cbn [nv_ced nv_timing nv_gsts nv_wp].
  assert (G : forall l, Forall2 no_bits (map (fun e => mkEntry (e_data e) (e_age e) (e_svn e) 0) l) (map (fun e => mkEntry (e_data e) (e_age e) (e_svn e) 0) l)).
  { intros l. induction l; cbn [map]; constructor; auto. split; reflexivity. }
  auto.
Qed.

Lemma no_bits_feed k w svn bd a b : no_bits a b -> no_bits (entry_feed k w svn bd a) (entry_feed k w svn bd b).
Proof.
  intros (<- & H). split; [reflexivity|].
  assert (G : same_data a (mkEntry (e_data a) (e_age a) (e_svn a) 0)) by (unfold same_data; cbn [e_data e_age e_svn e_authbits]; repeat split; lia).
  assert (H0 : e_authbits (entry_select_svn svn a) = 0) by (unfold entry_select_svn, entry_reset; cbn zeta; destruct (e_svn a) as [s|]; [destruct (s =? svn)|]; cbn [e_authbits]; auto).
  assert (HC : forall x y src i, e_authbits (copy_word x y src i (entry_select_svn svn a)) = 0) by (intros; unfold copy_word; cbn zeta; destruct (bits_eqb _ _); cbn [e_authbits]; auto).
  destruct k; cbn [entry_feed]; unfold ced_feed, timing_feed; cbn zeta.
  - destruct (word_type _) as [|p|p]; auto. do 3 (destruct p as [p|p|]; auto).
  - destruct (word_type _) as [|p|p]; auto. do 4 (destruct p as [p|p|]; try (destruct bd); auto).
Qed.

Lemma words_no_bits l n n' : Forall is_word l -> stores_rel no_bits n n -> nav_calls n l = Ok n' -> stores_rel no_bits n' n'.
Proof.
  revert n. unfold nav_calls. induction l as [|c l IH]; intros n Hw Hn H; cbn [fold_outcome] in H.
  - now injection H as <-.
  - inversion Hw as [|? ? Hc Hl]; subst. apply bind_ok in H. destruct H as (n1 & H1 & H). apply (IH n1 Hl); [|exact H].
    destruct c as [w svn g b| | |]; cbn [is_word] in Hc; try contradiction. cbn [nav_call_do] in H1.
    assert (E : out_rel (stores_rel no_bits) (nav_feed n w svn g b) (nav_feed n w svn g b)).
    { apply feed_rel; [intros x y (-> & _); reflexivity|intros x y (-> & _); reflexivity|intros x y (-> & Hx); split; [reflexivity|exact Hx]|exact no_bits_feed|exact Hn]. }
    rewrite H1 in E. exact E.
Qed.

(** ** Together *)

Lemma calls_app l l' n : nav_calls n (l ++ l') = bind (nav_calls n l) (fun m => nav_calls m l').
Proof. unfold nav_calls. apply fold_outcome_app. Qed.

Lemma reset_then before after k svn n : Forall is_word after -> nav_calls nav_new (before ++ NvReset :: after) = Ok n -> nav_get k n svn = Ok None.
Proof.
  intros Hw H. pose proof (calls_sized _ _ H) as Hs. apply none_without_bits; [exact Hs|].
  rewrite calls_app in H. apply bind_ok in H. destruct H as (n0 & _ & H). unfold nav_calls in H. cbn [fold_outcome nav_call_do bind] in H.
  exact (words_no_bits after _ n Hw (reset_no_bits n0) H).
Qed.

Lemma reset_keeps before after :
  out_rel same_store (nav_calls nav_new (before ++ NvReset :: after)) (nav_calls nav_new (before ++ after)).
Proof.
  rewrite !calls_app. destruct (nav_calls nav_new before) as [n|] eqn:E; cbn [bind]; [|exact I].
  unfold nav_calls at 1. cbn [fold_outcome nav_call_do bind]. apply calls_same. apply reset_same. exact (reached_same _ _ E).
Qed.
End Tags.

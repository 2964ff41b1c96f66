(** Navigation data words of different satellites and the order of the calls. *)
From Coq Require Import ZArith List Bool Lia ZifyBool ZifyNat Permutation.
From Verif Require Import Model.Prelude Model.Params Model.Gst Model.Svn Model.Bitfields
  Model.Maclt Model.Tesla Model.Merkle Model.Subframe Model.Dsm Model.MackStore Model.Nav Model.Osnma
  Spec.TimeSpec Spec.CollectSpec Spec.NavSpec Spec.KeySpec Spec.SystemSpec Spec.StoredSpec Spec.CompleteSpec Spec.OrderSpec
  Proofs.Base Proofs.Ring Proofs.Rows Proofs.GstProofs Proofs.NavProofs Proofs.EntryProofs Proofs.NavInv
  Proofs.SubframeProofs Proofs.SystemProofs Proofs.StepProofs Proofs.TotalProofs Proofs.StoredProofs Proofs.OrderProofs.
Import ListNotations.
Open Scope Z_scope.

(** ** Rows with the same entries in different positions *)

Lemma put_split {A} (r : list A) i e e' : nth_error r i = Some e ->
  exists l, Permutation r (e :: l) /\ Permutation (put i [e'] r) (e' :: l).
Proof.
  intros H. destruct (nth_error_split r i H) as (l1 & l2 & -> & <-). exists (l1 ++ l2). split.
  - symmetry. apply Permutation_middle.
  - unfold put. rewrite firstn_app, Nat.sub_diag, firstn_all, firstn_O, app_nil_r. cbn [length].
    replace (skipn (length l1 + 1) (l1 ++ e :: l2)) with l2.
    + cbn [app]. symmetry. apply Permutation_middle.
    + rewrite skipn_app, skipn_all2 by lia. replace (length l1 + 1 - length l1)%nat with 1%nat by lia. reflexivity.
Qed.

Section Rows.
Variable D : list Z.

(** A row without duplicated satellites, all of them in [D], with room for all of [D], where the
    entries without a satellite were never used. *)
Record good (k : nav_kind) (r : list entry) : Prop := {
  gd_ok : row_ok k r;
  gd_fresh : forall e, In e r -> e_svn e = None -> e = entry_new k;
  gd_in : forall e s, In e r -> e_svn e = Some s -> In s D;
  gd_room : (length D <= length r)%nat;
  gd_pos : (0 < length r)%nat
}.

Lemma good_unique k r e e' s : good k r -> In e r -> In e' r -> e_svn e = Some s -> e_svn e' = Some s -> e = e'.
Proof.
  intros G H1 H2 E1 E2. pose proof (gd_ok _ _ G) as Hr.
  assert (F1 : find (has_svn s) r = Some e) by (apply (find_svn_some k); auto).
  assert (F2 : find (has_svn s) r = Some e') by (apply (find_svn_some k); auto). congruence.
Qed.

(** The entry that a word of the satellite goes to. *)
Definition slot (k : nav_kind) (svn : Z) (r : list entry) (e : entry) : Prop :=
  e_svn e = Some svn \/ (e = entry_new k /\ forall x, In x r -> e_svn x <> Some svn).

Lemma feed_slot k word svn b r : good k r -> In svn D ->
  exists e l, slot k svn r e /\ Permutation r (e :: l) /\
    Permutation (feed_row k word svn b r) (entry_feed k word svn b e :: l).
Proof.
  intros G Hs. destruct (feed_row_slot k word svn b r (gd_ok _ _ G) (gd_pos _ _ G)) as (i & e & Hi & -> & Hc).
  destruct (put_split r i e (entry_feed k word svn b e) Hi) as (l & P1 & P2). exists e, l. split; [|auto].
  apply nth_error_In in Hi. destruct Hc as [Hc|(Hn & Hc)]; [now left|]. right. split; [|exact Hn].
  destruct (row_room_in k r svn D (gd_ok _ _ G) (gd_room _ _ G) Hs (gd_in _ _ G) Hn) as (x & Hx & Ex).
  destruct Hc as [Hc|(Hc & _)]; [now apply (gd_fresh _ _ G)|]. now elim (Hc x Hx).
Qed.

(** It is the same one in whatever way the row is arranged. *)
Lemma feed_slot_det k word svn b r r' e l : good k r -> In svn D -> good k r' -> Permutation r r' ->
  Permutation r' (e :: l) -> slot k svn r' e -> Permutation (feed_row k word svn b r) (entry_feed k word svn b e :: l).
Proof.
  intros G Hs G' P P' Hsl. destruct (feed_slot k word svn b r G Hs) as (e1 & l1 & H1 & P1 & P2).
  assert (Hin : forall x, In x r <-> In x r').
  { intros x. split; apply Permutation_in; [exact P|now symmetry]. }
  assert (I1 : In e1 r) by (eapply Permutation_in; [symmetry; exact P1|now left]).
  assert (I2 : In e r') by (eapply Permutation_in; [symmetry; exact P'|now left]).
  assert (E : e1 = e).
  { destruct H1 as [H1|(H1 & N1)], Hsl as [H2|(H2 & N2)].
    - apply (good_unique k r' e1 e svn G'); auto. now apply Hin.
    - elim (N2 e1); [now apply Hin|exact H1].
    - elim (N1 e); [now apply Hin|exact H2].
    - congruence. }
  subst e1. rewrite P2. apply perm_skip. apply (Permutation_cons_inv (a := e)). now rewrite <- P1, <- P'.
Qed.

Lemma feed_good k word svn b r : good k r -> In svn D -> bytes_ok 16 word -> 1 <= svn <= 36 ->
  good k (feed_row k word svn b r).
Proof.
  intros G Hs Hb Hv. destruct (feed_slot k word svn b r G Hs) as (e & l & H1 & P1 & P2).
  assert (Hin : forall x, In x (feed_row k word svn b r) -> x = entry_feed k word svn b e \/ In x r).
  { intros x Hx. apply (Permutation_in _ P2) in Hx. destruct Hx as [<-|Hx]; [now left|right].
    eapply Permutation_in; [symmetry; exact P1|now right]. }
  split.
  - apply feed_row_ok; auto; apply G.
  - intros x Hx Ex. destruct (Hin x Hx) as [->|Hi]; [rewrite entry_feed_svn in Ex; discriminate|]. now apply (gd_fresh _ _ G).
  - intros x s Hx Ex. destruct (Hin x Hx) as [->|Hi]; [rewrite entry_feed_svn in Ex; congruence|]. eapply gd_in; eauto.
  - rewrite length_feed_row. apply G.
  - rewrite length_feed_row. apply G.
Qed.

Definition row_sim (k : nav_kind) (r r' : list entry) : Prop := Permutation r r' /\ good k r /\ good k r'.

Lemma feed_sim k word svn b r r' : row_sim k r r' -> In svn D -> bytes_ok 16 word -> 1 <= svn <= 36 ->
  row_sim k (feed_row k word svn b r) (feed_row k word svn b r').
Proof.
  intros (P & G & G') Hs Hb Hv. split; [|split; now apply feed_good].
  destruct (feed_slot k word svn b r' G' Hs) as (e & l & H1 & P1 & P2). rewrite P2.
  now apply (feed_slot_det k word svn b r r').
Qed.

(** Two satellites. *)
Lemma feed_swap k w1 s1 b1 w2 s2 b2 r r' : row_sim k r r' -> In s1 D -> In s2 D -> s1 <> s2 ->
  bytes_ok 16 w1 -> 1 <= s1 <= 36 -> bytes_ok 16 w2 -> 1 <= s2 <= 36 ->
  row_sim k (feed_row k w2 s2 b2 (feed_row k w1 s1 b1 r)) (feed_row k w1 s1 b1 (feed_row k w2 s2 b2 r')).
Proof.
  intros (P & G & G') I1 I2 Hn B1 V1 B2 V2.
  pose proof (feed_good k w1 s1 b1 r G I1 B1 V1) as GA. pose proof (feed_good k w2 s2 b2 r' G' I2 B2 V2) as GB.
  split; [|split; now apply feed_good].
  destruct (feed_slot k w1 s1 b1 r G I1) as (ea & l & Ha & P1 & P2).
  destruct (feed_slot k w2 s2 b2 _ GA I2) as (eb & m & Hb & P3 & P4).
  assert (Hl : exists l2, Permutation l (eb :: l2)).
  { assert (Hi : In eb (entry_feed k w1 s1 b1 ea :: l)).
    { eapply Permutation_in; [exact P2|]. eapply Permutation_in; [symmetry; exact P3|now left]. }
    destruct Hi as [Hi|Hi].
    - exfalso. destruct Hb as [Hb|(Hb & _)]; rewrite <- Hi in Hb.
      + rewrite entry_feed_svn in Hb. congruence.
      + apply (f_equal e_svn) in Hb. rewrite entry_feed_svn in Hb. discriminate.
    - apply in_split in Hi. destruct Hi as (x & y & ->). exists (x ++ y). symmetry. apply Permutation_middle. }
  destruct Hl as (l2 & Pl).
  assert (Pm : Permutation m (entry_feed k w1 s1 b1 ea :: l2)).
  { apply (Permutation_cons_inv (a := eb)). rewrite <- P3, P2, Pl. apply perm_swap. }
  rewrite P4, Pm.
  assert (Pr : Permutation r' (eb :: ea :: l2)).
  { rewrite <- P, P1, Pl. apply perm_swap. }
  assert (Sb : slot k s2 r' eb).
  { destruct Hb as [Hb|(Hb & N)]; [now left|right]. split; [exact Hb|]. intros x Hx Ex.
    apply (Permutation_in _ (Permutation_sym P)) in Hx. apply (Permutation_in _ P1) in Hx. destruct Hx as [<-|Hx].
    - destruct Ha as [Ha|(Ha & _)]; [congruence|]. rewrite Ha in Ex. discriminate.
    - apply (N x); [|exact Ex]. eapply Permutation_in; [symmetry; exact P2|now right]. }
  assert (PB : Permutation (feed_row k w2 s2 b2 r') (entry_feed k w2 s2 b2 eb :: ea :: l2)) by (apply (feed_slot_det k w2 s2 b2 r' r'); auto).
  assert (Sa : slot k s1 (feed_row k w2 s2 b2 r') ea).
  { destruct Ha as [Ha|(Ha & N)]; [now left|right]. split; [exact Ha|]. intros x Hx Ex.
    apply (Permutation_in _ PB) in Hx. destruct Hx as [<-|Hx]; [rewrite entry_feed_svn in Ex; congruence|].
    apply (N x); [|exact Ex]. eapply Permutation_in; [symmetry; exact P|]. eapply Permutation_in; [symmetry; exact Pr|now right]. }
  symmetry. rewrite (feed_slot_det k w1 s1 b1 _ _ ea (entry_feed k w2 s2 b2 eb :: l2) GB I1 GB (Permutation_refl _)); [apply perm_swap| |exact Sa].
  rewrite PB. apply perm_swap.
Qed.

(** Functions applied to all the entries. *)
Lemma map_good k f r : neutral k f -> f (entry_new k) = entry_new k -> good k r -> good k (map f r).
Proof.
  intros Hf Hn G. split.
  - apply map_row_ok; [exact Hf|apply G].
  - intros e He Ee. apply in_map_iff in He. destruct He as (x & <- & Hx). rewrite (proj1 Hf) in Ee.
    rewrite (gd_fresh _ _ G x Hx Ee). exact Hn.
  - intros e s He Ee. apply in_map_iff in He. destruct He as (x & <- & Hx). rewrite (proj1 Hf) in Ee. eapply gd_in; eauto.
  - rewrite map_length. apply G.
  - rewrite map_length. apply G.
Qed.

Lemma map_sim k f r r' : neutral k f -> f (entry_new k) = entry_new k -> row_sim k r r' -> row_sim k (map f r) (map f r').
Proof. intros Hf Hn (P & G & G'). split; [now apply Permutation_map|split; now apply map_good]. Qed.

(** Searching finds the same. *)
Lemma find_sim k svn (q : entry -> bool) r r' : row_sim k r r' ->
  find (fun e => has_svn svn e && q e) r = find (fun e => has_svn svn e && q e) r'.
Proof.
  intros (P & G & G'). destruct (find _ r) as [e|] eqn:E1, (find _ r') as [e'|] eqn:E2; try reflexivity.
  - apply find_some in E1, E2. destruct E1 as (I1 & E1), E2 as (I2 & E2). apply andb_true_iff in E1, E2.
    destruct E1 as (E1 & _), E2 as (E2 & _). apply has_svn_iff in E1, E2. f_equal.
    apply (good_unique k r' e e' svn G'); auto. now apply (Permutation_in _ P).
  - apply find_some in E1. destruct E1 as (I1 & E1). apply (Permutation_in _ P) in I1.
    pose proof (find_none _ _ E2 _ I1) as Q. cbv beta in Q. congruence.
  - apply find_some in E2. destruct E2 as (I2 & E2). apply (Permutation_in _ (Permutation_sym P)) in I2.
    pose proof (find_none _ _ E1 _ I2) as Q. cbv beta in Q. congruence.
Qed.

Lemma find_svn_sim k svn r r' : row_sim k r r' -> find (has_svn svn) r = find (has_svn svn) r'.
Proof.
  intros H. pose proof (find_sim k svn (fun _ => true) r r' H) as E.
  assert (X : forall l, find (fun e => has_svn svn e && true) l = find (has_svn svn) l).
  { induction l as [|x l IH]; [reflexivity|]. cbn [find]. now rewrite andb_true_r, IH. }
  now rewrite !X in E.
Qed.

End Rows.

(** ** Storages *)

Lemma Forall2_nth {A B} (R : A -> B -> Prop) l l' : Forall2 R l l' -> forall a x y,
  nth_error l a = Some x -> nth_error l' a = Some y -> R x y.
Proof.
  induction 1 as [|u v l l' Huv _ IH]; intros [|a] x y; cbn [nth_error]; try discriminate; [congruence|apply IH].
Qed.

Lemma Forall2_len {A B} (R : A -> B -> Prop) l l' : Forall2 R l l' -> length l = length l'.
Proof. induction 1 as [|x y l l' _ _ IH]; [reflexivity|]. cbn [length]. now rewrite IH. Qed.

Lemma Forall2_snoc {A B} (R : A -> B -> Prop) l x l' : Forall2 R (l ++ [x]) l' ->
  exists m y, l' = m ++ [y] /\ Forall2 R l m /\ R x y.
Proof.
  intros H. apply Forall2_app_inv_l in H. destruct H as (m & m' & H1 & H2 & ->). inversion H2 as [|u v ? ? Hxy Hnil E1 E2]; subst.
  inversion Hnil; subst. eauto.
Qed.

Section Storage.
Context {S : storage}.
Hypothesis HS : storage_ok S.
Variable D : list Z.
Hypothesis HD : (length D <= num_sats)%nat.

Definition snap_sim (s s' : snap) : Prop := s_gst s = s_gst s' /\ forall k, row_sim D k (s_row k s) (s_row k s').
Definition nav_sim (n n' : nav) : Prop :=
  exists hs hs', represents_nav hs n /\ represents_nav hs' n' /\ Forall2 snap_sim hs hs'.

Lemma fresh_good k : good D k (fresh_row k).
Proof.
  destruct (nv_sizes HS) as (Hs & _). split.
  - apply fresh_row_ok.
  - intros e He _. now apply repeat_spec in He.
  - intros e s He Ee. apply repeat_spec in He. subst e. discriminate.
  - unfold fresh_row. now rewrite repeat_length.
  - unfold fresh_row. now rewrite repeat_length.
Qed.

Lemma fresh_sim k : row_sim D k (fresh_row k) (fresh_row k).
Proof. split; [reflexivity|split; apply fresh_good]. Qed.

Lemma sim_new : nav_sim nav_new nav_new.
Proof. exists [], []. split; [|split]; [apply represents_nav_new; exact HS|apply represents_nav_new; exact HS|constructor]. Qed.

Lemma age_fresh k : age_entry (entry_new k) = entry_new k.
Proof. destruct k; reflexivity. Qed.

Lemma age_sim s s' g : snap_sim s s' ->
  snap_sim (mkSnap g (map age_entry (s_ced s)) (map age_entry (s_timing s)))
           (mkSnap g (map age_entry (s_ced s')) (map age_entry (s_timing s'))).
Proof.
  intros (_ & H). split; [reflexivity|]. intros k. pose proof (H k) as Hk.
  destruct k; cbn [s_row s_ced s_timing] in *; apply map_sim; auto using age_neutral, age_fresh.
Qed.

Lemma adjust_sim hs hs' g : Forall2 snap_sim hs hs' -> Forall2 snap_sim (abs_adjust hs g) (abs_adjust hs' g).
Proof.
  destruct hs as [|s hs _] using rev_ind; intros H.
  - inversion H; subst. unfold abs_adjust. cbn [rev]. constructor; [|constructor]. split; [reflexivity|].
    intros k. destruct k; apply fresh_sim.
  - apply Forall2_snoc in H. destruct H as (m & y & -> & H1 & H2). rewrite !abs_adjust_snoc.
    rewrite <- (proj1 H2). destruct (gst_eqb (s_gst s) g).
    + apply Forall2_app; auto.
    + apply Forall2_app; [apply Forall2_app; auto|]. constructor; [now apply age_sim|constructor].
Qed.

Lemma feed_snap_sim word svn b s s' : snap_sim s s' -> In svn D -> bytes_ok 16 word -> 1 <= svn <= 36 ->
  snap_sim (feed_snap word svn b s) (feed_snap word svn b s').
Proof.
  intros (E & H) Hs Hb Hv. split; [exact E|]. intros k. pose proof (H k) as Hk. destruct k; cbn [feed_snap s_row s_ced s_timing] in *; now apply feed_sim.
Qed.

Lemma map_last_sim (f g : snap -> snap) hs hs' : Forall2 snap_sim hs hs' ->
  (forall s s', snap_sim s s' -> snap_sim (f s) (g s')) -> Forall2 snap_sim (map_last f hs) (map_last g hs').
Proof.
  intros H Hf. destruct hs as [|s hs _] using rev_ind.
  - inversion H; subst. constructor.
  - apply Forall2_snoc in H. destruct H as (m & y & -> & H1 & H2). rewrite !map_last_snoc. apply Forall2_app; auto.
Qed.

Lemma nav_feed_sim n n' n1 word svn g b : nav_sim n n' -> In svn D -> bytes_ok 16 word -> 1 <= svn <= 36 ->
  nav_feed n word svn g b = Ok n1 -> exists n1', nav_feed n' word svn g b = Ok n1' /\ nav_sim n1 n1'.
Proof.
  intros (hs & hs' & R & R' & H) Hs Hb Hv E.
  destruct (nav_feed_spec HS hs n word svn g b R) as (m & Em & Rm). destruct (nav_feed_spec HS hs' n' word svn g b R') as (m' & Em' & Rm').
  assert (m = n1) by congruence. subst m. exists m'. split; [exact Em'|]. exists (abs_feed hs word svn g b), (abs_feed hs' word svn g b).
  split; [exact Rm|split; [exact Rm'|]]. unfold abs_feed. apply map_last_sim; [now apply adjust_sim|].
  intros s s' Hss. now apply feed_snap_sim.
Qed.

(** Two words of different satellites in the same subframe. *)
Lemma abs_adjust_again hs f g : (forall s, s_gst (f s) = s_gst s) -> abs_adjust (map_last f (abs_adjust hs g)) g = map_last f (abs_adjust hs g).
Proof.
  intros Hf. destruct (abs_adjust_last hs g) as (h' & s & -> & Eg). rewrite map_last_snoc, abs_adjust_snoc, Hf, Eg, gst_eqb_refl. reflexivity.
Qed.

Lemma map_last_twice {A} (f g : A -> A) l : map_last f (map_last g l) = map_last (fun x => f (g x)) l.
Proof. destruct l as [|x l _] using rev_ind; [reflexivity|]. now rewrite !map_last_snoc. Qed.

Lemma nav_feed_swap n n' n1 n2 w1 s1 g1 b1 w2 s2 g2 b2 : nav_sim n n' -> In s1 D -> In s2 D -> s1 <> s2 ->
  gst_subframe g1 = gst_subframe g2 -> bytes_ok 16 w1 -> 1 <= s1 <= 36 -> bytes_ok 16 w2 -> 1 <= s2 <= 36 ->
  nav_feed n w1 s1 g1 b1 = Ok n1 -> nav_feed n1 w2 s2 g2 b2 = Ok n2 ->
  exists n1' n2', nav_feed n' w2 s2 g2 b2 = Ok n1' /\ nav_feed n1' w1 s1 g1 b1 = Ok n2' /\ nav_sim n2 n2'.
Proof.
  intros (hs & hs' & R & R' & H) I1 I2 Hn Hg B1 V1 B2 V2 E1 E2.
  destruct (nav_feed_spec HS hs n w1 s1 g1 b1 R) as (m1 & Em1 & R1). assert (m1 = n1) by congruence. subst m1.
  destruct (nav_feed_spec HS _ n1 w2 s2 g2 b2 R1) as (m2 & Em2 & R2). assert (m2 = n2) by congruence. subst m2.
  destruct (nav_feed_spec HS hs' n' w2 s2 g2 b2 R') as (n1' & En1 & R1').
  destruct (nav_feed_spec HS _ n1' w1 s1 g1 b1 R1') as (n2' & En2 & R2').
  exists n1', n2'. split; [exact En1|split; [exact En2|]]. do 2 eexists. split; [exact R2|split; [exact R2'|]].
  unfold abs_feed. rewrite Hg, !abs_adjust_again by reflexivity. rewrite !map_last_twice. apply map_last_sim; [now apply adjust_sim|].
  intros s s' (Es & Hs). split; [exact Es|]. intros k. pose proof (Hs k) as Hk.
  destruct k; cbn [feed_snap s_row s_ced s_timing] in *; now apply feed_swap.
Qed.

(** What is read is the same. *)
Lemma sim_get n n' i : nav_sim n n' -> (i < nav_depth)%nat ->
  nth i (nv_gsts n) None = nth i (nv_gsts n') None /\
  forall k, row_sim D k (row num_sats (nv_arr k n) i) (row num_sats (nv_arr k n') i).
Proof.
  intros (hs & hs' & R & R' & H) Hi. destruct (nv_sizes HS) as (Hs & Hd & Hds).
  destruct R as (_ & _ & _ & _ & _ & Ra & Rb), R' as (_ & _ & _ & _ & _ & Ra' & Rb').
  rewrite map_length in Ra, Rb, Ra', Rb'. pose proof (Forall2_len _ _ _ H) as Hl. rewrite <- Hl in Ra', Rb'.
  destruct (Nat.lt_ge_cases i (length hs)) as [Hlt|Hge].
  - (* the last element at this position *)
    set (a := (i + nav_depth * ((length hs - 1 - i) / nav_depth))%nat).
    assert (Ha : (a mod nav_depth = i)%nat).
    { unfold a. rewrite (Nat.mul_comm nav_depth), Nat.mod_add by lia. now apply Nat.mod_small. }
    assert (Hb : (a < length hs /\ length hs <= a + nav_depth)%nat).
    { unfold a. pose proof (Nat.div_mod (length hs - 1 - i) nav_depth ltac:(lia)) as Q.
      pose proof (Nat.mod_upper_bound (length hs - 1 - i) nav_depth ltac:(lia)) as U. lia. }
    destruct Hb as (Hb & Hc). rewrite <- Ha.
    destruct (nth_error hs a) as [s|] eqn:Es; [|apply nth_error_None in Es; lia].
    destruct (nth_error hs' a) as [s'|] eqn:Es'; [|apply nth_error_None in Es'; lia].
    pose proof (Forall2_nth _ _ _ H a s s' Es Es') as (Hg & Hk).
    assert (G : nv_get n (a mod nav_depth) = of_snap s) by (apply Ra; [rewrite nth_error_map, Es; reflexivity|exact Hc]).
    assert (G' : nv_get n' (a mod nav_depth) = of_snap s') by (apply Ra'; [rewrite nth_error_map, Es'; reflexivity|exact Hc]).
    unfold nv_get, of_snap in G, G'. apply pair_equal_spec in G, G'. destruct G as (G1 & G), G' as (G1' & G'). apply pair_equal_spec in G, G'.
    destruct G as (G2 & G3), G' as (G2' & G3'). split; [congruence|]. intros k. pose proof (Hk k) as Hkk.
    destruct k; cbn [nv_arr s_row] in *; [rewrite G2, G2'|rewrite G3, G3']; exact Hkk.
  - assert (G : nv_get n i = nv_default) by (apply Rb; lia). assert (G' : nv_get n' i = nv_default) by (apply Rb'; lia).
    unfold nv_get, nv_default in G, G'. apply pair_equal_spec in G, G'. destruct G as (G1 & G), G' as (G1' & G'). apply pair_equal_spec in G, G'.
    destruct G as (G2 & G3), G' as (G2' & G3'). split; [congruence|]. intros k.
    destruct k; cbn [nv_arr] in *; [rewrite G2, G2'|rewrite G3, G3']; apply fresh_sim.
Qed.

Lemma sim_shape n n' : nav_sim n n' -> nv_wp n = nv_wp n' /\ nv_gsts n = nv_gsts n' /\
  forall k, length (nv_arr k n) = (num_sats * nav_depth)%nat /\ length (nv_arr k n') = (num_sats * nav_depth)%nat.
Proof.
  intros Hsim. assert (G : forall i, (i < nav_depth)%nat -> nth i (nv_gsts n) None = nth i (nv_gsts n') None) by (intros i Hi; apply (sim_get n n' i Hsim Hi)).
  destruct Hsim as (hs & hs' & R & R' & H). split; [|split].
  - destruct R as (_ & _ & _ & R & _), R' as (_ & _ & _ & R' & _). rewrite R, R'. now rewrite (Forall2_len _ _ _ H).
  - destruct R as (_ & _ & R & _), R' as (_ & _ & R' & _). apply (nth_ext _ _ None None); [congruence|]. intros i Hi. apply G. congruence.
  - intros k. split; eapply nv_arr_length; eauto.
Qed.

Lemma find_entry_sim k n n' svn g : nav_sim n n' -> find_entry k n svn g = find_entry k n' svn g.
Proof.
  intros Hsim. destruct (sim_shape n n' Hsim) as (Hw & Hg & Hl). destruct (Hl k) as (L1 & L2). unfold find_entry, find_gst. rewrite Hg.
  destruct (is_subframe g); [|reflexivity]. cbn [assert_ bind].
  destruct (position _ (nv_gsts n')) as [i|] eqn:Ei; [|reflexivity].
  destruct (Nat.lt_ge_cases i nav_depth) as [Hi|Hi].
  - unfold row_of. rewrite !(row_slice _ nav_depth) by auto. cbn [bind]. unfold find_first. f_equal.
    change (fun e => option_eqb Z.eqb (e_svn e) (Some svn)) with (has_svn svn).
    apply (find_svn_sim D k). now apply sim_get.
  - unfold row_of, slice. rewrite L1, L2. cbn [bind]. destruct (_ && _) eqn:E; [|reflexivity]. exfalso.
    destruct (nv_sizes HS) as (Hs & Hd & Hds). clear - E Hi Hs Hd. apply andb_true_iff in E. destruct E as (_ & E). nia.
Qed.

Lemma map_sim_nav k f n n' : nav_sim n n' -> neutral k f -> f (entry_new k) = entry_new k ->
  nav_sim (set_nv_arr k (map f (nv_arr k n)) n) (set_nv_arr k (map f (nv_arr k n')) n').
Proof.
  intros (hs & hs' & R & R' & H) Hf Hn. exists (map_snaps k f hs), (map_snaps k f hs').
  split; [now apply map_entries_spec|split; [now apply map_entries_spec|]].
  unfold map_snaps. clear R R'. induction H as [|s s' l l' (Hg & Hk) _ IH]; [constructor|]. cbn [map]. constructor; [|exact IH].
  split; [destruct k; exact Hg|]. intros k'. pose proof (Hk k') as Hkk. destruct k, k'; cbn [set_s_row s_row s_ced s_timing] in *; auto; now apply map_sim.
Qed.

Lemma arr_same k n : set_nv_arr k (nv_arr k n) n = n.
Proof. destruct k, n; reflexivity. Qed.

Section Tags.
Context {C : crypto} {B : build}.

(** A function on storages that does the same to similar ones. *)
Definition respects (f : nav -> outcome nav) : Prop :=
  forall n n' n1, nav_sim n n' -> f n = Ok n1 -> exists n1', f n' = Ok n1' /\ nav_sim n1 n1'.

Lemma respects_id : respects (fun n => Ok n).
Proof. intros n n' n1 H E. exists n'. split; [reflexivity|congruence]. Qed.

Lemma respects_bind f g : respects f -> respects g -> respects (fun n => m <- f n ;; g m).
Proof.
  intros Hf Hg n n' n1 H E. bind_inv E. destruct (Hf n n' x H E0) as (x' & Ex & Hx). rewrite Ex. cbn [bind].
  exact (Hg x x' n1 Hx E).
Qed.

Lemma respects_const {A} (a : outcome A) f : (forall x, respects (f x)) -> respects (fun n => x <- a ;; f x n).
Proof. intros Hf n n' n1 H E. destruct a as [x|]; [|discriminate]. cbn [bind] in *. exact (Hf x n n' n1 H E). Qed.

Lemma respects_fold {A} (f : nav -> A -> outcome nav) l : (forall x, respects (fun n => f n x)) -> respects (fold_outcome f l).
Proof.
  intros Hf. induction l as [|x l IH].
  - exact respects_id.
  - intros n n' n1 H E. cbn [fold_outcome] in *. exact (respects_bind (fun n => f n x) _ (Hf x) IH n n' n1 H E).
Qed.

Lemma process_one_tag_sim k key tag cop g1 g2 prnd psvn prna i s :
  respects (process_one_tag k key tag cop g1 g2 prnd psvn prna i s).
Proof.
  unfold process_one_tag. destruct (cop =? 0); [apply respects_const; intros _; apply respects_id|].
  intros n n' n1 H E. rewrite <- (find_entry_sim k n n' psvn g2 H). bind_inv E. rewrite E0. cbn [bind].
  destruct x as [e|]; [|exists n'; split; [reflexivity|congruence]].
  destruct (sat_add_u8 (max_age e) 1 <=? cop); [|exists n'; split; [reflexivity|congruence]].
  assert (Hsv : e_svn e = Some psvn).
  { unfold find_entry in E0. bind_inv E0. destruct x as [j|]; [|discriminate]. bind_inv E0. injection E0 as E0.
    unfold find_first in E0. apply find_some in E0. destruct E0 as (_ & E0). now apply has_svn_iff in E0. }
  unfold nav_validate_tag in *. destruct (tag_ctr i) as [ctr|]; [|discriminate]. cbn [bind] in *.
  match type of E with context [match i with O => ?u | Datatypes.S _ => ?v end] =>
    destruct (match i with O => u | Datatypes.S _ => v end) as [ret|] end; [|discriminate]. cbn [bind] in *.
  apply (f_equal (fun y => match y with Ok z => z | Panic => n end)) in E. cbn iota in E. subst n1.
  eexists. split; [reflexivity|].
  assert (Hall : nav_sim (set_nv_arr k (add_authbits_all k tag e (nv_arr k n)) n) (set_nv_arr k (add_authbits_all k tag e (nv_arr k n')) n')).
  { unfold add_authbits_all. rewrite Hsv. apply (map_sim_nav k (bump k psvn (message_bits k e) tag)); [exact H|apply bump_neutral|reflexivity]. }
  destruct ret; [|rewrite !arr_same; exact H]. destruct s; try exact Hall; rewrite !arr_same; exact H.
Qed.

Lemma process_mack_tag_sim m key prna g1 g2 s j : respects (fun n => process_mack_tag m key prna g1 g2 s n j).
Proof.
  unfold process_mack_tag. apply respects_const. intros t. destruct (prnd_to_u8 (tag_prnd t)) as [p|]; [|apply respects_id].
  destruct (tag_adkd t); try apply respects_id; (destruct (svn_try_from p) as [v|]; [|apply respects_id]); apply process_one_tag_sim.
Qed.

Lemma process_slowmac_tag_sim m key prna g1 g2 s j : respects (fun n => process_slowmac_tag m key prna g1 g2 s n j).
Proof.
  unfold process_slowmac_tag. apply respects_const. intros t. destruct (negb _); [apply respects_id|].
  destruct (prnd_to_u8 (tag_prnd t)) as [p|]; [|apply respects_id].
  destruct (svn_try_from p) as [v|]; [|apply respects_id]. apply process_one_tag_sim.
Qed.

Lemma process_tags_fast_sim st slow key g svn : respects (process_tags_fast st slow key g svn).
Proof.
  unfold process_tags_fast. destruct slow; [apply respects_id|]. apply respects_const. intros [[message s]|]; [|apply respects_id].
  apply respects_const. intros [m|]; [|apply respects_id]. unfold process_mack. apply respects_const. intros gn.
  apply respects_const. intros cop. apply respects_const. intros t0. apply respects_bind; [apply process_one_tag_sim|].
  apply respects_fold. intros j. apply process_mack_tag_sim.
Qed.

Lemma process_tags_slow_sim st sk key g svn : respects (process_tags_slow st sk key g svn).
Proof.
  unfold process_tags_slow. destruct sk as [sk|]; [|apply respects_id]. apply respects_const. intros [[message s]|]; [|apply respects_id].
  apply respects_const. intros [m|]; [|apply respects_id]. unfold process_mack_slowmac. apply respects_const. intros gn.
  apply respects_fold. intros j. apply process_slowmac_tag_sim.
Qed.

(** The getters. *)
Lemma nav_get_sim k n n' svn : nav_sim n n' -> nav_get k n svn = nav_get k n' svn.
Proof.
  intros H. destruct (sim_shape n n' H) as (Hw & Hg & Hl). destruct (Hl k) as (L1 & L2). destruct (nv_sizes HS) as (Hs & Hd & Hds).
  unfold nav_get. induction (seq 0 nav_depth) as [|j js IH]; [reflexivity|]. cbn [nav_get_from]. rewrite <- Hw.
  set (i := ((nav_depth + nv_wp n - j) mod nav_depth)%nat). assert (Hi : (i < nav_depth)%nat) by (apply Nat.mod_upper_bound; lia).
  unfold row_of. rewrite !(row_slice _ nav_depth) by auto. cbn [bind]. unfold find_first.
  pose proof (find_sim D k svn (fun e => min_authbits <=? e_authbits e) _ _ (proj2 (sim_get n n' i H Hi) k)) as Ef.
  unfold has_svn in Ef. rewrite Ef. destruct (find _ (row num_sats (nv_arr k n') i)) as [e|]; [|exact IH]. now rewrite Hg.
Qed.

End Tags.
End Storage.

(** ** Receivers *)

Section Crypto.
Context {C : crypto} {B : build} {S : storage}.

Notation moved n x := (o' <- x ;; Ok (set_nav n o')).

Lemma process_nma_header_move n o hd pkid : process_nma_header (set_nav n o) hd pkid = set_nav n (process_nma_header o hd pkid).
Proof. unfold process_nma_header, alert_message_received. destruct (nma_status hd), (nma_cpks hd); reflexivity. Qed.

Lemma process_dsm_move n o d hd g : process_dsm (set_nav n o) d hd g = moved n (process_dsm o d hd g).
Proof.
  unfold process_dsm. destruct (dm_type d).
  - unfold process_dsm_kroot. change (o_pub (set_nav n o)) with (o_pub o).
    destruct (kroot_public_key_id (dm_data d)) as [pkid|]; [|reflexivity]. cbn [bind].
    destruct (applicable_pubkey (o_pub o) pkid) as [[pk|]|]; [|reflexivity|reflexivity]. cbn [bind].
    destruct (key_from_dsm_kroot hd (dm_data d) (pk_key pk)) as [[key|e]|]; [|reflexivity|reflexivity]. cbn [bind].
    destruct (make_pkid_current (o_pub o) pkid) as [ps|]; [|reflexivity]. cbn [bind]. cbv zeta. f_equal.
    rewrite <- process_nma_header_move. reflexivity.
  - unfold process_dsm_pkr. destruct (pkr_new_public_key_type (dm_data d)) as [t|]; [|reflexivity]. cbn [bind].
    destruct t; [| |reflexivity].
    + unfold process_dsm_pkr_npk. change (o_merkle (set_nav n o)) with (o_merkle o). change (o_pub (set_nav n o)) with (o_pub o).
      destruct (o_merkle o) as [root|]; [|reflexivity]. destruct (validate_pkr root (dm_data d)) as [[pk|e]|]; [|reflexivity|reflexivity]. cbn [bind].
      destruct (store_new_pubkey (o_pub o) pk); reflexivity.
    + unfold process_dsm_pkr_alert_message. change (o_merkle (set_nav n o)) with (o_merkle o).
      destruct (o_merkle o) as [root|]; [|reflexivity]. destruct (validate_alert_message root (dm_data d)) as [[u|e]|]; reflexivity.
Qed.

Hypothesis HC : crypto_ok C.
Hypothesis HS : storage_ok S.
Variables (root : option (list Z)) (user : option public_key) (slow : bool).
Notation new := (osnma_new root user slow).

Section Sim.
Variable D : list Z.
Hypothesis HD : (length D <= num_sats)%nat.

Definition osim (o o' : osnma) : Prop := exists n, o' = set_nav n o /\ nav_sim D (o_nav o) n.

Lemma process_tags_sim o o' o1 k : osim o o' -> process_tags o k = Ok o1 -> exists o1', process_tags o' k = Ok o1' /\ osim o1 o1'.
Proof.
  intros (n & -> & H) E. unfold process_tags in *. cbn [set_nav o_mack o_keys o_slow o_nav].
  destruct (add_seconds (k_gst k) (-30)) as [g1|]; [|discriminate]. cbn [bind] in *.
  destruct (add_seconds g1 (-300)) as [g2|]; [|discriminate]. cbn [bind] in *.
  destruct (add_seconds (k_gst k) (-300)) as [g3|]; [|discriminate]. cbn [bind] in *.
  destruct (slowmac_key_of (o_keys o) g3) as [sk|]; [|discriminate]. cbn [bind] in *.
  bind_inv E. apply (f_equal (fun y => match y with Ok z => z | Panic => o end)) in E. cbn iota in E. subst o1.
  match type of E0 with fold_outcome ?f _ _ = _ => assert (Hf : respects D (fold_outcome f svn_iter)) end.
  { apply respects_fold. intros svn. apply respects_bind; [apply process_tags_fast_sim|apply process_tags_slow_sim]; auto. }
  destruct (Hf _ _ _ H E0) as (x' & Ex & Hx). rewrite Ex. cbn [bind]. eexists. split; [reflexivity|].
  exists x'. split; [reflexivity|exact Hx].
Qed.

Lemma validate_key_sim o o' o1 mk g : osim o o' -> osnma_validate_key o mk g = Ok o1 ->
  exists o1', osnma_validate_key o' mk g = Ok o1' /\ osim o1 o1'.
Proof.
  intros Hs E. destruct Hs as (n & -> & H). unfold osnma_validate_key in *. change (o_keys (set_nav n o)) with (o_keys o).
  assert (Hsame : exists o1', Ok (set_nav n o) = Ok o1' /\ osim o o1') by (eexists; split; [reflexivity|]; exists n; auto).
  destruct (current_key (o_keys o)) as [cur|]; [|injection E as <-; exact Hsame].
  destruct (mack_key (mack_of_chain mk cur)) as [kb|]; [|discriminate]. cbn [bind] in *.
  destruct (key_from_bitslice kb g (k_chain cur)) as [nk|]; [|discriminate]. cbn [bind] in *.
  destruct (gst_cmp (k_gst cur) (k_gst nk)); [injection E as <-; exact Hsame| |injection E as <-; exact Hsame].
  destruct (validate_key cur nk) as [[key|e]|]; [|injection E as <-; exact Hsame|discriminate]. cbn [bind] in *.
  destruct (store_key (o_keys o) key) as [ks|]; [|discriminate]. cbn [bind] in *.
  apply (process_tags_sim (set_keys ks o)); [|exact E]. exists n. split; [reflexivity|exact H].
Qed.

Lemma process_subframe_sim o o' o1 hk mk svn g : osim o o' -> process_subframe o hk mk svn g = Ok o1 ->
  exists o1', process_subframe o' hk mk svn g = Ok o1' /\ osim o1 o1'.
Proof.
  intros (n & -> & H) E. unfold process_subframe in *. destruct (index hk 0) as [hd|]; [|discriminate]. cbn [bind set_nav o_mack] in *.
  destruct (mack_store (o_mack o) mk svn g (nma_status hd)) as [ms|]; [|discriminate]. cbn [bind] in *. cbv zeta in *.
  destruct (index hk 1) as [dh|]; [|discriminate]. cbn [bind set_mack o_dsm] in *.
  change (o_dsm (set_nav n o)) with (o_dsm o).
  destruct (dsm_feed (o_dsm o) dh (skipn 2 hk)) as [(cd & d)|]; [|discriminate]. cbn [bind] in *.
  set (oa := set_dsm cd (set_mack ms o)).
  destruct d as [d|].
  - match goal with |- context [process_dsm ?x d hd g] => change x with (set_nav n oa) end.
    match type of E with context [process_dsm ?x d hd g] => change x with oa in E end.
    rewrite process_dsm_move. destruct (process_dsm oa d hd g) as [o2|] eqn:E2; [|discriminate]. cbn [bind] in *.
    apply (validate_key_sim o2); [|exact E]. exists n. split; [reflexivity|]. rewrite (process_dsm_nav _ _ _ _ _ E2). exact H.
  - cbn [bind] in *. apply (validate_key_sim oa _ _ _ _); [|exact E]. exists n. split; [reflexivity|exact H].
Qed.

Lemma step_sim o o' o1 x : osim o o' -> op_ok x -> (forall w s g b, x = FeedInav w s g b -> In s D) -> step o x = Ok o1 ->
  exists o1', step o' x = Ok o1' /\ osim o1 o1'.
Proof.
  intros (n & -> & H) Hx HxD E. destruct x as [w s g b|d s g]; cbn [step] in *.
  - unfold feed_inav in *. bind_inv E. injection E as <-. change (o_nav (set_nav n o)) with n. destruct Hx as (Hw & Hv & _).
    destruct (nav_feed_sim HS D HD _ _ _ w s g b H (HxD _ _ _ _ eq_refl) Hw Hv E0) as (x' & Ex & Hs). rewrite Ex. cbn [bind].
    eexists. split; [reflexivity|]. exists x'. split; [reflexivity|exact Hs].
  - unfold feed_osnma in *. destruct (forallb _ d); [injection E as <-; eexists; split; [reflexivity|]; exists n; auto|].
    change (o_sub (set_nav n o)) with (o_sub o). destruct (subframe_feed (o_sub o) d s g) as [(sf & r)|]; [|discriminate]. cbn [bind] in *.
    cbv zeta in *. destruct r as [((hk & mk) & gg)|].
    + apply (process_subframe_sim (set_sub sf o)); [|exact E]. exists n. split; [reflexivity|exact H].
    + injection E as <-. eexists. split; [reflexivity|]. exists n. split; [reflexivity|exact H].
Qed.

Lemma run_sim t : forall o o' o1, osim o o' -> Forall op_ok t -> (forall w s g b, In (FeedInav w s g b) t -> In s D) ->
  run o t = Ok o1 -> exists o1', run o' t = Ok o1' /\ osim o1 o1'.
Proof.
  unfold run. induction t as [|x t IH]; intros o o' o1 H Hok HtD E.
  - exists o'. split; [reflexivity|]. cbn [fold_outcome] in E. injection E as <-. exact H.
  - cbn [fold_outcome] in *. bind_inv E. apply Forall_cons_iff in Hok. destruct Hok as (Hx & Hok).
    destruct (step_sim o o' x0 x H Hx) as (x' & Ex & Hs); [intros w s g b ->; eapply HtD; now left|exact E0|].
    rewrite Ex. cbn [bind]. apply (IH x0); auto. intros w s g b Hin. eapply HtD. right. exact Hin.
Qed.

Lemma osim_new_run h o : Forall op_ok h -> (forall w s g b, In (FeedInav w s g b) h -> In s D) -> run new h = Ok o -> nav_sim D (o_nav o) (o_nav o).
Proof.
  intros Hok HhD E. assert (H0 : osim new new) by (exists nav_new; split; [reflexivity|apply sim_new; auto]).
  destruct (run_sim h new new o H0 Hok HhD E) as (o' & E' & (n & En & Hn)). assert (Eo : o = set_nav n o) by congruence.
  assert (Ef : n = o_nav o) by (apply (f_equal o_nav) in Eo; symmetry; exact Eo). rewrite Ef in Hn at 1. exact Hn.
Qed.

Lemma stored_row_arr k n j : stored_row k n j = row num_sats (nv_arr k n) ((nav_depth + nv_wp n - j) mod nav_depth).
Proof. apply stored_row_row. Qed.

Lemma osim_same o o' : osim o o' -> same_up_to_places o o'.
Proof.
  intros (n & -> & H). destruct (nv_sizes HS) as (Hs & Hd & _). destruct (sim_shape HS D HD _ _ H) as (Hw & Hg & _).
  split; try reflexivity; cbn [set_nav o_nav].
  - intros j _. unfold stored_gst. now rewrite Hw, Hg.
  - intros k j svn e _. assert (Hi : ((nav_depth + nv_wp n - j) mod nav_depth < nav_depth)%nat) by (apply Nat.mod_upper_bound; lia).
    pose proof (proj2 (sim_get HS D HD _ _ _ H Hi) k) as (P & _). unfold stored. rewrite !stored_row_arr, Hw.
    split; intros (I1 & I2); (split; [|exact I2]); [apply (Permutation_in _ (Permutation_sym P))|apply (Permutation_in _ P)]; exact I1.
  - intros svn. symmetry. unfold get_ced_and_status. cbn [set_nav o_nav]. now apply (nav_get_sim HS D HD).
  - intros svn. symmetry. unfold get_timing_parameters. cbn [set_nav o_nav]. now apply (nav_get_sim HS D HD).
Qed.

Lemma same_gst_subframe g g' : same_subframe g g' = true -> gst_subframe g = gst_subframe g'.
Proof.
  unfold same_subframe, gst_subframe, secs_per_subframe. rewrite andb_true_iff, !Z.eqb_eq. intros (E1 & E2). f_equal; [exact E1|].
  pose proof (Z.div_mod (g_tow g) 30). pose proof (Z.div_mod (g_tow g') 30). lia.
Qed.

Lemma nav_words_swap h x y t o : Forall op_ok (h ++ x :: y :: t) -> (forall w s g b, In (FeedInav w s g b) (h ++ x :: y :: t) -> In s D) ->
  other_satellites x y -> run new (h ++ x :: y :: t) = Ok o ->
  exists o', run new (h ++ y :: x :: t) = Ok o' /\ same_up_to_places o o'.
Proof.
  intros Hok HhD Hxy E. apply Forall_app in Hok. destruct Hok as (Hh & Hr). apply Forall_cons_iff in Hr. destruct Hr as (Hx & Hr).
  apply Forall_cons_iff in Hr. destruct Hr as (Hy & Ht).
  destruct x as [w1 s1 g1 b1|]; [|destruct Hxy]. destruct y as [w2 s2 g2 b2|]; [|destruct Hxy]. destruct Hxy as (Hn & Hg).
  unfold run in E |- *. rewrite fold_outcome_app in E |- *. bind_inv E. rename x into oh, E0 into Eh. rewrite Eh. cbn [bind].
  assert (Hself : nav_sim D (o_nav oh) (o_nav oh)).
  { apply (osim_new_run h); auto. intros w s g b Hin. eapply HhD. apply in_or_app. left. exact Hin. }
  cbn [fold_outcome step] in *. unfold feed_inav in E at 1. bind_inv E. bind_inv E0. injection E0 as <-. rename x0 into n1, E1 into En1.
  bind_inv E. unfold feed_inav in E0. bind_inv E0. injection E0 as <-. cbn [set_nav o_nav] in E1. rename x0 into n2, E1 into En2.
  assert (I1 : In s1 D) by (eapply HhD; apply in_or_app; right; now left).
  assert (I2 : In s2 D) by (eapply HhD; apply in_or_app; right; right; now left).
  destruct Hx as (Bx & Vx & _), Hy as (By & Vy & _).
  destruct (nav_feed_swap HS D HD (o_nav oh) (o_nav oh) n1 n2 w1 s1 g1 b1 w2 s2 g2 b2 Hself I1 I2 (not_eq_sym Hn) (same_gst_subframe _ _ Hg) Bx Vx By Vy En1 En2)
    as (m1 & m2 & Em1 & Em2 & Hs).
  unfold feed_inav at 1. rewrite Em1. cbn [bind]. unfold feed_inav at 1. cbn [set_nav o_nav]. rewrite Em2. cbn [bind].
  assert (Ho : osim (set_nav n2 (set_nav n1 oh)) (set_nav m2 (set_nav m1 oh))) by (exists m2; split; [reflexivity|exact Hs]).
  assert (HtD : forall w s g b, In (FeedInav w s g b) t -> In s D).
  { intros w s g b Hin. eapply HhD. apply in_or_app. right. right. right. exact Hin. }
  destruct (run_sim t _ _ _ Ho Ht HtD E) as (o' & Eo & Hoo). exists o'. split; [exact Eo|]. now apply osim_same.
Qed.

End Sim.

Lemma same_up_to_places_refl o : same_up_to_places o o.
Proof. split; reflexivity. Qed.

Lemma same_up_to_places_trans o1 o2 o3 : same_up_to_places o1 o2 -> same_up_to_places o2 o3 -> same_up_to_places o1 o3.
Proof.
  intros H1 H2. split.
  - now rewrite (sp_sub _ _ H2), (sp_sub _ _ H1).
  - now rewrite (sp_dsm _ _ H2), (sp_dsm _ _ H1).
  - now rewrite (sp_mack _ _ H2), (sp_mack _ _ H1).
  - now rewrite (sp_merkle _ _ H2), (sp_merkle _ _ H1).
  - now rewrite (sp_pub _ _ H2), (sp_pub _ _ H1).
  - now rewrite (sp_keys _ _ H2), (sp_keys _ _ H1).
  - now rewrite (sp_slow _ _ H2), (sp_slow _ _ H1).
  - intros j Hj. now rewrite (sp_gst _ _ H2 j Hj), (sp_gst _ _ H1 j Hj).
  - intros k j svn e Hj. now rewrite (sp_nav _ _ H2 k j svn e Hj), (sp_nav _ _ H1 k j svn e Hj).
  - intros svn. now rewrite (sp_ced _ _ H2), (sp_ced _ _ H1).
  - intros svn. now rewrite (sp_timing _ _ H2), (sp_timing _ _ H1).
Qed.

Lemma rearranged_in h h' : rearranged h h' -> forall x, In x h <-> In x h'.
Proof.
  induction 1 as [h h' H|h x y t _|h h' h'' _ IH1 _ IH2]; intros z.
  - induction H as [h|h a y t _ _|h h' _ IH|h h' h'' _ IH1 _ IH2]; [reflexivity| |now symmetry|now rewrite IH1].
    rewrite !in_app_iff. cbn [In]. tauto.
  - rewrite !in_app_iff. cbn [In]. tauto.
  - now rewrite IH1.
Qed.

Lemma rearranged_ok h h' : rearranged h h' -> Forall op_ok h -> Forall op_ok h'.
Proof. rewrite !Forall_forall. intros H Hok x Hx. apply Hok. now apply (rearranged_in h h' H). Qed.

Lemma in_words h w s g b : In (FeedInav w s g b) h -> In s (map nw_svn (inav_words h)).
Proof.
  intros H. apply in_map_iff. exists (mkNWord w s g b). split; [reflexivity|]. unfold inav_words. apply in_flat_map.
  exists (FeedInav w s g b). split; [exact H|now left].
Qed.

Lemma words_in h s : In s (map nw_svn (inav_words h)) -> exists w g b, In (FeedInav w s g b) h.
Proof.
  intros H. apply in_map_iff in H. destruct H as (x & <- & H). unfold inav_words in H. apply in_flat_map in H.
  destruct H as ([w s g b|d s g] & H1 & H2); [|destruct H2]. destruct H2 as [<-|[]]. eauto.
Qed.

Theorem rearranged_run h h' : rearranged h h' -> Forall op_ok h -> room_for (map nw_svn (inav_words h)) ->
  forall o, run new h = Ok o -> exists o', run new h' = Ok o' /\ same_up_to_places o o'.
Proof.
  intros H. induction H as [h h' H|h x y t Hxy|h h' h'' H1 IH1 H2 IH2]; intros Hok Hroom o E.
  - exists o. split; [|apply same_up_to_places_refl]. rewrite <- E. symmetry. now apply reordered_run.
  - destruct Hroom as (D & HD & Hin). apply (nav_words_swap D HD h x y t o Hok); auto. intros w s g b Hi. apply Hin. eapply in_words. exact Hi.
  - destruct (IH1 Hok Hroom o E) as (o1 & E1 & S1).
    assert (Hroom' : room_for (map nw_svn (inav_words h'))).
    { destruct Hroom as (D & HD & Hin). exists D. split; [exact HD|]. intros s Hs. apply words_in in Hs. destruct Hs as (w & g & b & Hs).
      apply Hin. apply (rearranged_in h h' H1) in Hs. eapply in_words. exact Hs. }
    destruct (IH2 (rearranged_ok h h' H1 Hok) Hroom' o1 E1) as (o2 & E2 & S2). exists o2. split; [exact E2|].
    now apply (same_up_to_places_trans o o1).
Qed.

End Crypto.

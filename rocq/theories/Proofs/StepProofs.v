(** What a single call can change: stored navigation data, keys, public keys. *)
From Coq Require Import ZArith List Bool Lia ZifyBool ZifyNat.
From Verif Require Import Model.Prelude Model.Params Model.Gst Model.Svn Model.Bitfields
  Model.Tesla Model.Merkle Model.Subframe Model.Dsm Model.MackStore Model.Nav Model.Osnma
  Spec.TimeSpec Spec.CollectSpec Spec.NavSpec Spec.TeslaSpec Spec.KrootSpec Spec.MerkleSpec Spec.KeySpec Spec.SystemSpec
  Proofs.Base Proofs.GstProofs Proofs.NavProofs Proofs.EntryProofs Proofs.NavInv Proofs.NavHistory
  Proofs.TeslaProofs Proofs.KrootProofs Proofs.MerkleProofs Proofs.LayoutProofs Proofs.SystemProofs
  Proofs.GetterProofs Proofs.KeyStoreProofs.
Import ListNotations.
Open Scope Z_scope.
Ltac Zify.zify_post_hook ::= Z.div_mod_to_equations.

(** ** Feeding INAV words gives no authentication bits *)

(** The entry has no authentication bits, or those that an entry with the same data had. *)
Definition from_entry (l : list entry) (e' : entry) : Prop :=
  e_authbits e' = 0 \/
  exists e, In e l /\ e_data e' = e_data e /\ e_authbits e' = e_authbits e /\
    (e_svn e' = e_svn e \/ e_svn e = None).

Lemma from_entry_in l e : In e l -> from_entry l e.
Proof. intros H. right. exists e. auto. Qed.
Lemma from_entry_age l e : from_entry l e -> from_entry l (age_entry e).
Proof. intros [H|(x & H1 & H2 & H3 & H4)]; [left; exact H|right]. exists x. auto. Qed.

Lemma select_from l svn e : from_entry l e ->
  from_entry l (entry_select_svn svn e).
Proof.
  intros H. unfold entry_select_svn. destruct (e_svn e) as [s|] eqn:Es.
  - destruct (s =? svn); [exact H|]. now left.
  - destruct H as [H|(x & H1 & H2 & H3 & H4)]; [now left|].
    right. exists x. cbn [e_data e_authbits e_svn]. repeat split; auto. right.
    destruct H4 as [H4|H4]; congruence.
Qed.
Lemma copy_word_from l a b src i e : from_entry l e -> from_entry l (copy_word a b src i e).
Proof.
  intros H. unfold copy_word. destruct (bits_eqb _ _); [|now left].
  destruct H as [H|(x & H1 & H2 & H3 & H4)]; [now left|]. right. exists x. auto.
Qed.
Lemma entry_feed_from l k word svn b e : from_entry l e -> from_entry l (entry_feed k word svn b e).
Proof.
  intros H. apply (select_from l svn) in H. unfold entry_feed. destruct k.
  - unfold ced_feed. rewrite ced_cases. repeat (destruct (_ =? _); [now apply copy_word_from|]). exact H.
  - unfold timing_feed. rewrite timing_cases. repeat (destruct (_ && _); [now apply copy_word_from|]). exact H.
Qed.

Section Storage.
Context {S : storage}.

Lemma copy_and_age_from (l0 l : list entry) from to l' : Forall (from_entry l0) l ->
  copy_and_age l from to = Ok l' -> Forall (from_entry l0) l'.
Proof.
  intros Hl H. unfold copy_and_age, row_of in H. bind_inv H. apply slice_ok in E. destruct E as (_ & _ & ->).
  bind_inv H. apply copy_from_ok in E. destruct E as (_ & _ & _ & ->).
  bind_inv H. apply slice_ok in E. destruct E as (_ & _ & ->).
  apply copy_from_ok in H. destruct H as (_ & _ & _ & ->).
  assert (Hp : Forall (from_entry l0) (put (to * num_sats) (sub (from * num_sats) ((from + 1) * num_sats) l) l)).
  { apply Forall_put; [now apply Forall_sub|exact Hl]. }
  apply Forall_put; [|exact Hp]. apply Forall_map. eapply Forall_impl; [|apply Forall_sub; exact Hp].
  intros e. apply from_entry_age.
Qed.

Lemma nav_adjust_from n g n' : nav_adjust n g = Ok n' -> forall k, Forall (from_entry (nv_arr k n)) (nv_arr k n').
Proof.
  assert (Hid : forall k, Forall (from_entry (nv_arr k n)) (nv_arr k n)).
  { intros k. apply Forall_forall. intros e. apply from_entry_in. }
  unfold nav_adjust. intros H k. bind_inv H. bind_inv H. bind_inv H. injection H as <-.
  assert (Hx : Forall (from_entry (nv_arr k n)) (nv_arr k x0)); [|destruct k; exact Hx].
  clear E1. destruct x as [g0|]; [destruct (negb (gst_eqb g0 g))|].
  - bind_inv E0. bind_inv E0. injection E0 as <-. destruct k; cbn [nv_arr nv_ced nv_timing].
    + now apply (copy_and_age_from _ _ _ _ _ (Hid Ced)) in E1.
    + now apply (copy_and_age_from _ _ _ _ _ (Hid Timing)) in E2.
  - injection E0 as <-. apply Hid.
  - injection E0 as <-. apply Hid.
Qed.

Lemma nv_arr_set k k' l n : nv_arr k (set_nv_arr k' l n) = match k, k' with Ced, Ced | Timing, Timing => l | _, _ => nv_arr k n end.
Proof. now destruct k, k'. Qed.

Lemma nav_feed_kind_from k word svn b n n' (l0 : nav_kind -> list entry) :
  (forall k, Forall (from_entry (l0 k)) (nv_arr k n)) -> nav_feed_kind k word svn b n = Ok n' ->
  forall k, Forall (from_entry (l0 k)) (nv_arr k n').
Proof.
  intros Hn H k'. unfold nav_feed_kind, row_of in H. bind_inv H. apply slice_ok in E. destruct E as (_ & _ & ->).
  bind_inv H. bind_inv H. bind_inv H. bind_inv H. injection H as <-. rewrite nv_arr_set.
  apply set_index_ok in E1. destruct E1 as (_ & ->). apply copy_from_ok in E2. destruct E2 as (_ & _ & _ & ->).
  apply index_ok in E0. apply nth_error_In in E0.
  assert (Hr : Forall (from_entry (l0 k)) (sub (nv_wp n * num_sats) ((nv_wp n + 1) * num_sats) (nv_arr k n))) by (apply Forall_sub, Hn).
  assert (Hp : Forall (from_entry (l0 k)) (put (nv_wp n * num_sats)
    (put x [entry_feed k word svn b x0] (sub (nv_wp n * num_sats) ((nv_wp n + 1) * num_sats) (nv_arr k n))) (nv_arr k n))).
  { apply Forall_put; [|apply Hn]. apply Forall_put; [|exact Hr]. constructor; [|constructor].
    apply entry_feed_from. rewrite Forall_forall in Hr. now apply Hr. }
  destruct k, k'; auto.
Qed.

Lemma nav_feed_from n word svn g b n' : nav_feed n word svn g b = Ok n' ->
  forall k, Forall (from_entry (nv_arr k n)) (nv_arr k n').
Proof.
  unfold nav_feed. intros H. bind_inv H. bind_inv H. pose proof (nav_adjust_from _ _ _ E) as H1.
  pose proof (nav_feed_kind_from _ _ _ _ _ _ (fun k => nv_arr k n) H1 E0) as H2.
  exact (nav_feed_kind_from _ _ _ _ _ _ (fun k => nv_arr k n) H2 H).
Qed.

(** ** Tags only add authentication bits *)

Definition grown (e e' : entry) : Prop :=
  e_data e' = e_data e /\ e_age e' = e_age e /\ e_svn e' = e_svn e /\
  (e_authbits e <= 65535 -> e_authbits e <= e_authbits e' <= 65535).

Definition nav_grown (n n' : nav) : Prop :=
  nv_gsts n' = nv_gsts n /\ nv_wp n' = nv_wp n /\ forall k, Forall2 grown (nv_arr k n) (nv_arr k n').

Lemma grown_refl e : grown e e.
Proof. repeat split; lia. Qed.
Lemma grown_trans a b c : grown a b -> grown b c -> grown a c.
Proof. intros (A1 & A2 & A3 & A4) (B1 & B2 & B3 & B4). repeat split; try congruence; lia. Qed.
Lemma Forall2_refl_ {A} (R : A -> A -> Prop) l : (forall x, R x x) -> Forall2 R l l.
Proof. intros H. induction l; constructor; auto. Qed.
Lemma Forall2_trans_ {A} (R : A -> A -> Prop) : (forall a b c, R a b -> R b c -> R a c) ->
  forall l1 l2 l3, Forall2 R l1 l2 -> Forall2 R l2 l3 -> Forall2 R l1 l3.
Proof.
  intros HR l1 l2 l3 H. revert l3. induction H as [|a b l1 l2 Hab H IH]; intros l3 H3.
  - exact H3.
  - inversion H3 as [|b' c l2' l3' Hbc H3']; subst. constructor; [now apply HR with b|now apply IH].
Qed.
Lemma nav_grown_refl n : nav_grown n n.
Proof. split; [reflexivity|]. split; [reflexivity|]. intros k. apply Forall2_refl_, grown_refl. Qed.
Lemma nav_grown_trans a b c : nav_grown a b -> nav_grown b c -> nav_grown a c.
Proof.
  intros (A1 & A2 & A3) (B1 & B2 & B3). split; [congruence|]. split; [congruence|]. intros k.
  apply Forall2_trans_ with (nv_arr k b); auto. apply grown_trans.
Qed.

Lemma add_all_grown k tag e l :
  Forall2 grown l (add_authbits_all k tag e l).
Proof.
  induction l as [|x l IH]; cbn [add_authbits_all map]; [constructor|]. constructor; [|exact IH].
  destruct (_ && _); [|apply grown_refl]. unfold add_authbits, sat_add_u16, grown.
  cbn [e_data e_age e_svn e_authbits]. repeat split; lia.
Qed.

Section Crypto.
Context {C : crypto} {B : build}.

Lemma set_arr_grown k n l : Forall2 grown (nv_arr k n) l -> nav_grown n (set_nv_arr k l n).
Proof.
  intros H. split; [now destruct k|]. split; [now destruct k|]. intros k'. rewrite nv_arr_set.
  destruct k, k'; try exact H; apply Forall2_refl_, grown_refl.
Qed.

Lemma process_one_tag_grown k key tag cop gm gn prnd svn prna j s n n' :
  process_one_tag k key tag cop gm gn prnd svn prna j s n = Ok n' -> nav_grown n n'.
Proof.
  unfold process_one_tag. intros H. destruct (cop =? 0).
  - bind_inv H. injection H as <-. apply nav_grown_refl.
  - bind_inv H. destruct x as [e|]; [|injection H as <-; apply nav_grown_refl].
    destruct (_ <=? _); [|injection H as <-; apply nav_grown_refl].
    bind_inv H. destruct x as (r & l). injection H as <-. apply set_arr_grown.
    unfold nav_validate_tag in E0. bind_inv E0. bind_inv E0. injection E0 as <- <-.
    destruct x0; [destruct s|]; try (apply Forall2_refl_, grown_refl); apply add_all_grown.
Qed.

Lemma process_mack_grown n m key prna gm s n' : process_mack n m key prna gm s = Ok n' -> nav_grown n n'.
Proof.
  unfold process_mack. intros H. bind_inv H. bind_inv H. bind_inv H. bind_inv H.
  apply process_one_tag_grown in E2. apply nav_grown_trans with x2; [exact E2|].
  apply (fold_outcome_inv (process_mack_tag m key prna gm x s) (nav_grown x2)) in H; auto using nav_grown_refl.
  intros n1 j n2 _ H1 H2. apply nav_grown_trans with n1; [exact H1|]. unfold process_mack_tag in H2.
  bind_inv H2. destruct (prnd_to_u8 _); [|injection H2 as <-; apply nav_grown_refl].
  destruct (tag_adkd _); try (injection H2 as <-; apply nav_grown_refl);
    (destruct (svn_try_from _); [|injection H2 as <-; apply nav_grown_refl]; now apply process_one_tag_grown in H2).
Qed.

Lemma process_mack_slowmac_grown n m key prna gm s n' :
  process_mack_slowmac n m key prna gm s = Ok n' -> nav_grown n n'.
Proof.
  unfold process_mack_slowmac. intros H. bind_inv H.
  apply (fold_outcome_inv (process_slowmac_tag m key prna gm x s) (nav_grown n)) in H; auto using nav_grown_refl.
  intros n1 j n2 _ H1 H2. apply nav_grown_trans with n1; [exact H1|]. unfold process_slowmac_tag in H2.
  bind_inv H2. destruct (negb _); [injection H2 as <-; apply nav_grown_refl|].
  destruct (prnd_to_u8 _); [|injection H2 as <-; apply nav_grown_refl].
  destruct (svn_try_from _); [|injection H2 as <-; apply nav_grown_refl]. now apply process_one_tag_grown in H2.
Qed.

Lemma tags_fast_grown st sl key g svn n n' : process_tags_fast st sl key g svn n = Ok n' -> nav_grown n n'.
Proof.
  unfold process_tags_fast. intros H. destruct sl; [injection H as <-; apply nav_grown_refl|].
  bind_inv H. destruct x as [[m s]|]; [|injection H as <-; apply nav_grown_refl].
  bind_inv H. destruct x as [m'|]; [|injection H as <-; apply nav_grown_refl]. now apply process_mack_grown in H.
Qed.
Lemma tags_slow_grown st sk key g svn n n' : process_tags_slow st sk key g svn n = Ok n' -> nav_grown n n'.
Proof.
  unfold process_tags_slow. intros H. destruct sk as [sk|]; [|injection H as <-; apply nav_grown_refl].
  bind_inv H. destruct x as [[m s]|]; [|injection H as <-; apply nav_grown_refl].
  bind_inv H. destruct x as [m'|]; [|injection H as <-; apply nav_grown_refl]. now apply process_mack_slowmac_grown in H.
Qed.

Lemma process_tags_grown o key o' : process_tags o key = Ok o' -> nav_grown (o_nav o) (o_nav o').
Proof.
  unfold process_tags. intros H. bind_inv H. bind_inv H. bind_inv H. bind_inv H. bind_inv H. injection H as <-.
  cbn [set_nav o_nav].
  apply (fold_outcome_inv (fun n svn => n0 <- process_tags_fast (o_mack o) (o_slow o) key x svn n ;;
           process_tags_slow (o_mack o) x2 key x0 svn n0) (nav_grown (o_nav o))) in E3; auto using nav_grown_refl.
  intros n1 svn n2 _ H1 H2. bind_inv H2. apply tags_fast_grown in E4. apply tags_slow_grown in H2.
  eauto using nav_grown_trans.
Qed.

Lemma process_dsm_nav o d hd g o' : process_dsm o d hd g = Ok o' -> o_nav o' = o_nav o.
Proof.
  intros H. apply process_dsm_effect in H.
  destruct H as [->|pk key ps Et Hpk Hkey Hps Hid ->|root pk ps Et Hm Hv Hps ->|root Et Hm Hv ->]; try reflexivity.
  unfold process_nma_header. now destruct (nma_status hd), (nma_cpks hd).
Qed.

Lemma validate_key_grown o mk g o' : osnma_validate_key o mk g = Ok o' -> nav_grown (o_nav o) (o_nav o').
Proof.
  intros H. apply validate_key_effect in H. destruct H as [->|cur key ks Hc Hv Hlt Hch Hg Hs Ht].
  - apply nav_grown_refl.
  - now apply process_tags_grown in Ht.
Qed.

Lemma feed_osnma_grown o d svn g o' : feed_osnma o d svn g = Ok o' -> nav_grown (o_nav o) (o_nav o').
Proof.
  unfold feed_osnma. intros H. destruct (forallb _ _); [injection H as <-; apply nav_grown_refl|].
  bind_inv H. destruct x as (sf & [[[hk mk] sg]|]).
  2: { injection H as <-. apply nav_grown_refl. }
  unfold process_subframe in H. bind_inv H. bind_inv H. bind_inv H. bind_inv H. destruct x2 as (cd & dd).
  bind_inv H. apply validate_key_grown in H.
  replace (o_nav o) with (o_nav x2); [exact H|]. destruct dd; [now apply process_dsm_nav in E4|].
  injection E4 as <-. reflexivity.
Qed.

(** ** The history of the keys *)

Lemma process_nma_header_held o hd pkid k : held (o_keys (process_nma_header o hd pkid)) k -> held (o_keys o) k.
Proof.
  unfold process_nma_header. destruct (nma_status hd), (nma_cpks hd); cbn [set_keys set_pub o_keys alert_message_received];
    rewrite ?keys_revoke_held; try tauto; intros [H|H]; discriminate H.
Qed.

(** Keys of a chain of which a key is held. *)
Lemma process_dsm_keys o d hd g o' k k' : stores_ok o -> process_dsm o d hd g = Ok o' ->
  held (o_keys o) k -> held (o_keys o') k' -> chain_of k' = chain_of k -> k' = k.
Proof.
  intros (Hp & Hk) H Hh Hh' E. apply process_dsm_effect in H.
  destruct H as [->|pk key ps Et Hpk Hkey Hps Hid ->|root pk ps Et Hm Hv Hps ->|root Et Hm Hv ->].
  - now apply (held_unique (o_keys o)).
  - apply process_nma_header_held in Hh'. cbn [set_keys o_keys] in Hh'.
    destruct (store_kroot_held _ _ _ _ _ Hh') as [H|H]; [now apply (held_unique (o_keys o))|]. subst k'.
    destruct (store_kroot_same (o_keys o) key hd g k Hh (eq_sym E)) as (E0 & E1).
    apply (held_unique (o_keys o)); auto. unfold held in *. now rewrite E0, E1 in Hh'.
  - now apply (held_unique (o_keys o)).
  - destruct Hh' as [H|H]; discriminate H.
Qed.

Lemma step_keys_forward o x o' k k' :
  (forall k, held (o_keys o) k -> key_ok k) -> (forall k, held (o_keys o') k -> key_ok k) ->
  stores_ok o -> step o x = Ok o' ->
  held (o_keys o) k -> held (o_keys o') k' -> chain_of k' = chain_of k ->
  k_chain k' = k_chain k /\ time_of (k_gst k) <= time_of (k_gst k').
Proof.
  intros Hok Hok' Hs H Hh Hh' E. apply step_effects in H. destruct H as [(_ & _ & H)|o1 o2 hk mk g H1 _ _ H2 H3].
  - rewrite H in Hh'. destruct Hs as (_ & Hs). rewrite (held_unique _ _ _ Hs Hh' Hh E). split; [reflexivity|lia].
  - pose proof (same_trust_stores _ _ H1 Hs) as Hs1. destruct H1 as (_ & _ & H1). rewrite <- H1 in Hh, Hok.
    assert (Hs2 : stores_ok o2).
    { destruct H2 as [->|(d & H2)]; [exact Hs1|]. now apply process_dsm_stores in H2. }
    assert (Hk2 : forall q, held (o_keys o2) q -> chain_of q = chain_of k -> q = k).
    { intros q Hq Eq. destruct H2 as [->|(d & H2)].
      - destruct Hs1 as (_ & Hs1). now apply (held_unique _ _ _ Hs1 Hq Hh).
      - now apply (process_dsm_keys _ _ _ _ _ _ _ Hs1 H2 Hh Hq). }
    apply validate_key_effect in H3. destruct H3 as [->|cur key ks Hc Hv Hlt Hch Hg Hst Ht].
    + rewrite (Hk2 k' Hh' E). split; [reflexivity|lia].
    + apply process_tags_trust in Ht. destruct Ht as ((_ & _ & Ht) & _). cbn [set_keys o_keys] in Ht.
      rewrite Ht in Hh', Hok'. destruct Hs2 as (_ & Hs2).
      destruct (store_key_spec _ _ _ Hs2 Hst) as (_ & S2 & _ & S4 & _).
      destruct (S4 k' Hh') as [->|(Hq & _)].
      * assert (Hcur : held (o_keys o2) cur) by now apply current_key_in.
        assert (cur = k) by (apply Hk2; [exact Hcur|]; unfold chain_of in *; congruence). subst cur.
        split; [exact Hch|]. rewrite gst_cmp_time in Hlt; [|apply Hok, Hh|apply Hok', S2].
        apply Z.compare_lt_iff in Hlt. now apply Z.lt_le_incl.
      * rewrite (Hk2 k' Hq E). split; [reflexivity|lia].
Qed.

(** A chain that has no key gets one only with a KROOT. *)
Definition accepts_kroot (o : osnma) (c : Z) : Prop :=
  exists d hd pk key, dm_type d = DsmKroot /\ held_pub (o_pub o) pk /\
    kroot_public_key_id (dm_data d) = Ok (pk_id pk) /\
    key_from_dsm_kroot hd (dm_data d) (pk_key pk) = Ok (ROk key) /\ chain_of key = c.

Lemma step_chain_gone o x o' c : stores_ok o -> (forall k, held (o_keys o) k -> chain_of k <> c) -> step o x = Ok o' ->
  (forall k, held (o_keys o') k -> chain_of k <> c) \/ accepts_kroot o c.
Proof.
  intros Hs Hgone H. apply step_effects in H. destruct H as [(_ & _ & H)|o1 o2 hk mk g H1 _ _ H2 H3].
  { left. now rewrite H. }
  pose proof (same_trust_stores _ _ H1 Hs) as Hs1. destruct H1 as (_ & Hp1 & H1). rewrite <- H1 in Hgone.
  assert (Hk2 : (forall q, held (o_keys o2) q -> chain_of q <> c) \/ accepts_kroot o c).
  { destruct H2 as [->|(d & H2)]; [now left|]. apply process_dsm_effect in H2.
    destruct H2 as [->|pk key ps Et Hpk Hkey Hps Hid ->|root pk ps Et Hm Hv Hps ->|root Et Hm Hv ->].
    - now left.
    - destruct (Z.eq_dec (chain_of key) c) as [E|E].
      + right. exists d, (nth 0 hk 0), pk, key. rewrite <- Hp1. auto.
      + left. intros q Hq. apply process_nma_header_held in Hq. apply store_kroot_held in Hq.
        destruct Hq as [Hq| ->]; [now apply Hgone|exact E].
    - now left.
    - left. intros q [Hq|Hq]; discriminate Hq. }
  destruct Hk2 as [Hk2|Hk2]; [left|now right].
  assert (Hs2 : stores_ok o2).
  { destruct H2 as [->|(d & H2)]; [exact Hs1|]. now apply process_dsm_stores in H2. }
  apply validate_key_effect in H3. destruct H3 as [->|cur key ks Hc Hv Hlt Hch Hg Hst Ht]; [exact Hk2|].
  apply process_tags_trust in Ht. destruct Ht as ((_ & _ & Ht) & _). cbn [set_keys o_keys] in Ht. rewrite Ht.
  destruct Hs2 as (_ & Hs2). destruct (store_key_spec _ _ _ Hs2 Hst) as (_ & _ & _ & S4 & _).
  intros q Hq. destruct (S4 q Hq) as [->|(Hq' & _)]; [|now apply Hk2].
  unfold chain_of. rewrite Hch. apply Hk2. now apply current_key_in.
Qed.

(** ** The history of the public keys *)

Lemma process_dsm_pubs o d hd g o' : stores_ok o -> process_dsm o d hd g = Ok o' ->
  no_trust o' \/
  ((forall c, ps_current (o_pub o) = Some c -> exists c', ps_current (o_pub o') = Some c' /\ pk_id c <= pk_id c') /\
   (forall p, held_pub (o_pub o') p -> held_pub (o_pub o) p \/
      forall c, ps_current (o_pub o) = Some c -> pk_id c < pk_id p)).
Proof.
  intros (Hp & Hk) H. apply process_dsm_effect in H.
  destruct H as [->|pk key ps Et Hpk Hkey Hps Hid ->|root pk ps Et Hm Hv Hps ->|root Et Hm Hv ->].
  - right. split; [intros c Hc; exists c; split; [exact Hc|lia]|tauto].
  - destruct (make_current_spec _ _ Hp Hpk) as (ps' & E & Hok & Hcur & M1 & M2). rewrite E in Hps. injection Hps as <-.
    assert (Hpub : forall o1, o_pub o1 = ps' ->
      o_pub (process_nma_header o1 hd (pk_id pk)) = ps' \/ no_trust (process_nma_header o1 hd (pk_id pk))).
    { intros o1 E1. unfold process_nma_header. destruct (nma_status hd), (nma_cpks hd); cbn [set_keys set_pub o_pub];
        try (right; apply alert_no_trust); left; try exact E1.
      rewrite E1. now apply pubs_revoke_id. }
    specialize (Hpub (set_keys (store_kroot (o_keys o) key hd g) (set_pub ps' o)) eq_refl).
    destruct Hpub as [Hpub|Hpub]; [right|now left]. rewrite Hpub. split.
    + intros c Hc. exists pk. split; [exact Hcur|].
      destruct Hpk as [Hpk|Hpk]; [assert (c = pk) by congruence; subst; lia|].
      destruct (Hp _ Hpk) as (c' & Hc' & Hlt). assert (c' = c) by congruence. subst. lia.
    + intros p Hp'. left. now apply M1.
  - right. destruct (store_new_spec (o_pub o) pk Hp) as (ps' & E & Hok & S1 & S2). rewrite E in Hps. injection Hps as <-.
    cbn [set_pub o_pub]. split.
    + intros c Hc. exists c. split; [now apply S2|lia].
    + intros p Hp'. destruct (S1 p Hp') as [H|(-> & H)]; [now left|now right].
  - left. apply alert_no_trust.
Qed.

Lemma step_pubs o x o' : stores_ok o -> step o x = Ok o' ->
  no_trust o' \/
  ((forall c, ps_current (o_pub o) = Some c -> exists c', ps_current (o_pub o') = Some c' /\ pk_id c <= pk_id c') /\
   (forall p, held_pub (o_pub o') p -> held_pub (o_pub o) p \/
      forall c, ps_current (o_pub o) = Some c -> pk_id c < pk_id p)).
Proof.
  intros Hs H. pose proof H as Hstep. apply step_effects in H. destruct H as [(Hm & H & _)|o1 o2 hk mk g H1 _ _ H2 H3].
  - right. rewrite H. split; [intros c Hc; exists c; split; [exact Hc|lia]|tauto].
  - pose proof (same_trust_stores _ _ H1 Hs) as Hs1. destruct H1 as (_ & H1 & _). rewrite <- H1.
    assert (H4 : no_trust o2 \/
      ((forall c, ps_current (o_pub o1) = Some c -> exists c', ps_current (o_pub o2) = Some c' /\ pk_id c <= pk_id c') /\
       (forall p, held_pub (o_pub o2) p -> held_pub (o_pub o1) p \/
          forall c, ps_current (o_pub o1) = Some c -> pk_id c < pk_id p))).
    { destruct H2 as [->|(d & H2)]; [|now apply process_dsm_pubs in H2].
      right. split; [intros c Hc; exists c; split; [exact Hc|lia]|tauto]. }
    apply validate_key_effect in H3. destruct H3 as [->|cur key ks Hc Hv Hlt Hch Hg Hst Ht]; [exact H4|].
    destruct H4 as [(_ & _ & H4)|H4]; [rewrite (no_keys_current _ H4) in Hc; discriminate Hc|]. right.
    apply process_tags_trust in Ht. destruct Ht as ((_ & Ht & _) & _). cbn [set_keys o_pub] in Ht. rewrite Ht. exact H4.
Qed.

Lemma run_pubs h : forall o o', stores_ok o -> run o h = Ok o' -> no_trust o' \/
  forall c, ps_current (o_pub o) = Some c -> exists c', ps_current (o_pub o') = Some c' /\ pk_id c <= pk_id c'.
Proof.
  induction h as [|x h IH]; intros o o' Hs H; unfold run in H; cbn [fold_outcome] in H.
  - injection H as <-. right. intros c Hc. exists c. split; [exact Hc|lia].
  - bind_inv H. pose proof (step_stores _ _ _ Hs E) as Hs1. destruct (step_pubs _ _ _ Hs E) as [Hn|(H1 & _)].
    + left. now apply run_no_trust in H.
    + destruct (IH _ _ Hs1 H) as [Hn|H2]; [now left|]. right. intros c Hc.
      destruct (H1 c Hc) as (c1 & Hc1 & L1). destruct (H2 c1 Hc1) as (c2 & Hc2 & L2). exists c2. split; [exact Hc2|lia].
Qed.

(** Without a Merkle tree root, the public keys can only disappear. *)
Lemma process_dsm_only user o d hd g o' : stores_ok o -> o_merkle o = None -> (forall p, held_pub (o_pub o) p -> user = Some p) ->
  process_dsm o d hd g = Ok o' -> o_merkle o' = None /\ (forall p, held_pub (o_pub o') p -> user = Some p).
Proof.
  intros (Hp & _) Hm Hu H. apply process_dsm_effect in H.
  destruct H as [->|pk key ps Et Hpk Hkey Hps Hid ->|root pk ps Et Hm' Hv Hps ->|root Et Hm' Hv ->];
    [now split| |congruence|congruence].
  destruct (make_current_spec _ _ Hp Hpk) as (ps' & E & Hok & Hcur & M1 & M2). rewrite E in Hps. injection Hps as <-.
  assert (Hps' : forall p, held_pub ps' p -> user = Some p) by (intros p Hp'; apply Hu, M1, Hp').
  unfold process_nma_header. destruct (nma_status hd), (nma_cpks hd); cbn [set_keys set_pub o_pub o_merkle alert_message_received];
    try (split; [exact Hm|exact Hps']); try (split; [reflexivity|intros p [Hq|Hq]; discriminate Hq]).
  split; [exact Hm|]. now rewrite (pubs_revoke_id ps' pk Hok Hcur).
Qed.

Lemma step_only user o x o' : stores_ok o /\ o_merkle o = None /\ (forall p, held_pub (o_pub o) p -> user = Some p) ->
  step o x = Ok o' -> stores_ok o' /\ o_merkle o' = None /\ (forall p, held_pub (o_pub o') p -> user = Some p).
Proof.
  intros (Hs & Hm & Hu) H. split; [now apply step_stores in H|]. apply step_effects in H.
  destruct H as [(H1 & H2 & _)|o1 o2 hk mk g H1 _ _ H2 H3].
  - rewrite H1, H2. now split.
  - pose proof (same_trust_stores _ _ H1 Hs) as Hs1. destruct H1 as (H1 & H1' & _). rewrite <- H1 in Hm. rewrite <- H1' in Hu.
    assert (H4 : o_merkle o2 = None /\ (forall p, held_pub (o_pub o2) p -> user = Some p)).
    { destruct H2 as [->|(d & H2)]; [now split|]. now apply (process_dsm_only user _ _ _ _ _ Hs1 Hm Hu) in H2. }
    apply validate_key_effect in H3. destruct H3 as [->|cur key ks Hc Hv Hlt Hch Hg Hst Ht]; [exact H4|].
    apply process_tags_trust in Ht. destruct Ht as ((Ht & Ht' & _) & _). cbn [set_keys o_pub o_merkle] in Ht, Ht'.
    now rewrite Ht, Ht'.
Qed.

Lemma run_only pk slow h o : run (from_pubkey pk slow) h = Ok o ->
  o_merkle o = None /\ forall p, held_pub (o_pub o) p -> p = pk.
Proof.
  intros H.
  assert (H1 : stores_ok o /\ o_merkle o = None /\ (forall p, held_pub (o_pub o) p -> Some pk = Some p)).
  { revert H. apply (run_ind (fun o => stores_ok o /\ o_merkle o = None /\ (forall p, held_pub (o_pub o) p -> Some pk = Some p))).
    - intros o1 x o2. apply step_only.
    - split; [apply new_stores|]. split; [reflexivity|]. intros p [Hp|Hp]; [exact Hp|discriminate Hp]. }
  destruct H1 as (_ & H1 & H2). split; [exact H1|]. intros p Hp. specialize (H2 p Hp). congruence.
Qed.

End Crypto.
End Storage.

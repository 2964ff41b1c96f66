(** Nothing is logged as a warning or error when a correct transmission is received. *)
From Coq Require Import ZArith List Bool Lia ZifyBool ZifyNat.
From Verif Require Import Model.Prelude Model.Params Model.Gst Model.Svn Model.Bitfields
  Model.Maclt Model.Tesla Model.Merkle Model.Subframe Model.Dsm Model.MackStore Model.Nav Model.Osnma
  Model.Logging
  Spec.TimeSpec Spec.CollectSpec Spec.StoreSpec Spec.NavSpec Spec.TeslaSpec Spec.KrootSpec
  Spec.MerkleSpec Spec.MacltSpec Spec.KeySpec Spec.SystemSpec Spec.StoredSpec Spec.CompleteSpec Spec.PanicSpec
  Spec.LogSpec Spec.HonestSpec Spec.CleanSpec
  Proofs.Base Proofs.Ring Proofs.Rows Proofs.GstProofs Proofs.LayoutProofs Proofs.SubframeProofs Proofs.DsmProofs
  Proofs.MackProofs Proofs.NavProofs Proofs.EntryProofs Proofs.NavInv Proofs.TeslaProofs
  Proofs.KrootProofs Proofs.MackValidProofs Proofs.MerkleProofs Proofs.TagProofs Proofs.NavHistory
  Proofs.SystemProofs Proofs.AlertProofs Proofs.GetterProofs Proofs.KeyStoreProofs Proofs.StepProofs Proofs.AuthProofs Proofs.PanicProofs
  Proofs.TotalProofs Proofs.MackExact Proofs.LoggingProofs Proofs.LogRunProofs Proofs.LogTrueProofs Proofs.HonestKeys
  Proofs.CleanTags Proofs.CleanStores.
Import ListNotations.
Open Scope Z_scope.
Ltac Zify.zify_post_hook ::= Z.div_mod_to_equations.

(** ** Earlier histories *)

Lemma push_nword_keeps gs w c g l : nth_error gs c = Some (g, l) -> exists l', nth_error (push_nword gs w) c = Some (g, l').
Proof.
  intros H. destruct gs as [|(g0, l0) gs _] using rev_ind; [destruct c; discriminate H|].
  unfold push_nword. rewrite rev_app_distr. cbn [rev app]. rewrite rev_involutive.
  destruct (Nat.lt_ge_cases c (length gs)) as [Hc|Hc].
  - rewrite nth_error_app1 in H by exact Hc. exists l. destruct (gst_eqb _ _); rewrite <- ?app_assoc, nth_error_app1 by exact Hc; exact H.
  - rewrite nth_error_app2 in H by exact Hc. destruct (c - length gs)%nat as [|k] eqn:E; [|destruct k; discriminate H].
    cbn [nth_error] in H. injection H as <- <-.
    destruct (gst_eqb _ _); rewrite <- ?app_assoc, nth_error_app2 by exact Hc; rewrite E; eexists; reflexivity.
Qed.

Lemma stretches_keep ws q c g l : nth_error (nav_stretches ws) c = Some (g, l) ->
  exists l', nth_error (nav_stretches (ws ++ q)) c = Some (g, l').
Proof.
  intros H. induction q as [|w q IH] using rev_ind; [rewrite app_nil_r; eauto|].
  destruct IH as (l' & IH). rewrite app_assoc, nav_stretches_snoc. exact (push_nword_keeps _ _ _ _ _ IH).
Qed.

Lemma no_subframe_missed_app ws q : no_subframe_missed (ws ++ q) -> no_subframe_missed ws.
Proof.
  intros H c g l g' l' H1 H2. destruct (stretches_keep ws q c g l H1) as (l1 & E1). destruct (stretches_keep ws q _ g' l' H2) as (l2 & E2).
  exact (H c g l1 g' l2 E1 E2).
Qed.

Lemma words_carry_app D ws q : words_carry D (ws ++ q) -> words_carry D ws.
Proof. intros (H1 & H2). split; [exact H1|]. intros w k i f Hw. apply H2. apply in_or_app. now left. Qed.

(** ** Messages and their blocks *)

Lemma first_byte d : nth 0 (firstn 13 (skipn (13 * 0) d)) 0 = nth 0 d 0.
Proof. rewrite Nat.mul_0_r, skipn_O. destruct d; reflexivity. Qed.

Section Messages.
Variable msgs : list (Z * list Z).
Hypothesis Hmsgs : forall id d, In (id, d) msgs -> 0 <= id < 16 /\
  exists n, blocks_needed id (nth 0 d 0) = Some n /\ length d = (13 * n)%nat.
Hypothesis Hsame : forall id d d', In (id, d) msgs -> In (id, d') msgs -> d = d'.

Definition clean_block (b : block) : Prop := exists id d, In (id, d) msgs /\ kroot_block id d b.

Lemma clean_block_num b : clean_block b -> exists d n i, In (b_dsm b, d) msgs /\
  blocks_needed (b_dsm b) (nth 0 d 0) = Some n /\ length d = (13 * n)%nat /\ (7 <= n <= 16)%nat /\ (i < n)%nat /\
  b_num b = Z.of_nat i /\ b_data b = firstn 13 (skipn (13 * i) d).
Proof.
  intros (id & d & Hin & i & H1 & H2 & H3). destruct (Hmsgs id d Hin) as (Hid & n & Hn & Hl).
  pose proof (blocks_needed_range _ _ _ Hn) as Hr.
  assert (E : b_dsm b = id) by (unfold b_dsm; rewrite H2; lia). rewrite E. exists d, n, i.
  split; [exact Hin|]. split; [exact Hn|]. split; [exact Hl|]. split; [lia|]. split; [lia|].
  split; [unfold b_num; rewrite H2; lia|exact H3].
Qed.

Lemma clean_same_data b c : clean_block b -> clean_block c -> b_dsm c = b_dsm b -> b_num c = b_num b -> b_data c = b_data b.
Proof.
  intros Hb Hc E1 E2. destruct (clean_block_num b Hb) as (d & n & i & B1 & _ & _ & _ & _ & B6 & B7).
  destruct (clean_block_num c Hc) as (d' & n' & i' & C1 & _ & _ & _ & _ & C6 & C7). rewrite E1 in C1.
  rewrite (Hsame _ _ _ C1 B1) in C7. assert (i' = i) by lia. subst i'. congruence.
Qed.

Lemma clean_needed c : clean_block c -> b_num c = 0 -> blocks_needed (b_dsm c) (nth 0 (b_data c) 0) <> None.
Proof.
  intros Hc E. destruct (clean_block_num c Hc) as (d & n & i & C1 & C2 & _ & _ & _ & C6 & C7).
  assert (i = 0%nat) by lia. subst i. rewrite C7, first_byte, C2. discriminate.
Qed.

Lemma clean_blocks_from id d n l : In (id, d) msgs -> length d = (13 * n)%nat ->
  Forall (fun b => clean_block b /\ b_dsm b = id) l -> forall m k data, blocks_from m k l = Some data -> (k + m <= n)%nat ->
  data = firstn (13 * m) (skipn (13 * k) d).
Proof.
  intros Hin Hlen Hl. induction m as [|m IH]; intros k data H Hk; cbn [blocks_from] in H.
  - injection H as <-. now rewrite Nat.mul_0_r, firstn_O.
  - destruct (first_copy k l) as [b|] eqn:Eb; [|discriminate].
    destruct (blocks_from m (S k) l) as [r|] eqn:Er; [|discriminate]. assert (Edata : data = b_data b ++ r) by congruence. subst data. clear H.
    unfold first_copy in Eb. apply find_some in Eb. destruct Eb as (Hb & Enum).
    rewrite Forall_forall in Hl. destruct (Hl b Hb) as (Hcb & Eid).
    destruct (clean_block_num b Hcb) as (d' & n' & i & C1 & _ & _ & _ & _ & Ei & Ed). rewrite Eid in C1. rewrite (Hsame _ _ _ C1 Hin) in Ed.
    assert (i = k) by lia. subst i. rewrite Ed, (IH (S k) r Er) by lia.
    replace (13 * S m)%nat with (13 + 13 * m)%nat by lia.
    replace (13 * S k)%nat with (13 + 13 * k)%nat by lia.
    rewrite <- (firstn_skipn 13 (firstn (13 + 13 * m) (skipn (13 * k) d))).
    rewrite firstn_firstn, Nat.min_l by lia. f_equal.
    rewrite skipn_firstn_comm. replace (13 + 13 * m - 13)%nat with (13 * m)%nat by lia. f_equal.
    symmetry. apply skipn_plus.
Qed.

Lemma clean_expected bl b id p data : Forall clean_block bl -> clean_block b -> expected_dsm bl b = Some (id, p, data) ->
  id = b_dsm b /\ p = is_pkr id /\ In (id, data) msgs.
Proof.
  intros Hbl Hb H. unfold expected_dsm in H.
  destruct (complete_dsm (b_dsm b) (dsm_run_for (dsm_run bl) b)); [discriminate|].
  destruct (complete_dsm (b_dsm b) (dsm_run_for (dsm_run bl) b ++ [b])) as [dt|] eqn:E2; [|discriminate].
  assert (E3 : id = b_dsm b /\ p = is_pkr (b_dsm b) /\ dt = data) by (repeat split; congruence). clear H. destruct E3 as (-> & -> & ->).
  split; [reflexivity|]. split; [reflexivity|].
  destruct (clean_block_num b Hb) as (d & n & i & C1 & C2 & C3 & _).
  assert (Hrun : Forall (fun c => clean_block c /\ b_dsm c = b_dsm b) (dsm_run_for (dsm_run bl) b ++ [b])).
  { apply Forall_app. split; [|constructor; [split; [exact Hb|reflexivity]|constructor]]. apply Forall_forall. intros x Hx.
    apply dsm_run_for_in in Hx. destruct Hx as (Hx & Hxd). rewrite Forall_forall in Hbl. split; [apply Hbl; exact Hx|exact Hxd]. }
  unfold complete_dsm in E2. destruct (first_copy 0 _) as [b0|] eqn:E0; [|discriminate].
  unfold first_copy in E0. apply find_some in E0. destruct E0 as (Hin & Enum). pose proof Hrun as Hrun'. rewrite Forall_forall in Hrun'.
  destruct (Hrun' b0 Hin) as (Hcb & Eid). destruct (clean_block_num b0 Hcb) as (d0 & n0 & i0 & D1 & _ & _ & _ & _ & Ei0 & Ed0).
  assert (i0 = 0%nat) by lia. subst i0. rewrite Eid in D1. rewrite (Hsame _ _ _ D1 C1) in Ed0.
  rewrite Ed0, first_byte, C2 in E2.
  pose proof (clean_blocks_from _ d n _ C1 C3 Hrun n 0 data E2 ltac:(lia)) as ->. rewrite Nat.mul_0_r, skipn_O, <- C3.
  now rewrite firstn_all.
Qed.

End Messages.

Section Crypto.
Context {C : crypto} {B : build} {S : storage}.
Hypothesis HC : crypto_ok C.
Hypothesis HS : storage_ok S.
Variables (root : option (list Z)) (pk : public_key) (slow : bool) (t : transmission) (pkrs : list pkr_message) (D : nav_source).
(** The receiver starts with the public key, or without one. *)
Variable user : option public_key.
Hypothesis Huser : user = None \/ user = Some pk.
Notation new := (osnma_new root user slow).
Notation nominal := (nominal root pk t pkrs D).

Lemma nominal_app h q : nominal (h ++ q) -> nominal h.
Proof.
  intros ([(A1 & A2 & sats & A3 & A4) (B1 & B2 & B3) (P1 & P2 & P3) R O D1 T] & D2).
  assert (Hsplit : forall h1 x h2, h = h1 ++ x :: h2 -> h ++ q = h1 ++ x :: (h2 ++ q)) by (intros h1 x h2 ->; now rewrite <- app_assoc).
  split; [constructor|].
  - split; [apply Forall_app in A1; apply A1|]. split; [exact (proj1 (in_subframe_order_app _ _ A2))|]. exists sats. split; [exact A3|].
    intros s Hs. apply A4. rewrite map_app. apply in_or_app. now left.
  - split; [exact B1|]. split; [exact (honest_app _ _ _ B2)|exact B3].
  - split; [exact P1|]. split; [exact P2|]. intros h1 x h2 hk mk g E. exact (P3 _ _ _ hk mk g (Hsplit _ _ _ E)).
  - intros h1 x h2 hk mk g m E. exact (R _ _ _ hk mk g m (Hsplit _ _ _ E)).
  - intros h1 x h2 hk mk g p y z hk1 mk1 g1 E. exact (O _ _ _ hk mk g p y z hk1 mk1 g1 (Hsplit _ _ _ E)).
  - rewrite inav_words_app in D1. exact (words_carry_app _ _ _ D1).
  - intros h1 data prna gk h2 hk mk g E. exact (T h1 data prna gk _ hk mk g (Hsplit _ _ _ E)).
  - rewrite inav_words_app in D2. exact (no_subframe_missed_app _ _ D2).
Qed.

(** ** The DSM messages *)

Definition messages : list (Z * list Z) :=
  map (fun m => (km_id m, km_data m)) (tr_kroots t) ++ map (fun m => (pm_id m, pm_data m)) pkrs.

Section Nominal.
Variable h : list op.
Hypothesis Hn : nominal h.

Lemma messages_in id d : In (id, d) messages ->
  (exists m, In m (tr_kroots t) /\ id = km_id m /\ d = km_data m /\ kroot_message_ok pk t m) \/
  (exists m, In m pkrs /\ id = pm_id m /\ d = pm_data m /\ pkr_message_ok root pk m).
Proof.
  intros H. apply in_app_or in H. destruct H as [H|H]; apply in_map_iff in H; destruct H as (m & E & Hm).
  - left. exists m. split; [exact Hm|]. split; [congruence|]. split; [congruence|].
    destruct (no_transmission _ _ _ _ _ _ (proj1 Hn)) as (Ht & _). exact (proj2 (to_kroots _ _ Ht) m Hm).
  - right. exists m. split; [exact Hm|]. split; [congruence|]. split; [congruence|].
    destruct (no_pkrs _ _ _ _ _ _ (proj1 Hn)) as (_ & Hp & _). exact (Hp m Hm).
Qed.

Lemma messages_ok id d : In (id, d) messages -> 0 <= id < 16 /\
  exists n, blocks_needed id (nth 0 d 0) = Some n /\ length d = (13 * n)%nat.
Proof.
  intros H. destruct (messages_in _ _ H) as [(m & _ & -> & -> & Hm)|(m & _ & -> & -> & Hm)].
  - pose proof (km_id_ok _ _ _ Hm). split; [lia|]. exact (km_blocks_ok _ _ _ Hm).
  - pose proof (pm_id_ok _ _ _ Hm). split; [lia|]. exact (pm_blocks_ok _ _ _ Hm).
Qed.

Lemma nodup_pkr (ms : list pkr_message) m m' : NoDup (map pm_id ms) -> In m ms -> In m' ms -> pm_id m = pm_id m' -> m = m'.
Proof.
  induction ms as [|a ms IH]; intros Hd Hm Hm' E; [contradiction|]. cbn [map] in Hd. apply NoDup_cons_iff in Hd. destruct Hd as (Ha & Hd).
  destruct Hm as [->|Hm], Hm' as [->|Hm']; [reflexivity| | |now apply IH].
  - elim Ha. rewrite E. now apply in_map.
  - elim Ha. rewrite <- E. now apply in_map.
Qed.

Lemma messages_same id d d' : In (id, d) messages -> In (id, d') messages -> d = d'.
Proof.
  intros H H'. destruct (no_transmission _ _ _ _ _ _ (proj1 Hn)) as (Ht & _). destruct (no_pkrs _ _ _ _ _ _ (proj1 Hn)) as (Hp & _).
  destruct (messages_in _ _ H) as [(m & Hi & E & -> & Hm)|(m & Hi & E & -> & Hm)];
  destruct (messages_in _ _ H') as [(m' & Hi' & E' & -> & Hm')|(m' & Hi' & E' & -> & Hm')].
  - rewrite (nodup_same _ m m' (proj1 (to_kroots _ _ Ht)) Hi Hi' ltac:(congruence)). reflexivity.
  - pose proof (km_id_ok _ _ _ Hm). pose proof (pm_id_ok _ _ _ Hm'). lia.
  - pose proof (pm_id_ok _ _ _ Hm). pose proof (km_id_ok _ _ _ Hm'). lia.
  - rewrite (nodup_pkr _ m m' Hp Hi Hi' ltac:(congruence)). reflexivity.
Qed.

End Nominal.

Lemma nominal_transmits h x hk mk g : nominal (h ++ [x]) -> completes h x hk mk g -> transmits t hk mk g.
Proof. intros Hn Hc. destruct (no_transmission _ _ _ _ _ _ (proj1 Hn)) as (_ & Hh & _). exact (Hh h x [] hk mk g eq_refl Hc). Qed.

Lemma nominal_block h x hk mk g : nominal (h ++ [x]) -> completes h x hk mk g -> clean_block messages (block_of hk).
Proof.
  intros Hn Hc. destruct (nominal_transmits _ _ _ _ _ Hn Hc) as ([Hbig|(m & Hm & (_ & H) & _)] & _).
  - destruct (no_pkrs _ _ _ _ _ _ (proj1 Hn)) as (_ & _ & Hp). destruct (Hp h x [] hk mk g eq_refl Hc Hbig) as (m & Hm & H).
    exists (pm_id m), (pm_data m). split; [|exact H]. apply in_or_app. right. exact (in_map (fun m => (pm_id m, pm_data m)) _ _ Hm).
  - exists (km_id m), (km_data m). split; [|exact H]. apply in_or_app. left. exact (in_map (fun m => (km_id m, km_data m)) _ _ Hm).
Qed.

Lemma nominal_blocks h : nominal h -> Forall (clean_block messages) (received_blocks h).
Proof.
  induction h as [|x h IH] using rev_ind; intros Hn; [constructor|].
  pose proof (IH (nominal_app _ _ Hn)) as Hb.
  destruct (received_blocks_snoc h x) as [(-> & _)|(hk & mk & g & Hc & ->)]; [exact Hb|].
  apply Forall_app. split; [exact Hb|]. constructor; [|constructor]. exact (nominal_block _ _ _ _ _ Hn Hc).
Qed.

Lemma nominal_hears h : nominal h -> hears root user pk t h.
Proof.
  intros Hn. split; [apply (no_transmission _ _ _ _ _ _ (proj1 Hn))|]. split; [exact Huser|].
  intros r b1 b b2 id d Hr E Hx. fold (received_blocks h) in E. pose proof (nominal_blocks h Hn) as Hb. rewrite E in Hb.
  apply Forall_app in Hb. destruct Hb as (Hb1 & Hb2). apply Forall_cons_iff in Hb2. destruct Hb2 as (Hb & _).
  destruct (clean_expected _ (messages_ok h Hn) (messages_same h Hn) _ _ _ _ _ Hb1 Hb Hx) as (_ & Hp & Hin).
  destruct (messages_in h Hn _ _ Hin) as [(m & _ & -> & -> & Hm)|(m & _ & -> & -> & Hm)].
  - pose proof (km_id_ok _ _ _ Hm). unfold is_pkr in Hp. lia.
  - destruct (pm_data_ok _ _ _ Hm) as (_ & f & r' & HL & _ & _ & HK). exists f. split; [exact HL|]. intros _. exists pk. split; [exact HK|now left].
Qed.

(** ** MACK messages *)

(** There is room for the MACK message. *)
Lemma room_in_row h data svn gk hk mk g : nominal (h ++ [FeedOsnma data svn gk]) -> completes h (FeedOsnma data svn gk) hk mk g ->
  forall gs l, stretches (items_received (osnma_words h)) = gs ++ [(g, l)] -> (length l < num_sats)%nat.
Proof.
  intros Hn (d & s & gk' & Ex & Hz & Hexp) gs l E.
  assert (d = data /\ s = svn /\ gk' = gk) as (-> & -> & ->) by (repeat split; congruence). clear Ex.
  destruct (no_args _ _ _ _ _ _ (proj1 Hn)) as (Hok & Hord & sats & Hsats & Hroom). set (h' := h ++ [FeedOsnma data svn gk]) in *.
  pose proof (words_sorted h' Hord) as Hs. pose proof (words_gst_ok h' Hok) as Hgok.
  set (it := mkItem mk svn g (nma_status (nth 0 hk 0))).
  assert (Eits : items_received (osnma_words h') = items_received (osnma_words h) ++ [it]).
  { unfold h'. rewrite osnma_words_app. cbn [osnma_words flat_map]. rewrite Hz. cbn [app]. rewrite items_received_snoc, Hexp. reflexivity. }
  assert (Hin : In (g, l ++ [it]) (stretches (items_received (osnma_words h')))).
  { rewrite Eits, stretches_snoc, E, push_item_snoc. cbn [it it_gst].
    replace (gst_eqb g g) with true by (symmetry; now apply gst_eqb_eq). apply in_or_app. right. now left. }
  pose proof (stretch_svns _ g _ Hs Hgok Hin) as Hnd.
  assert (Hlen : (length (l ++ [it]) <= num_sats)%nat).
  { rewrite <- (map_length it_svn). apply Nat.le_trans with (length sats); [|exact Hsats]. apply NoDup_incl_length; [exact Hnd|].
    intros x Hx. apply in_map_iff in Hx. destruct Hx as (y & <- & Hy).
    destruct (stretches_in _ _ _ _ Hin Hy) as (Hy' & _).
    destruct (items_split _ _ Hy') as (w1 & w & w2 & hk' & Ew & _ & -> & _).
    assert (Hw : In w (osnma_words h')) by (rewrite Ew; apply in_or_app; right; now left).
    unfold osnma_words in Hw. apply in_flat_map in Hw. destruct Hw as (z & Hz' & Hw). pose proof (Hroom _ (in_map op_svn _ _ Hz')) as Hzok.
    destruct z as [z1 z2 z3 z4|z1 z2 z3]; [contradiction Hw|]. destruct (forallb (Z.eqb 0) z1); [contradiction Hw|].
    destruct Hw as [<-|[]]. exact Hzok. }
  rewrite app_length in Hlen. cbn [length] in Hlen. lia.
Qed.

Lemma words_split h w1 w w2 : osnma_words h = w1 ++ w :: w2 -> exists h1 x h2, h = h1 ++ x :: h2 /\ osnma_words h1 = w1 /\
  exists data svn gk, x = FeedOsnma data svn gk /\ forallb (Z.eqb 0) data = false /\ w = mkWord data svn gk.
Proof.
  revert w1 w w2. induction h as [|x h IH] using rev_ind; intros w1 w w2 E; [destruct w1; discriminate E|].
  rewrite osnma_words_app in E. destruct w2 as [|w' w2 _] using rev_ind.
  - destruct x as [a b c d|data svn gk]; cbn [osnma_words flat_map] in E.
    + rewrite !app_nil_r in E. destruct (IH w1 w [] E) as (h1 & y & h2 & -> & H). exists h1, y, (h2 ++ [FeedInav a b c d]).
      split; [now rewrite <- app_assoc|exact H].
    + destruct (forallb (Z.eqb 0) data) eqn:Ez; cbn [app] in E.
      * rewrite !app_nil_r in E. destruct (IH w1 w [] E) as (h1 & y & h2 & -> & H). exists h1, y, (h2 ++ [FeedOsnma data svn gk]).
        split; [now rewrite <- app_assoc|exact H].
      * apply app_inj_tail in E. destruct E as (E & <-). exists h, (FeedOsnma data svn gk), []. split; [reflexivity|]. split; [exact E|].
        exists data, svn, gk. auto.
  - assert (E' : exists w3, osnma_words h = w1 ++ w :: w3).
    { destruct x as [a b c d|data svn gk]; cbn [osnma_words flat_map] in E.
      - rewrite app_nil_r in E. eauto.
      - destruct (forallb (Z.eqb 0) data); cbn [app] in E; [rewrite app_nil_r in E; eauto|].
        rewrite app_comm_cons, app_assoc in E. apply app_inj_tail in E. destruct E as (E & _). eauto. }
    destruct E' as (w3 & E'). destruct (IH w1 w w3 E') as (h1 & y & h2 & -> & H). exists h1, y, (h2 ++ [x]).
    split; [now rewrite <- app_assoc|exact H].
Qed.

Lemma nominal_items h : nominal h -> Forall (item_fine t D h) (items_received (osnma_words h)).
Proof.
  intros Hn. apply Forall_forall. intros it Hit. destruct (items_split _ _ Hit) as (w1 & w & w2 & hk & Ew & Hx & Es & Est).
  destruct (words_split h w1 w w2 Ew) as (h1 & x & h2 & E & Ew1 & data & svn & gk & -> & Hz & ->).
  cbn [w_svn] in Es. rewrite <- Ew1 in Hx.
  assert (Hc : completes h1 (FeedOsnma data svn gk) hk (it_message it) (it_gst it)) by (exists data, svn, gk; auto).
  assert (Hrec : subframe_received h svn (it_gst it) hk (it_message it)).
  { rewrite E. replace (h1 ++ FeedOsnma data svn gk :: h2) with ((h1 ++ [FeedOsnma data svn gk]) ++ h2) by (now rewrite <- app_assoc).
    apply subframe_received_mono. exact (completes_received h1 data svn gk hk _ _ Hz Hx). }
  destruct (no_args _ _ _ _ _ _ (proj1 Hn)) as (Hok & _).
  exists hk. rewrite Es. split; [exact Hrec|]. split.
  - rewrite Est. destruct (subframe_received_bytes _ _ _ _ _ Hok Hrec) as ((Hlen & Hhk) & _).
    symmetry. apply status_of_eq; [exact (hkroot_header_byte _ _ _ _ _ Hok Hrec)|reflexivity].
  - split.
    + destruct (no_transmission _ _ _ _ _ _ (proj1 Hn)) as (_ & Hh & _). destruct (Hh _ _ _ _ _ _ E Hc) as (_ & (n & Hn1 & ->) & _). lia.
    + exact (no_wrong_tag _ _ _ _ _ _ (proj1 Hn) _ _ _ _ _ _ _ _ E Hc).
Qed.

(** ** DSM messages *)

Lemma calm_header_hushed o hd pkid : is_byte hd -> header_status hd = 1 \/ header_status hd = 2 -> calm_header hd ->
  hushed (process_nma_header_log W o hd pkid).
Proof.
  intros Hb Hs Hc. unfold hushed, process_nma_header_log. destruct (header_fields hd Hb) as (_ & _ & H3). unfold calm_header in Hc. rewrite <- H3 in Hc.
  destruct (status_not_dont_use hd Hb Hs) as [-> | ->]; destruct (nma_cpks hd); cbn [cpks_code] in Hc; try (exfalso; lia); hush.
Qed.

Lemma store_kroot_hushed ks key hd g : hushed (store_kroot_log W ks key hd g).
Proof. unfold hushed, store_kroot_log. cbv zeta. hush. Qed.

(** The only thing to complain about is that there is no public key yet. *)
Definition only_keyless {A} (h : list op) (x : logging A) : Prop :=
  says (fun m => m = LgNoPubkey /\ ~ key_known root user pk (received_blocks h)) x.
Lemma hushed_only {A} h (x : logging A) : hushed x -> only_keyless h x.
Proof. intros H ls a E l m Hin. elim (H ls a E l m Hin). Qed.

Lemma kroot_keyless h o m km g : In km (tr_kroots t) -> transmission_ok pk t ->
  dm_data m = km_data km -> ~ key_known root user pk (received_blocks h) -> o_pub o = pubs_empty ->
  only_keyless h (process_dsm_kroot_log W o (dm_data m) (km_header km) g).
Proof.
  intros Hkm Ht Ed Hk Hp. unfold process_dsm_kroot_log.
  apply says_lbind; [apply says_quiet|]. intros id _. rewrite Hp.
  apply says_lbind.
  - unfold applicable_pubkey_log. apply says_lbind; [apply says_quiet|]. intros _ _.
    cbn [pubs_empty ps_current ps_next has_pkid]. apply says_lbind; [|intros; apply says_done].
    apply says_log. intros l Hl. split; [congruence|exact Hk].
  - intros k Ek. rewrite applicable_pubkey_plain in Ek. unfold applicable_pubkey, pubs_empty in Ek.
    cbn in Ek. assert (k = None) by congruence. subst k. apply says_done.
Qed.

Lemma kroot_hushed o m km g : In km (tr_kroots t) -> transmission_ok pk t -> calm_header (km_header km) ->
  dm_data m = km_data km -> ps_current (o_pub o) = Some pk ->
  hushed (process_dsm_kroot_log W o (dm_data m) (km_header km) g).
Proof.
  intros Hkm Ht Hcalm Ed Hcur. destruct (kroot_key_root HC pk t Ht km Hkm) as (f & L & P & V & HK & G & Hov & Hrok).
  pose proof (proj2 (to_kroots _ _ Ht) km Hkm) as Hmok. destruct (km_header_ok _ _ _ Hmok) as (Hhb & Hs & _).
  destruct (km_data_ok _ _ _ Hmok) as (Hby & _). rewrite Ed. unfold process_dsm_kroot_log.
  apply says_lbind; [apply says_quiet|]. intros id Eid. rewrite plain_quiet, (kroot_pkid_layout _ _ L), P in Eid.
  assert (id = pk_id pk) by congruence. subst id. clear Eid.
  apply says_lbind.
  { unfold applicable_pubkey_log. apply says_lbind; [apply says_quiet|]. intros _ _. rewrite Hcur. unfold has_pkid. rewrite Z.eqb_refl. apply says_done. }
  intros k Ek. rewrite applicable_pubkey_plain in Ek. unfold applicable_pubkey in Ek.
  destruct (check_consistency (o_pub o)); [|discriminate]. cbn [bind] in Ek. rewrite Hcur in Ek. unfold has_pkid in Ek. rewrite Z.eqb_refl in Ek.
  assert (k = Some pk) by congruence. subst k. clear Ek.
  assert (H521 : forall k521, pk_key pk = VkP521 k521 -> feature_p521 = true).
  { intros k E. pose proof (to_support _ _ Ht) as Hsup. unfold key_supported in Hsup. now rewrite E in Hsup. }
  apply says_lbind; [apply says_quiet|]. intros r Er. rewrite plain_quiet in Er.
  rewrite (key_from_dsm_kroot_complete HC _ _ _ _ _ Hhb Hby L V HK G Hov H521) in Er. assert (r = ROk (km_root km)) by congruence. subst r.
  apply says_lbind; [apply says_off; reflexivity|]. intros _ _. apply says_lbind; [apply says_off; reflexivity|]. intros _ _.
  apply says_lbind; [apply says_quiet|]. intros ps _. cbv zeta.
  apply says_lbind; [apply store_kroot_hushed|]. intros ks _. now apply calm_header_hushed.
Qed.

Lemma pkr_hushed o m pm : key_supported (pk_key pk) -> pkr_message_ok root pk pm -> dm_data m = pm_data pm ->
  ps_current (o_pub o) = Some pk \/ o_pub o = pubs_empty -> o_merkle o = root ->
  hushed (process_dsm_pkr_log W o (dm_data m)).
Proof.
  intros Hsup Hok Ed Hcur Hroot. destruct (pm_data_ok _ _ _ Hok) as (Hby & f & r & HL & Hr & Hp & HK). rewrite Ed.
  destruct (pkr_key_model f pk HK Hsup) as (Kid & Kk).
  unfold process_dsm_pkr_log. apply says_lbind; [apply says_quiet|]. intros ty Ety. rewrite plain_quiet, (pkr_type_layout _ _ HL) in Ety.
  assert (ty = npkt_of (pf_npkt f)) by congruence. subst ty. clear Ety.
  assert (Hty : exists e, npkt_of (pf_npkt f) = NpktEcdsaKey e).
  { destruct (pk_key pk); destruct Kk as (-> & _); eexists; reflexivity. }
  destruct Hty as (e & ->). unfold process_dsm_pkr_npk_log. rewrite Hroot, Hr.
  apply says_lbind; [apply says_quiet|]. intros v Ev. rewrite plain_quiet, (validate_pkr_complete r _ f pk HL Hp Kid Kk) in Ev.
  assert (v = ROk pk) by congruence. subst v. clear Ev.
  apply says_lbind; [apply says_off; reflexivity|]. intros _ _. apply says_lbind; [|intros; apply says_done].
  unfold store_new_pubkey_log. apply says_lbind; [apply says_quiet|]. intros _ _. cbv zeta. destruct Hcur as [Hcur|Hcur].
  - rewrite Hcur, Z.ltb_irrefl, Z.eqb_refl. apply says_done.
  - rewrite Hcur. cbn [pubs_empty ps_current]. apply says_done.
Qed.

(** ** The key of the subframe *)

Lemma with_key_inj K K' : with_key t K = with_key t K' -> K = K'.
Proof. intros E. assert (H : ks_k0 (with_key t K) = ks_k0 (with_key t K')) by now rewrite E. cbn [with_key ks_k0] in H. congruence. Qed.

Lemma validate_key_hushed h o2 o' svn g hk mk its : nominal h -> Forall op_ok h -> rest_inv root user slow h o2 ->
  subframe_received h svn g hk mk -> transmits t hk mk g ->
  represents_ms (stretches its) (o_mack o2) -> Forall (item_fine t D h) its ->
  osnma_validate_key o2 mk g = Ok o' ->
  (o_keys o2 = keys_empty \/
   exists K, o_keys o2 = with_key t K /\ chain_key t K /\ time_of (k_gst K) <= time_of g <= time_of (k_gst K) + 90000) ->
  hushed (osnma_validate_key_log W o2 mk g).
Proof.
  intros Hn Hok Hinv Hsf Htx Hms Hits Hv Hkeys. unfold osnma_validate_key_log.
  destruct (no_transmission _ _ _ _ _ _ (proj1 Hn)) as (Ht & _). pose proof (no_data _ _ _ _ _ _ (proj1 Hn)) as HD. destruct Hn as (Hn & Hmiss).
  destruct Hkeys as [E|(K & E & HKc & Hle)].
  { rewrite E. cbn [current_key keys_empty ks_cif]. unfold hushed. hush. }
  pose proof HKc as (HKok & HKch & _).
  assert (Ec : current_key (o_keys o2) = Some K) by (rewrite E; now apply with_key_current).
  rewrite Ec.
  apply says_lbind; [apply says_quiet|]. intros kb Ekb. rewrite plain_quiet in Ekb.
  apply says_lbind; [apply says_quiet|]. intros nk Enk. rewrite plain_quiet in Enk.
  destruct (disclosed_facts root user slow h o2 svn g hk mk K kb nk Hok Hinv Hsf Ec Ekb Enk) as (D1 & D2 & D3 & D4 & D5 & D6).
  destruct (gst_cmp (k_gst K) (k_gst nk)) eqn:Ecmp; [apply says_done| |].
  2: { exfalso. rewrite gst_cmp_time in Ecmp by (apply ko_gst; assumption). apply Z.compare_gt_iff in Ecmp. rewrite D4 in Ecmp. lia. }
  assert (Hlt : time_of (k_gst K) < time_of g).
  { rewrite gst_cmp_time in Ecmp by (apply ko_gst; assumption). apply Z.compare_lt_iff in Ecmp. now rewrite D4 in Ecmp. }
  destruct (subframe_received_bytes _ _ _ _ _ Hok Hsf) as (_ & (Hlen & _) & Hg & Hsub & _).
  pose proof (transmits_discloses pk t Ht K hk mk g HKc Htx (conj Hlt (proj2 Hle))) as Hdis.
  apply says_lbind; [apply says_quiet|]. intros [nv|e] Ev; rewrite plain_quiet in Ev.
  2: { exfalso. destruct (key_accepted HC o2 mk g o' K (tr_tkey t g) Hlen Hg Hsub HKok Ec Hdis Hv) as (key & ks & Kok & Kb & Kc & Kg & Est & Ept).
       unfold osnma_validate_key in Hv. rewrite Ec, Ekb in Hv. cbn [bind] in Hv. rewrite Enk in Hv. cbn [bind] in Hv.
       rewrite Ecmp, Ev in Hv. cbn [bind] in Hv. assert (o' = o2) by congruence. subst o'.
       destruct (process_tags_trust _ _ _ Ept) as ((_ & _ & T3) & _). cbn [set_keys o_keys] in T3.
       assert (Eks : ks = with_key t key).
       { rewrite E in Est. unfold store_key, with_key in Est. cbn [ks_k0 ks_k1 ks_cif has_chain_id] in Est.
         rewrite Kc, HKch in Est. cbn [tr_tkey k_chain] in Est. rewrite Z.eqb_refl in Est. unfold with_key. congruence. }
       rewrite E, Eks in T3. apply with_key_inj in T3. subst key. rewrite Kg in Hlt. lia. }
  destruct (accepted_facts HC root user slow h o2 svn g hk mk K kb nk nv Hok Hinv Hsf Ec Ekb Enk Ev)
    as (-> & A2 & A3 & A4 & A5 & A6 & _).
  apply says_lbind; [apply says_off; reflexivity|]. intros _ _.
  apply says_lbind; [apply says_quiet|]. intros ks Eks. rewrite plain_quiet in Eks.
  assert (Ek : ks = with_key t nk).
  { rewrite E in Eks. unfold store_key, with_key in Eks. cbn [ks_k0 ks_k1 ks_cif has_chain_id] in Eks.
    rewrite A5, HKch, Z.eqb_refl in Eks. unfold with_key. congruence. }
  destruct Htx as (_ & (n & Hn1 & Hn2) & Hin).
  refine (process_tags_hushed HC HS t D h HD Hmiss root user slow pk Ht Hok (set_keys ks o2) nk its _ Hms Hits Ek A3 _ _).
  - eapply rest_inv_set; [exact Hinv|reflexivity..|exact (ri_merkle _ _ _ _ _ Hinv)|exact (ri_pub _ _ _ _ _ Hinv)|].
    intros k Hk. cbn [set_keys o_keys] in Hk. eapply store_key_in in Hk; [|exact Eks].
    destruct Hk as [->|Hk]; [split; assumption|exact (ri_keys _ _ _ _ _ Hinv k Hk)].
  - split; [exact A2|]. split; [congruence|]. exists n. rewrite A4. split; [lia|]. split; [exact Hn2|].
    destruct (tr_tkey_bytes pk t Ht g n Hn1 Hn2) as (Eb & Hby). rewrite <- Eb.
    apply bits_of_bytes_inj; [now apply key_bytes_are_bytes|now rewrite Eb|].
    unfold key_in_mack in A6, Hin. rewrite A6, Hin. rewrite A5, HKch. reflexivity.
  - rewrite A4, Hn2. lia.
Qed.

(** ** The key that is held *)

Lemma completes_time h x hk mk g : completes h x hk mk g -> g = subframe_of (op_gst x).
Proof. intros (data & s & gk & -> & _ & Hx). exact (expected_gst _ _ _ _ _ Hx). Qed.

(** It is the one of the last subframe. *)
Definition held_ok (h : list op) (o : osnma) : Prop :=
  forall K, o_keys o = with_key t K ->
    (exists p y q hk mk, h = p ++ y :: q /\ completes p y hk mk (k_gst K)) /\
    forall p y q hk mk g, h = p ++ y :: q -> completes p y hk mk g -> time_of g <= time_of (k_gst K).

Lemma order_last h x p y q : in_subframe_order (h ++ [x]) -> h = p ++ y :: q ->
  time_of (subframe_of (op_gst y)) <= time_of (subframe_of (op_gst x)).
Proof.
  intros Ho ->. pose proof (proj2 (in_subframe_order_app _ _ Ho) y x ltac:(apply in_or_app; right; now left) ltac:(now left)) as H. exact H.
Qed.

Lemma key_times h x o hk mk g K : nominal (h ++ [x]) -> completes h x hk mk g -> held_ok h o ->
  (o_keys o = with_key t K \/ o_keys o = keys_empty /\ new_root t K h x g) ->
  time_of (k_gst K) <= time_of g <= time_of (k_gst K) + 90000.
Proof.
  intros Hn Hc Hh [E|(_ & Hlt & m & b & Hm & -> & _ & _ & hk' & mk' & Hc' & Hb)].
  - destruct (Hh K E) as ((p & y & q & hk1 & mk1 & Ey & Hy) & Hlast). destruct (no_args _ _ _ _ _ _ (proj1 Hn)) as (_ & Hord & _). split.
    + rewrite (completes_time _ _ _ _ _ Hy), (completes_time _ _ _ _ _ Hc). exact (order_last h x p y q Hord Ey).
    + destruct (no_outage _ _ _ _ _ _ (proj1 Hn) h x [] hk mk g p y q hk1 mk1 (k_gst K) eq_refl Hc Ey Hy) as (p' & y' & q' & hk2 & mk2 & g2 & E2 & Hc2 & Hle).
      pose proof (Hlast _ _ _ _ _ _ E2 Hc2). lia.
  - destruct (completes_unique _ _ _ _ _ _ _ _ Hc Hc') as (-> & -> & _). split; [lia|].
    exact (no_old_root _ _ _ _ _ _ (proj1 Hn) h x [] hk mk g m eq_refl Hc Hm Hb).
Qed.

Lemma split_snoc (h : list op) x p y q : h ++ [x] = p ++ y :: q -> (q = [] /\ y = x /\ p = h) \/ exists q', h = p ++ y :: q'.
Proof.
  intros E. destruct q as [|z q _] using rev_ind.
  - left. apply app_inj_tail in E. destruct E as (-> & ->). auto.
  - right. rewrite app_comm_cons, app_assoc in E. apply app_inj_tail in E. destruct E as (-> & _). eauto.
Qed.

Lemma step_held h o x o' : nominal (h ++ [x]) -> run new h = Ok o -> key_state pk t root user h o -> held_ok h o ->
  step o x = Ok o' -> held_ok (h ++ [x]) o'.
Proof.
  intros Hn Hr Hks Hh Hs. pose proof (nominal_hears _ Hn) as Hhears. destruct (no_args _ _ _ _ _ _ (proj1 Hn)) as (Hok & Hord & _).
  destruct (no_transmission _ _ _ _ _ _ (proj1 Hn)) as (Ht & _).
  destruct (received_blocks_snoc h x) as [(_ & Hnc)|(hk & mk & g & Hc & _)].
  - destruct (step_not_completing HC HS root user slow h o x o' Hok Hr Hnc Hs) as (_ & _ & T3). intros K E. rewrite T3 in E.
    destruct (Hh K E) as ((p & y & q & hk & mk & Ey & Hy) & Hlast). split.
    + exists p, y, (q ++ [x]), hk, mk. split; [rewrite Ey; now rewrite <- app_assoc|exact Hy].
    + intros p1 y1 q1 hk1 mk1 g1 E1 H1. destruct (split_snoc _ _ _ _ _ E1) as [(_ & -> & ->)|(q' & E')]; [elim (Hnc _ _ _ H1)|].
      exact (Hlast _ _ _ _ _ _ E' H1).
  - destruct (honest_step HC HS pk t Ht root user slow h o x Hok Hhears Hr Hks) as (o1 & Hs1 & _ & _ & _ & _ & Hcomp).
    assert (o1 = o') by congruence. subst o1. destruct (Hcomp hk mk g Hc) as (ks & _ & [(_ & E0)|(K0 & K' & _ & _ & EK' & Hor & R1 & R2)]).
    { intros K E. rewrite E0 in E. discriminate E. }
    intros K E. rewrite EK' in E. apply with_key_inj in E. subst K'.
    pose proof (key_times h x o hk mk g K0 Hn Hc Hh Hor) as Hle.
    assert (Hg : k_gst K = g).
    { destruct (Z.eq_dec (time_of (k_gst K0)) (time_of g)) as [Eq|Ne].
      - rewrite (R2 ltac:(lia)) in *. destruct Hor as [Hor|(_ & Hlt & _)]; [|lia].
        destruct (Hh K0 Hor) as ((p & y & q & hk1 & mk1 & Ey & Hy) & _).
        apply time_of_inj; [| |exact Eq].
        + rewrite (completes_time _ _ _ _ _ Hy). apply subframe_of_ok. rewrite Forall_forall in Hok. apply op_gst_ok. apply Hok.
          apply in_or_app. left. rewrite Ey. apply in_or_app. right. now left.
        + rewrite (completes_time _ _ _ _ _ Hc). apply subframe_of_ok. rewrite Forall_forall in Hok. apply op_gst_ok. apply Hok.
          apply in_or_app. right. now left.
      - apply R1. lia. }
    rewrite Hg. split.
    + exists h, x, [], hk, mk. split; [reflexivity|exact Hc].
    + intros p1 y1 q1 hk1 mk1 g1 E1 H1. rewrite (completes_time _ _ _ _ _ H1), (completes_time _ _ _ _ _ Hc).
      destruct (split_snoc _ _ _ _ _ E1) as [(_ & -> & _)|(q' & E')]; [lia|]. exact (order_last h x p1 y1 q' Hord E').
Qed.

(** ** One call *)

Lemma fed_completes h o data svn gk sf hk mk g : Forall op_ok h -> op_ok (FeedOsnma data svn gk) -> inv root user slow h o ->
  forallb (Z.eqb 0) data = false -> subframe_feed (o_sub o) data svn gk = Ok (sf, Some (hk, mk, g)) ->
  completes h (FeedOsnma data svn gk) hk mk g.
Proof.
  intros Hok Hx (Hsub & _) Hz H. exists data, svn, gk. split; [reflexivity|]. split; [exact Hz|].
  set (w := mkWord data svn gk) in *.
  assert (Hwok : word_ok w) by (destruct Hx as ((X1 & _) & X2 & X3); split; auto).
  pose proof (osnma_words_ok h Hok) as Hwords.
  destruct (subframe_feed_spec (current_run (osnma_words h)) (o_sub o) w) as (sf' & Esf & _); auto.
  { now apply Forall_current_run. }
  { intros; eapply current_run_same; eauto. }
  change (subframe_feed (o_sub o) data svn gk = Ok (sf', expected_subframe (osnma_words h) w)) in Esf. congruence.
Qed.

Lemma step_hushed h o x : nominal (h ++ [x]) -> run new h = Ok o -> key_state pk t root user h o -> held_ok h o ->
  only_keyless h (step_log W o x).
Proof.
  intros Hn Hr Hks Hheld. destruct x as [word svn g b|data svn gk]; cbn [step_log]; [apply hushed_only, feed_inav_hushed|].
  set (x := FeedOsnma data svn gk) in *.
  pose proof (nominal_hears _ Hn) as Hhears. destruct (no_args _ _ _ _ _ _ (proj1 Hn)) as (Hok' & _).
  destruct (no_transmission _ _ _ _ _ _ (proj1 Hn)) as (Ht & _ & Hcalm).
  pose proof Hok' as Hok2. apply Forall_app in Hok2. destruct Hok2 as (Hok & Hx). apply Forall_cons_iff in Hx. destruct Hx as (Hx & _).
  pose proof (run_inv HC HS root user slow h Hok _ Hr) as Hinv.
  destruct (honest_step HC HS pk t Ht root user slow h o x Hok' Hhears Hr Hks) as (o' & Hs & _).
  pose proof Hks as (Hroot & Hpub & Hkeys).
  unfold feed_osnma_log. destruct (forallb (fun x => x =? 0) data) eqn:Ez; [apply says_done|].
  assert (Ez' : forallb (Z.eqb 0) data = false).
  { rewrite <- Ez. clear. induction data as [|y l IH]; cbn [forallb]; [reflexivity|]. now rewrite IH, Z.eqb_sym. }
  apply says_lbind; [apply hushed_only, subframe_feed_hushed|]. intros (sf & r) E. rewrite subframe_feed_plain in E.
  destruct r as [((hk & mk) & g)|]; [|apply says_done].
  cbv zeta.
  assert (Hc : completes h x hk mk g).
  { exact (fed_completes h o data svn gk sf hk mk g Hok Hx Hinv Ez' E). }
  destruct (subframe_fed root user slow h o data svn gk sf _ Hok Hx Hinv Ez E) as (Hrest & Hrec).
  destruct (Hrec _ _ _ eq_refl) as (Hsf & _). clear Hrec.
  pose proof (nominal_transmits _ _ _ _ _ Hn Hc) as Htx.
  destruct (subframe_received_bytes _ _ _ _ _ Hok' Hsf) as ((Hlen & Hhk) & _).
  pose proof (hkroot_header_byte _ _ _ _ _ Hok' Hsf) as Hhb.
  destruct (run_exact_dsm HC HS root user slow h Hok o Hr) as (Hd1 & Hd2). fold (received_blocks h) in Hd1, Hd2.
  pose proof (run_exact_mack HS HC root user slow h Hok o Hr) as Hms.
  set (o0 := set_sub sf o) in *.
  destruct (subframe_unroll HS root user slow _ _ _ _ _ _ Hok' Hrest Hsf (received_blocks h) Hd1 Hd2)
    as (ms & cd & d & Em & Ed & Hbok & Hcd & Hout & Ep).
  destruct (subframe_stored HS _ _ _ _ _ _ _ _ _ _ _ _ Hok' Hrest Hsf Em Ed) as (Hinv2 & Hm).
  assert (Es : step o x = process_subframe o0 hk mk svn g).
  { unfold x. cbn [step]. unfold feed_osnma. rewrite Ez, E. reflexivity. }
  rewrite Es, Ep in Hs. clear Es Ep.
  unfold process_subframe_log.
  assert (E0 : index hk 0 = Ok (nth 0 hk 0)) by (apply index_ok, nth_error_nth'; lia).
  assert (E1 : index hk 1 = Ok (nth 1 hk 0)) by (apply index_ok, nth_error_nth'; lia).
  rewrite E0, E1. apply says_lbind; [apply says_quiet|]. intros hd Ehd. rewrite plain_quiet in Ehd. injection Ehd as <-.
  apply says_lbind.
  { apply hushed_only. apply (mack_store_hushed HS _ _ _ _ _ _ Hms). intros gs l El. exact (room_in_row h data svn gk hk mk g Hn Hc gs l El). }
  intros ms' Em'. rewrite mack_store_plain, Em in Em'. injection Em' as <-. cbv zeta.
  apply says_lbind; [apply says_quiet|]. intros hd Ehd. rewrite plain_quiet in Ehd. injection Ehd as <-.
  cbn [set_mack o_dsm].
  pose proof (nominal_blocks h (nominal_app _ _ Hn)) as Hblocks. pose proof (nominal_block _ _ _ _ _ Hn Hc) as Hblock.
  pose proof (messages_ok _ Hn) as Mok. pose proof (messages_same _ Hn) as Msame.
  apply says_lbind.
  { apply hushed_only. refine (dsm_feed_hushed (received_blocks h) (o_dsm o) (block_of hk) Hd2 Hbok Hd1 _ _).
    - intros c Hin. rewrite Forall_forall in Hblocks. exact (clean_same_data _ Mok Msame _ _ Hblock (Hblocks c Hin)).
    - intros c Hin Eid. rewrite <- Eid. apply (clean_needed _ Mok Msame). destruct Hin as [Hin| ->]; [|exact Hblock].
      rewrite Forall_forall in Hblocks. exact (Hblocks c Hin). }
  intros (cd', d') Ed'. rewrite dsm_feed_plain in Ed'. change (o_dsm o0) with (o_dsm o) in Ed. change (dsm_feed (o_dsm o) (nth 1 hk 0) (skipn 2 hk) = Ok (cd', d')) in Ed'.
  assert (cd' = cd /\ d' = d) as (-> & ->) by (split; congruence). clear Ed'.
  cbv zeta. set (o1 := set_dsm cd (set_mack ms o0)) in *.
  assert (T : same_trust o o1) by (split; [|split]; reflexivity).
  assert (Hms2 : represents_ms (stretches (items_received (osnma_words (h ++ [x])))) ms).
  { destruct (store_item_spec HS _ _ (mkItem mk svn g (nma_status (nth 0 hk 0))) Hms) as (st' & Est & Hrep).
    unfold store_item in Est. cbn [it_message it_svn it_gst it_status] in Est. change (o_mack o0) with (o_mack o) in Em.
    assert (st' = ms) by congruence. subst st'. rewrite osnma_words_app. cbn [x osnma_words flat_map]. rewrite Ez'. cbn [app].
    destruct Hc as (d0 & s0 & g0 & Ex & _ & Hexp).
    assert (d0 = data /\ s0 = svn /\ g0 = gk) as (-> & -> & ->) by (unfold x in Ex; repeat split; congruence).
    rewrite items_received_snoc, Hexp, stretches_snoc. exact Hrep. }
  pose proof (nominal_items _ Hn) as Hits.
  destruct d as [m|].
  - destruct (Hm m eq_refl) as (Hdr & Hty).
    pose proof (dsm_received_bytes _ _ _ Hok' Hdr) as Hby.
    pose proof (dsm_received_size _ _ _ Hok' Hdr) as Hsz.
    assert (Hout' : expected_dsm (received_blocks h) (block_of hk) = Some (dsm_out m)) by (rewrite <- Hout; reflexivity).
    unfold dsm_out in Hout'.
    destruct (clean_expected _ Mok Msame _ _ _ _ _ Hblocks Hblock Hout') as (Eid & _ & Hin).
    apply says_lbind.
    + unfold process_dsm_log. rewrite Hty.
      destruct (messages_in _ Hn _ _ Hin) as [(km & Hkm & E3 & E4 & Hkok)|(pm & Hpm & E3 & E4 & Hpok)].
      * pose proof (km_id_ok _ _ _ Hkok). replace (dm_id m <? 12) with true by lia.
        destruct Htx as ([Hbig|(km' & Hkm' & (Ehd & Hkb) & _)] & _).
        { exfalso. change (12 <= b_dsm (block_of hk)) in Hbig. lia. }
        assert (km' = km).
        { apply (nodup_same _ km' km (proj1 (to_kroots _ _ Ht)) Hkm' Hkm).
          destruct (km_blocks_ok _ _ _ (proj2 (to_kroots _ _ Ht) km' Hkm')) as (n & Hn1 & Hn2).
          destruct (kroot_block_num _ (km_data km') n (km_id_ok _ _ _ (proj2 (to_kroots _ _ Ht) km' Hkm')) Hn1 Hn2 (block_of hk) Hkb) as (H1 & _).
          congruence. }
        subst km'. rewrite Ehd. destruct Hpub as [(_ & Hcur)|(Hk & Hp)].
        -- apply hushed_only, (kroot_hushed _ m km); auto.
        -- apply (kroot_keyless h _ m km); auto.
      * pose proof (pm_id_ok _ _ _ Hpok). replace (dm_id m <? 12) with false by lia.
        apply hushed_only. apply (pkr_hushed _ _ pm); auto; [exact (to_support _ _ Ht)|].
        destruct Hpub as [(_ & Hcur)|(_ & Hp)]; [now left|now right].
    + intros o2 E2. rewrite process_dsm_plain in E2; [|exact Hby|].
      2: { intros Hp. rewrite Hty in Hp. destruct (dm_id m <? 12); [discriminate|exact Hsz]. }
      rewrite E2 in Hs. cbn [bind] in Hs.
      assert (Hcd' : completed_dsm h hk = Some (dsm_type_eqb (dm_type m) DsmPkr, dm_data m)).
      { unfold completed_dsm. fold (received_blocks h). rewrite Hout'. reflexivity. }
      destruct (honest_dsm HC pk t Ht root user slow h o x hk mk g m Hok' Hhears Hr Hks Hc Hhb o1 T Hby Hcd') as (o2' & E2' & _ & _ & K2).
      { rewrite Hty. destruct (dm_id m <? 12); exact Hsz. }
      rewrite E2 in E2'. assert (o2' = o2) by congruence. subst o2'. clear E2'.
      apply hushed_only. refine (validate_key_hushed (h ++ [x]) o2 o' svn g hk mk _ Hn Hok' _ Hsf Htx _ Hits Hs _).
      * exact (process_dsm_rest HC root user slow _ _ m svn g hk mk o2 Hok' Hinv2 Hsf Hdr Hty E2).
      * rewrite (proj1 (process_dsm_mack _ _ _ _ _ E2)). exact Hms2.
      * destruct K2 as [(_ & EK)|(_ & K & EK & HKc & Hor)].
        -- rewrite EK. destruct Hkeys as [(H0 & _)|(K & HK & HKc & _)]; [now left|]. right. exists K. split; [exact HK|]. split; [exact HKc|].
           apply (key_times h x o hk mk g K Hn Hc Hheld). now left.
        -- right. exists K. split; [exact EK|]. split; [exact HKc|]. exact (key_times h x o hk mk g K Hn Hc Hheld Hor).
  - apply says_lbind; [apply says_done|]. intros o2 E2. injection E2 as <-. cbn [bind] in Hs.
    apply hushed_only. refine (validate_key_hushed (h ++ [x]) o1 o' svn g hk mk _ Hn Hok' Hinv2 Hsf Htx _ Hits Hs _); [exact Hms2|].
    change (o_keys o1) with (o_keys o). destruct Hkeys as [(H0 & _)|(K & HK & HKc & _)]; [now left|]. right. exists K. split; [exact HK|]. split; [exact HKc|].
    apply (key_times h x o hk mk g K Hn Hc Hheld). now left.
Qed.

(** ** The whole run *)

Theorem nominal_lines h : nominal h -> exists ls o, run_log W new h = Ok (ls, o) /\ run new h = Ok o /\
  forall l m, In (l, m) ls -> exists p x q ls1 o1 ls2 o2, h = p ++ x :: q /\ run_log W new p = Ok (ls1, o1) /\
    step_log W o1 x = Ok (ls2, o2) /\ In (l, m) ls2 /\ m = LgNoPubkey /\ ~ key_known root user pk (received_blocks p).
Proof.
  intros Hn.
  assert (H : exists ls o, run_log W new h = Ok (ls, o) /\ run new h = Ok o /\ key_state pk t root user h o /\ held_ok h o /\
    forall l m, In (l, m) ls -> exists p x q ls1 o1 ls2 o2, h = p ++ x :: q /\ run_log W new p = Ok (ls1, o1) /\
      step_log W o1 x = Ok (ls2, o2) /\ In (l, m) ls2 /\ m = LgNoPubkey /\ ~ key_known root user pk (received_blocks p)).
  { induction h as [|x h IH] using rev_ind.
    - destruct (no_transmission _ _ _ _ _ _ (proj1 Hn)) as (Ht & _).
      destruct (honest_run HC HS pk t Ht root user slow [] ltac:(constructor) (nominal_hears _ Hn)) as (o & Ho & Hks).
      assert (o = new) by (cbn in Ho; congruence). subst o. exists [], new. split; [reflexivity|]. split; [reflexivity|]. split; [exact Hks|].
      split; [intros K E; discriminate E|intros l m []].
    - destruct (IH (nominal_app _ _ Hn)) as (ls & o & Hl & Hr & Hks & Hh & Hin).
      destruct (no_args _ _ _ _ _ _ (proj1 Hn)) as (Hok' & _). destruct (no_transmission _ _ _ _ _ _ (proj1 Hn)) as (Ht & _).
      pose proof Hok' as Hok2. apply Forall_app in Hok2. destruct Hok2 as (Hok & Hx). apply Forall_cons_iff in Hx. destruct Hx as (Hx & _).
      destruct (honest_step HC HS pk t Ht root user slow h o x Hok' (nominal_hears _ Hn) Hr Hks) as (o' & Hs & Hks' & _).
      pose proof (step_plain HC HS W root user slow h o x Hok Hx (run_inv HC HS root user slow h Hok _ Hr)) as Hp. rewrite Hs in Hp.
      pose proof (step_hushed h o x Hn Hr Hks Hh) as Hhush.
      destruct (step_log W o x) as [(ls2 & o2)|] eqn:Estep; [|discriminate Hp].
      assert (o2 = o') by (cbn in Hp; congruence). subst o2.
      exists (ls ++ ls2), o'. split; [|split; [rewrite run_snoc, Hr; exact Hs|split; [exact Hks'|split; [exact (step_held h o x o' Hn Hr Hks Hh Hs)|]]]].
      + rewrite run_log_app, Hl. cbn [lbind]. rewrite run_log_one, Estep. reflexivity.
      + intros l m Hlm. apply in_app_or in Hlm. destruct Hlm as [Hlm|Hlm].
        * destruct (Hin l m Hlm) as (p & y & q & ls1 & o1 & ls3 & o3 & E & Hrest). exists p, y, (q ++ [x]), ls1, o1, ls3, o3.
          split; [rewrite E; now rewrite <- app_assoc|exact Hrest].
        * exists h, x, [], ls, o, ls2, o'. split; [reflexivity|]. split; [exact Hl|]. split; [exact Estep|]. split; [exact Hlm|].
          exact (Hhush _ _ eq_refl l m Hlm). }
  destruct H as (ls & o & H1 & H2 & _ & _ & H3). eauto.
Qed.

End Crypto.

(** With the public key from the start. *)
Corollary nominal_quiet {C : crypto} {B : build} {S : storage} (HC : crypto_ok C) (HS : storage_ok S) root pk slow t pkrs D h :
  nominal root pk t pkrs D h ->
  exists o, run_log W (osnma_new root (Some pk) slow) h = Ok ([], o) /\ run (osnma_new root (Some pk) slow) h = Ok o.
Proof.
  intros Hn. destruct (nominal_lines HC HS root pk slow t pkrs D (Some pk) ltac:(now right) h Hn) as (ls & o & H1 & H2 & H3).
  exists o. destruct ls as [|(l, m) ls]; [split; assumption|].
  destruct (H3 l m ltac:(now left)) as (p & x & q & ls1 & o1 & ls2 & o2 & _ & _ & _ & _ & _ & Hk). elim Hk. now left.
Qed.

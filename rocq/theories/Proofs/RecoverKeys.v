(** The keys of a receiver of a transmission, whatever it has received before. *)
From Coq Require Import ZArith List Bool Lia ZifyBool ZifyNat.
From Verif Require Import Model.Prelude Model.Params Model.Gst Model.Svn Model.Bitfields
  Model.Maclt Model.Tesla Model.Merkle Model.Subframe Model.Dsm Model.MackStore Model.Nav Model.Osnma
  Spec.TimeSpec Spec.CollectSpec Spec.StoreSpec Spec.NavSpec Spec.TeslaSpec Spec.KrootSpec
  Spec.MerkleSpec Spec.MacltSpec Spec.KeySpec Spec.SystemSpec Spec.StoredSpec Spec.CompleteSpec Spec.PanicSpec
  Spec.HonestSpec Spec.RecoverSpec
  Proofs.Base Proofs.Ring Proofs.Rows Proofs.GstProofs Proofs.LayoutProofs Proofs.SubframeProofs Proofs.DsmProofs
  Proofs.MackProofs Proofs.NavProofs Proofs.EntryProofs Proofs.NavInv Proofs.TeslaProofs
  Proofs.KrootProofs Proofs.MackValidProofs Proofs.MerkleProofs Proofs.TagProofs Proofs.NavHistory
  Proofs.SystemProofs Proofs.GetterProofs Proofs.KeyStoreProofs Proofs.StepProofs Proofs.AlertProofs Proofs.AuthProofs
  Proofs.PanicProofs Proofs.TotalProofs Proofs.HonestKeys.
Import ListNotations.
Open Scope Z_scope.
Ltac Zify.zify_post_hook ::= Z.div_mod_to_equations.

Local Lemma ok_inj {A} (a b : A) : Ok a = Ok b -> a = b.
Proof. congruence. Qed.

(** ** The DSM collector starts again when the DSM changes *)

Lemma dsm_run_last l b : exists r, dsm_run (l ++ [b]) = r ++ [b] /\ (forall x, In x r -> b_dsm x = b_dsm b).
Proof.
  rewrite dsm_run_snoc. exists (dsm_run_for (dsm_run l) b). split; [reflexivity|].
  intros x Hx. exact (proj2 (dsm_run_for_in _ _ _ Hx)).
Qed.

Lemma dsm_run_changed l b c : b_dsm b <> b_dsm c -> dsm_run_for (dsm_run (l ++ [b])) c = [].
Proof.
  intros H. destruct (dsm_run_last l b) as (r & E & Hr). rewrite E. unfold dsm_run_for.
  destruct (r ++ [b]) as [|y l'] eqn:El; [reflexivity|].
  assert (Hy : In y (r ++ [b])) by (rewrite El; now left).
  assert (b_dsm y = b_dsm b) by (apply in_app_or in Hy; destruct Hy as [Hy|[<-|[]]]; [now apply Hr|reflexivity]).
  destruct (b_dsm y =? b_dsm c) eqn:Ec; [lia|reflexivity].
Qed.

Definition changes (l bl : list block) : Prop := forall l' b c bl', l = l' ++ [b] -> bl = c :: bl' -> b_dsm b <> b_dsm c.

Lemma dsm_run_for_changes l bl c : changes l (bl ++ [c]) -> dsm_run_for (dsm_run (l ++ bl)) c = dsm_run_for (dsm_run bl) c.
Proof.
  revert c. induction bl as [|x bl IH] using rev_ind; intros c H.
  - rewrite app_nil_r. cbn [app] in H. destruct l as [|b l _] using rev_ind; [reflexivity|].
    rewrite dsm_run_changed; [reflexivity|]. exact (H l b c [] eq_refl eq_refl).
  - rewrite app_assoc, !dsm_run_snoc, IH; [reflexivity|].
    intros l' b c' bl' E1 E2. apply (H l' b c' (bl' ++ [c]) E1). now rewrite E2.
Qed.

Lemma expected_dsm_changes l bl c : changes l (bl ++ [c]) -> expected_dsm (l ++ bl) c = expected_dsm bl c.
Proof. intros H. unfold expected_dsm. now rewrite (dsm_run_for_changes l bl c H). Qed.

Section Crypto.
Context {C : crypto} {B : build} {S : storage}.
Hypothesis HC : crypto_ok C.
Hypothesis HS : storage_ok S.
Variables (pk : public_key) (t : transmission).
Hypothesis Ht : transmission_ok pk t.
Variables (root : option (list Z)) (user : option public_key) (slow : bool).
Notation new := (osnma_new root user slow).
Variables (h0 : list op) (o0 : osnma).

Lemma after_blocks q : received_blocks (h0 ++ q) = received_blocks h0 ++ blocks_after h0 q.
Proof.
  destruct (received_blocks_app h0 q) as (bl & E). unfold blocks_after. fold (received_blocks h0). fold (received_blocks (h0 ++ q)).
  rewrite E. f_equal. rewrite skipn_app, skipn_all, Nat.sub_diag. reflexivity.
Qed.

Lemma after_blocks_nil : blocks_after h0 [] = [].
Proof. unfold blocks_after. rewrite app_nil_r. apply skipn_all. Qed.

Lemma after_blocks_snoc q x :
  blocks_after h0 (q ++ [x]) = blocks_after h0 q /\ (forall hk mk g, ~ completes (h0 ++ q) x hk mk g) \/
  exists hk mk g, completes (h0 ++ q) x hk mk g /\ blocks_after h0 (q ++ [x]) = blocks_after h0 q ++ [block_of hk].
Proof.
  pose proof (after_blocks q) as E1. pose proof (after_blocks (q ++ [x])) as E2. rewrite app_assoc in E2.
  destruct (received_blocks_snoc (h0 ++ q) x) as [(E & Hn)|(hk & mk & g & Hc & E)].
  - left. split; [|exact Hn]. rewrite E, E1 in E2. now apply app_inv_head in E2.
  - right. exists hk, mk, g. split; [exact Hc|]. rewrite E, E1, <- app_assoc in E2. now apply app_inv_head in E2.
Qed.

Lemma after_blocks_app q q' : exists bl, blocks_after h0 (q ++ q') = blocks_after h0 q ++ bl.
Proof.
  induction q' as [|x q' IH0] using rev_ind; [exists []; now rewrite !app_nil_r|]. destruct IH0 as (bl & IH). rewrite app_assoc.
  destruct (after_blocks_snoc (q ++ q') x) as [(E & _)|(hk & mk & g & _ & E)]; rewrite E, IH; [eauto|].
  rewrite <- app_assoc. eauto.
Qed.

Lemma prepared_app q q' : prepared pk t root h0 o0 (q ++ q') -> prepared pk t root h0 o0 q.
Proof.
  destruct (after_blocks_app q q') as (bl & Ebl). intros [P1 P2 P3 P4 P5]. constructor.
  - exact P1.
  - intros K HK Hc. destruct (P2 K HK Hc) as (Q1 & Q2). split; [exact Q1|]. intros y Hy. apply Q2. apply in_or_app. now left.
  - intros p x q1 hk mk g E. apply (P3 p x (q1 ++ q') hk mk g). now rewrite E, <- app_assoc.
  - intros b1 b c bl' E1 E2. apply (P4 b1 b c (bl' ++ bl) E1). now rewrite Ebl, E2.
  - intros r b1 b b2 id d f Hr Eb. apply (P5 r b1 b (b2 ++ bl) id d f Hr). now rewrite Ebl, Eb, <- app_assoc.
Qed.

Lemma after_honest_blocks q : honest_after t h0 q -> Forall (honest_block (tr_kroots t)) (blocks_after h0 q).
Proof.
  induction q as [|x q IH] using rev_ind; intros Hh; [rewrite after_blocks_nil; constructor|].
  assert (Hq : honest_after t h0 q).
  { intros p y q' hk mk g E. apply (Hh p y (q' ++ [x]) hk mk g). now rewrite E, <- app_assoc. }
  destruct (after_blocks_snoc q x) as [(-> & _)|(hk & mk & g & Hc & ->)]; [now apply IH|].
  apply Forall_app. split; [now apply IH|]. constructor; [|constructor].
  exact (transmits_block t _ _ _ (Hh q x [] hk mk g eq_refl Hc)).
Qed.

(** The DSM completed by a subframe of [q] is made of blocks of [q]. *)
Lemma after_completed q x hk mk g : prepared pk t root h0 o0 (q ++ [x]) -> completes (h0 ++ q) x hk mk g ->
  blocks_after h0 (q ++ [x]) = blocks_after h0 q ++ [block_of hk] /\
  expected_dsm (blocks_received (osnma_words (h0 ++ q))) (block_of hk) = expected_dsm (blocks_after h0 q) (block_of hk).
Proof.
  intros HP Hc. assert (E : blocks_after h0 (q ++ [x]) = blocks_after h0 q ++ [block_of hk]).
  { destruct (after_blocks_snoc q x) as [(_ & Hn)|(hk' & mk' & g' & Hc' & E)]; [elim (Hn _ _ _ Hc)|].
    now destruct (completes_unique _ _ _ _ _ _ _ _ Hc Hc') as (-> & _). }
  split; [exact E|]. fold (received_blocks (h0 ++ q)). rewrite after_blocks. apply expected_dsm_changes.
  rewrite <- E. intros l' b c bl' E1 E2. exact (pr_changes _ _ _ _ _ _ HP l' b c bl' E1 E2).
Qed.

(** A DSM-KROOT has been given to the receiver during [q]. *)
Definition after_fired (bl : list block) : Prop :=
  exists m, In m (tr_kroots t) /\ fired (km_id m) (fun _ => True) bl.

Lemma after_received q : honest_after t h0 q -> kroot_received_after t h0 q -> after_fired (blocks_after h0 q).
Proof.
  intros Hh (m & b1 & b2 & b3 & Hm & E & H1 & H2). destruct (km_blocks_ok _ _ _ (message_ok pk t Ht m Hm)) as (n & Hn & Hl).
  exists m. split; [exact Hm|].
  exact (received_fired _ _ n (km_id_ok _ _ _ (message_ok pk t Ht m Hm)) Hn Hl _ (fun b => honest_same pk t Ht m b Hm) (fun _ => True)
           (fun _ _ H => H) (fun _ _ _ H => I) _ b1 b2 b3 (after_honest_blocks q Hh) E I H1 H2).
Qed.

Lemma after_fired_snoc bl b : after_fired (bl ++ [b]) -> after_fired bl \/ exists id data, expected_dsm bl b = Some (id, false, data).
Proof.
  intros (m & Hm & H). apply fired_snoc in H. destruct H as [H|(_ & data & H)]; [left; exists m; auto|right; eauto].
Qed.

(** ** The keys *)

Notation cid := (ch_id (tr_chain t)).

Definition old (K : tkey) : Prop := held (o_keys o0) K /\ chain_of K = cid.

Definition low (K : tkey) (bl : list block) : Prop :=
  (exists K0, old K0 /\ time_of (k_gst K0) <= time_of (k_gst K)) \/
  exists m b, In m (tr_kroots t) /\ In b bl /\ b_dsm b = km_id m /\ time_of (k_gst (km_root m)) <= time_of (k_gst K).
Definition high (K : tkey) (q : list op) : Prop :=
  (exists K0, old K0 /\ time_of (k_gst K) <= time_of (k_gst K0)) \/
  exists y, In y q /\ time_of (k_gst K) <= time_of (subframe_of (op_gst y)).

(** The keys of the chain are keys of the transmission. *)
Definition keys_good (ks : key_store) (q : list op) : Prop :=
  forall K, held ks K -> chain_of K = cid -> chain_key t K /\ low K (blocks_after h0 q) /\ high K q.

(** The chain is in force. *)
Definition in_force (ks : key_store) : Prop :=
  exists K c, current_key ks = Some K /\ chain_of K = cid /\ ks_cif ks = Some c /\ cif_cid c = cid.

(** The start of applicability does not become later. *)
Definition same_start (ks ks' : key_store) : Prop :=
  forall c, ks_cif ks = Some c -> cif_cid c = cid ->
    exists c', ks_cif ks' = Some c' /\ cif_cid c' = cid /\ (cif_start c' = cif_start c \/ cif_start c' = None).
(** It is at a time of [q]. *)
Definition start_in (ks : key_store) (q : list op) : Prop :=
  forall c g, ks_cif ks = Some c -> cif_cid c = cid -> cif_start c = Some g ->
    gst_ok g /\ exists y, In y q /\ time_of g <= time_of (subframe_of (op_gst y)).

Definition inv_after (q : list op) (o : osnma) : Prop :=
  ps_current (o_pub o) = Some pk /\ (o_merkle o = root \/ o_merkle o = None) /\ keys_good (o_keys o) q /\
  (after_fired (blocks_after h0 q) -> in_force (o_keys o)).

Lemma low_more K bl bl' : low K bl -> low K (bl ++ bl').
Proof.
  intros [H|(m & b & Hm & Hb & H)]; [now left|right]. exists m, b. split; [exact Hm|]. split; [apply in_or_app; now left|exact H].
Qed.
Lemma high_more K q q' : high K q -> high K (q ++ q').
Proof. intros [H|(y & Hy & H)]; [now left|right]. exists y. split; [apply in_or_app; now left|exact H]. Qed.
Lemma good_more ks q q' : keys_good ks q -> keys_good ks (q ++ q').
Proof.
  intros H K HK Hc. destruct (H K HK Hc) as (H1 & H2 & H3). destruct (after_blocks_app q q') as (bl & E).
  split; [exact H1|]. split; [rewrite E; now apply low_more|now apply high_more].
Qed.
Lemma same_start_refl ks : same_start ks ks.
Proof. intros c Hc Hi. exists c. auto. Qed.
Lemma same_start_trans a b c : same_start a b -> same_start b c -> same_start a c.
Proof.
  intros H1 H2 x Hx Hi. destruct (H1 x Hx Hi) as (y & Hy & Hiy & Sy). destruct (H2 y Hy Hiy) as (z & Hz & Hiz & Sz).
  exists z. split; [exact Hz|]. split; [exact Hiz|]. destruct Sz as [-> | ->]; auto.
Qed.

Lemma find_key_held p ks k : held ks k -> p k = true -> exists k', find_key p ks = Some k'.
Proof.
  intros H Hp. destruct (find_key p ks) as [k'|] eqn:E; [eauto|]. rewrite (find_key_none _ _ E k H) in Hp. discriminate.
Qed.

Lemma kroot_in_force ks m g : In m (tr_kroots t) -> in_force (store_kroot ks (km_root m) (km_header m) g).
Proof.
  intros Hm. pose proof (message_ok pk t Ht m Hm) as Hmok. destruct (km_header_ok _ _ _ Hmok) as (Hhb & _ & Hchn & _).
  destruct (km_root_ok _ _ _ Hmok) as (Hrch & _).
  assert (Ecid : nma_chain_id (km_header m) = cid) by (destruct (header_fields _ Hhb) as (_ & -> & _); exact Hchn).
  destruct (store_kroot_stored ks (km_root m) (km_header m) g) as (k & Hk & Ek).
  assert (Hcif : exists st, ks_cif (store_kroot ks (km_root m) (km_header m) g) = Some (mkCif cid st)).
  { unfold store_kroot. rewrite Ecid. destruct (if has_chain_id _ _ then _ else _) as [a b]. eexists. reflexivity. }
  destruct Hcif as (st & Hcif).
  assert (Ek' : chain_of k = cid) by (rewrite Ek; unfold chain_of; now rewrite Hrch).
  destruct (find_key_held (fun k => ch_id (k_chain k) =? cid) _ k Hk) as (k' & Ek''); [unfold chain_of in Ek'; lia|].
  exists k', (mkCif cid st). split; [unfold current_key; rewrite Hcif; exact Ek''|].
  split; [|split; [exact Hcif|reflexivity]]. destruct (find_key_spec _ _ _ Ek'') as (_ & Hp). unfold chain_of. lia.
Qed.

Lemma kroot_start ks m g : In m (tr_kroots t) -> same_start ks (store_kroot ks (km_root m) (km_header m) g) /\
  exists c, ks_cif (store_kroot ks (km_root m) (km_header m) g) = Some c /\ (cif_start c = None \/ cif_start c = Some g).
Proof.
  intros Hm. pose proof (message_ok pk t Ht m Hm) as Hmok. destruct (km_header_ok _ _ _ Hmok) as (Hhb & _ & Hchn & _).
  assert (Ecid : nma_chain_id (km_header m) = cid) by (destruct (header_fields _ Hhb) as (_ & -> & _); exact Hchn).
  unfold store_kroot. rewrite Ecid. destruct (if has_chain_id _ _ then _ else _) as [a b]. split.
  - intros c Hc Hi. cbn [ks_cif]. eexists. split; [reflexivity|]. split; [reflexivity|]. cbn [cif_start]. right. rewrite Hc, Hi, Z.eqb_refl. reflexivity.
  - cbn [ks_cif]. eexists. split; [reflexivity|]. cbn [cif_start]. destruct (ks_cif ks) as [c|]; [|auto]. destruct (negb _); auto.
Qed.

(** What the DSM does. *)
Lemma after_dsm q o x hk mk g m o1 o2 : Forall op_ok ((h0 ++ q) ++ [x]) -> prepared pk t root h0 o0 (q ++ [x]) ->
  run new (h0 ++ q) = Ok o -> inv_after q o -> completes (h0 ++ q) x hk mk g -> is_byte (nth 0 hk 0) ->
  same_trust o o1 -> Forall is_byte (dm_data m) ->
  completed_dsm (h0 ++ q) hk = Some (dsm_type_eqb (dm_type m) DsmPkr, dm_data m) ->
  process_dsm o1 m (nth 0 hk 0) g = Ok o2 ->
  ps_current (o_pub o2) = Some pk /\ (o_merkle o2 = root \/ o_merkle o2 = None) /\
  (dm_type m = DsmPkr /\ o_keys o2 = o_keys o \/
   dm_type m = DsmKroot /\ exists km, In km (tr_kroots t) /\ b_dsm (block_of hk) = km_id km /\
     time_of (k_gst (km_root km)) < time_of g /\ o_keys o2 = store_kroot (o_keys o) (km_root km) (km_header km) g).
Proof.
  intros Hok HP Hr (Hp & Hme & _) Hc Hhb (T1 & T2 & T3) Hby Hcd E.
  pose proof (pr_honest _ _ _ _ _ _ HP q x [] hk mk g eq_refl Hc) as Htx.
  assert (Hst : stores_ok o1).
  { apply (same_trust_stores o); [split; [|split]; assumption|]. apply (run_stores (h0 ++ q) new); [apply new_stores|exact Hr]. }
  destruct (after_completed q x hk mk g HP Hc) as (Hstep & Hexp).
  unfold completed_dsm in Hcd. rewrite Hexp in Hcd.
  destruct (expected_dsm _ _) as [((i & p) & dd)|] eqn:Ex; [|discriminate].
  assert (Ep : p = dsm_type_eqb (dm_type m) DsmPkr) by congruence. assert (Edd : dd = dm_data m) by congruence. subst p dd. clear Hcd.
  destruct (dm_type m) eqn:Ety; cbn [dsm_type_eqb] in Ex.
  - assert (Hone : exists km, In km (tr_kroots t) /\ has_block km hk /\ time_of (k_gst (km_root km)) < time_of g).
    { destruct Htx as ([Hbig|H] & _); [|exact H]. exfalso. unfold expected_dsm in Ex.
      destruct (complete_dsm _ _); [discriminate|]. destruct (complete_dsm _ _); [|discriminate].
      assert (Epk : is_pkr (b_dsm (block_of hk)) = false) by congruence. unfold is_pkr in Epk.
      change (b_dsm (block_of hk)) with (nth 1 hk 0 / 16) in Epk. lia. }
    destruct Hone as (km & Hkm & (Ehd & Hkb) & Hpast). pose proof (message_ok pk t Ht km Hkm) as Hmok.
    destruct (km_blocks_ok _ _ _ Hmok) as (n & Hn & Hl).
    assert (Eid : b_dsm (block_of hk) = km_id km).
    { apply (kroot_block_num _ (km_data km) n (km_id_ok _ _ _ Hmok) Hn Hl). exact Hkb. }
    pose proof (after_honest_blocks q (pr_honest _ _ _ _ _ _ (prepared_app q [x] HP))) as Hbl.
    pose proof (expected_kroot _ _ n (km_id_ok _ _ _ Hmok) Hn Hl _ (fun b => honest_same pk t Ht km b Hkm) _ _ _ _ _
                  Hbl (transmits_block t _ _ _ Htx) Eid Ex) as Ed.
    destruct (kroot_key_root HC pk t Ht km Hkm) as (f & L & P & V & HK & G & Hov & Hrok).
    destruct (km_header_ok _ _ _ Hmok) as (Hhb' & Hs & Hchn & Hal).
    destruct (kroot_accepted HC o1 m (km_header km) g f pk (km_root km)) as (ps & Eps & Ep); auto.
    { rewrite Ed. split; [exact L|]. split; [|split; [symmetry; exact P|exact V]]. left. now rewrite T2. }
    { intros k Ek. pose proof (to_support _ _ Ht) as Hsup. unfold key_supported in Hsup. now rewrite Ek in Hsup. }
    rewrite nominal_header in Ep by auto. rewrite Ehd, Ep in E. apply ok_inj in E. subst o2.
    cbn [set_keys set_pub o_merkle o_pub o_keys]. rewrite T1, T3. split.
    { assert (ps = o_pub o); [|congruence]. rewrite T2 in Eps. unfold make_pkid_current in Eps. destruct (check_consistency _); [|discriminate]. cbn [bind] in Eps.
      unfold has_pkid in Eps. rewrite Hp, Z.eqb_refl in Eps. congruence. }
    split; [exact Hme|]. right. split; [reflexivity|]. exists km. auto.
  - destruct (process_dsm_effect _ _ _ _ _ E) as [->|? ? ? Hty|r pk' ps _ Hr' Hv Hst' ->|r _ Hr' Hv ->]; [|congruence| |].
    + rewrite T1, T2, T3. split; [exact Hp|]. split; [exact Hme|]. now left.
    + cbn [set_pub o_merkle o_pub o_keys]. rewrite T1, T3. split; [|split; [exact Hme|now left]].
      unfold store_new_pubkey in Hst'. destruct (check_consistency _); [|discriminate]. cbn [bind] in Hst'. apply ok_inj in Hst'. subst ps.
      rewrite T2, Hp. destruct (_ <? _); [exact Hp|]. destruct (_ =? _); [exact Hp|].
      destruct (ps_next (o_pub o)); [destruct (_ <? _); [reflexivity|exact Hp]|reflexivity].
    + exfalso. rewrite T1 in Hr'. destruct (validate_alert_sound _ _ _ Hby Hv) as (f & HL & Hpa & H4).
      destruct Hme as [Hme|Hme]; [|congruence].
      refine (pr_alerts _ _ _ _ _ _ HP r (blocks_after h0 q) (block_of hk) [] i (dm_data m) f _ Hstep Ex HL Hpa H4). congruence.
Qed.

(** Whether a DSM makes the receiver panic does not depend on the rest of the state. *)
Lemma process_dsm_runs o o1 d hd g o1' : same_trust o o1 -> process_dsm o1 d hd g = Ok o1' -> exists o', process_dsm o d hd g = Ok o'.
Proof.
  intros (T1 & T2 & T3) H1. unfold process_dsm in *. destruct (dm_type d).
  - unfold process_dsm_kroot in *. rewrite T2 in H1. apply bind_ok in H1. destruct H1 as (id & E & H1). rewrite E. cbn [bind].
    apply bind_ok in H1. destruct H1 as (r & E1 & H1). rewrite E1. cbn [bind]. destruct r as [pk0|]; [|eauto].
    apply bind_ok in H1. destruct H1 as (r & E2 & H1). rewrite E2. cbn [bind]. destruct r as [key|]; [|eauto].
    apply bind_ok in H1. destruct H1 as (r & E3 & H1). rewrite E3. cbn [bind]. eauto.
  - unfold process_dsm_pkr in *. apply bind_ok in H1. destruct H1 as (ty & E & H1). rewrite E. cbn [bind]. destruct ty as [e| |]; [| |eauto].
    + unfold process_dsm_pkr_npk in *. rewrite T1, T2 in H1. destruct (o_merkle o) as [r|]; [|eauto].
      apply bind_ok in H1. destruct H1 as (v & E1 & H1). rewrite E1. cbn [bind]. destruct v as [pk0|]; [|eauto].
      apply bind_ok in H1. destruct H1 as (ps & E2 & H1). rewrite E2. cbn [bind]. eauto.
    + unfold process_dsm_pkr_alert_message in *. rewrite T1 in H1. destruct (o_merkle o) as [r|]; [|eauto].
      apply bind_ok in H1. destruct H1 as (v & E1 & H1). rewrite E1. cbn [bind]. destruct v as [u|]; eauto.
Qed.

(** What a call does. *)
Lemma after_step q o x o' : Forall op_ok ((h0 ++ q) ++ [x]) -> prepared pk t root h0 o0 (q ++ [x]) ->
  run new (h0 ++ q) = Ok o -> inv_after q o -> step o x = Ok o' ->
  inv_after (q ++ [x]) o' /\ same_start (o_keys o) (o_keys o') /\
  (start_in (o_keys o) q \/ ~ after_fired (blocks_after h0 q) -> start_in (o_keys o') (q ++ [x]) \/ ~ after_fired (blocks_after h0 (q ++ [x]))) /\
  ((forall hk mk g, ~ completes (h0 ++ q) x hk mk g) /\ o_keys o' = o_keys o \/
   exists hk mk g ks, completes (h0 ++ q) x hk mk g /\ keys_then o hk g ks /\ same_start (o_keys o) ks /\ keys_good ks (q ++ [x]) /\
     (after_fired (blocks_after h0 (q ++ [x])) -> in_force ks) /\
     (in_force (o_keys o) -> current_key ks = current_key (o_keys o)) /\
     forall K, current_key ks = Some K -> chain_of K = cid ->
       (time_of (k_gst K) < time_of g <= time_of (k_gst K) + 90000 ->
          discloses K mk g (tr_tkey t g) /\ exists K', current_key (o_keys o') = Some K' /\ k_gst K' = g) /\
       (time_of g <= time_of (k_gst K) \/ time_of (k_gst K) + 90000 < time_of g -> o_keys o' = ks)).
Proof.
  intros Hok HP Hr Hinv Hs. pose proof Hinv as (Hp & Hme & Hgood & Hforce).
  destruct (after_blocks_snoc q x) as [(Ebl & Hn)|(hk & mk & g & Hc & Ebl)].
  - pose proof (step_not_completing HC HS root user slow (h0 ++ q) o x o' Hok Hr Hn Hs) as (T1 & T2 & T3).
    split; [|split; [rewrite T3; apply same_start_refl|split; [|left; auto]]].
    + split; [now rewrite T2|]. split; [now rewrite T1|]. split; [rewrite T3; now apply good_more|]. rewrite T3, Ebl. exact Hforce.
    + rewrite T3, Ebl. intros [Hst|Hst]; [left|now right]. intros c g Hc Hi Hg. destruct (Hst c g Hc Hi Hg) as (G1 & y & Hy & G2).
      split; [exact G1|]. exists y. split; [apply in_or_app; now left|exact G2].
  - pose proof (pr_honest _ _ _ _ _ _ HP q x [] hk mk g eq_refl Hc) as Htx.
    destruct (completed_as_model HC HS root user slow (h0 ++ q) o x hk mk g Hok Hr Hc)
      as (sf & svn & ms & cd & d & Hrec & Hrest & Ef & Hd & Hnone & Es).
    pose proof (hkroot_header_byte _ _ _ _ _ Hok Hrec) as Hhb.
    destruct (subframe_received_bytes _ _ _ _ _ Hok Hrec) as (_ & (Hlen & _) & Hg & Hsub & _).
    assert (Hg' : g = subframe_of (op_gst x)).
    { destruct Hc as (data & s & gk & -> & _ & Hx). unfold expected_subframe in Hx.
      destruct (_ && _); [|discriminate]. cbn [w_gst op_gst] in *. congruence. }
    set (o1 := set_dsm cd (set_mack ms (set_sub sf o))) in *.
    assert (T : same_trust o o1) by (split; [|split]; reflexivity).
    assert (T0 : same_trust o o) by (split; [|split]; reflexivity).
    assert (Hdist : keys_distinct (o_keys o)) by (apply (run_stores (h0 ++ q) new o (new_stores _ _ _) Hr)).
    rewrite Es in Hs. apply bind_ok in Hs. destruct Hs as (o2 & E2 & Hs).
    assert (Hx_in : In x (q ++ [x])) by (apply in_or_app; right; now left).
    (* the key store when the MACK message is looked at *)
    assert (H2 : ps_current (o_pub o2) = Some pk /\ (o_merkle o2 = root \/ o_merkle o2 = None) /\ keys_distinct (o_keys o2) /\
      keys_then o hk g (o_keys o2) /\ same_start (o_keys o) (o_keys o2) /\ keys_good (o_keys o2) (q ++ [x]) /\
      (after_fired (blocks_after h0 (q ++ [x])) -> in_force (o_keys o2)) /\
      (in_force (o_keys o) -> current_key (o_keys o2) = current_key (o_keys o)) /\
      (start_in (o_keys o) q \/ ~ after_fired (blocks_after h0 q) ->
       start_in (o_keys o2) (q ++ [x]) \/ ~ after_fired (blocks_after h0 (q ++ [x])))).
    { assert (Hsame : o_keys o2 = o_keys o -> (after_fired (blocks_after h0 (q ++ [x])) -> after_fired (blocks_after h0 q)) ->
        same_start (o_keys o) (o_keys o2) /\ keys_good (o_keys o2) (q ++ [x]) /\
        (after_fired (blocks_after h0 (q ++ [x])) -> in_force (o_keys o2)) /\
        (in_force (o_keys o) -> current_key (o_keys o2) = current_key (o_keys o)) /\
        (start_in (o_keys o) q \/ ~ after_fired (blocks_after h0 q) ->
         start_in (o_keys o2) (q ++ [x]) \/ ~ after_fired (blocks_after h0 (q ++ [x])))).
      { intros Ek Hf. rewrite Ek. split; [apply same_start_refl|]. split; [now apply good_more|]. split; [auto|]. split; [auto|].
        intros [Hst|Hst]; [left|right; auto]. intros c g0 Hcf Hi Hg0. destruct (Hst c g0 Hcf Hi Hg0) as (G1 & y & Hy & G2).
        split; [exact G1|]. exists y. split; [apply in_or_app; now left|exact G2]. }
      destruct d as [m|].
      - destruct (Hd m eq_refl) as (Hcm & Hby & _). clear Hd Hnone.
        destruct (after_dsm q o x hk mk g m o1 o2 Hok HP Hr Hinv Hc Hhb T Hby Hcm E2) as (P2 & M2 & K2).
        split; [exact P2|]. split; [exact M2|].
        assert (Hdist2 : keys_distinct (o_keys o2)).
        { eapply process_dsm_stores; [|exact E2]. apply (same_trust_stores o _ T). apply (run_stores (h0 ++ q) new o (new_stores _ _ _) Hr). }
        split; [exact Hdist2|].
        assert (Hkt : keys_then o hk g (o_keys o2)).
        { exists cd, (Some m). split; [exact Ef|]. destruct (process_dsm_runs o o1 m _ g o2 T E2) as (o2' & E2').
          exists o2'. split; [exact E2'|]. eapply process_dsm_keys; [|exact E2'|exact E2]. exact T. }
        split; [exact Hkt|].
        destruct K2 as [(Ety & Ek)|(Ety & km & Hkm & Eid & Hpast & Ek)].
        + apply Hsame; [exact Ek|]. rewrite Ebl. intros Hf. apply after_fired_snoc in Hf. destruct Hf as [Hf|(id & data & Hx)]; [exact Hf|exfalso].
          destruct (after_completed q x hk mk g HP Hc) as (_ & Hexp). unfold completed_dsm in Hcm. rewrite Hexp, Hx, Ety in Hcm. discriminate Hcm.
        + pose proof (kroot_in_force (o_keys o) km g Hkm) as Hfo. destruct (kroot_start (o_keys o) km g Hkm) as (Hss & c & Hcf & Hst).
          rewrite <- Ek in Hfo, Hss, Hcf. split; [exact Hss|]. split; [|split; [auto|split]].
          * intros K HK Hci. rewrite Ek in HK. apply store_kroot_held in HK. destruct HK as [HK| ->].
            { exact (good_more _ q [x] Hgood K HK Hci). }
            split; [exact (root_chain_key HC pk t Ht km Hkm)|]. split.
            -- right. exists km, (block_of hk). split; [exact Hkm|]. split; [rewrite Ebl; apply in_or_app; right; now left|]. split; [exact Eid|lia].
            -- right. exists x. split; [exact Hx_in|]. rewrite <- Hg'. lia.
          * intros (K & c0 & HK & Hci & Hcf0 & Hi0). rewrite HK. destruct Hfo as (K2 & c2 & HK2 & Hci2 & _). rewrite HK2. f_equal.
            apply (held_unique (o_keys o2)); [exact Hdist2|exact (current_key_in _ _ HK2)| |congruence].
            assert (Hcc : chain_of K = chain_of (km_root km)).
            { rewrite Hci. unfold chain_of. now rewrite (proj1 (km_root_ok _ _ _ (message_ok pk t Ht km Hkm))). }
            destruct (store_kroot_same (o_keys o) (km_root km) (km_header km) g K (current_key_in _ _ HK) Hcc) as (E0 & E1).
            rewrite Ek. unfold held. rewrite E0, E1. exact (current_key_in _ _ HK).
          * intros _. left. intros c' g' Hc' _ Hs'. rewrite Hcf in Hc'. assert (c' = c) by congruence. subst c'.
            destruct Hst as [Hst|Hst]; rewrite Hst in Hs'; [discriminate|]. assert (g' = g) by congruence. subst g'.
            split; [exact Hg|]. exists x. split; [exact Hx_in|]. rewrite <- Hg'. lia.
      - apply ok_inj in E2. subst o2. specialize (Hnone eq_refl). split; [exact Hp|]. split; [exact Hme|]. split; [exact Hdist|].
        split; [exists cd, None; auto|]. apply Hsame; [reflexivity|].
        rewrite Ebl. intros Hf. apply after_fired_snoc in Hf. destruct Hf as [Hf|(id & data & Hx)]; [exact Hf|exfalso].
        destruct (after_completed q x hk mk g HP Hc) as (_ & Hexp). unfold completed_dsm in Hnone. rewrite Hexp, Hx in Hnone. discriminate Hnone. }
    destruct H2 as (P2 & M2 & D2 & Hkt & Hss2 & G2 & F2 & C2 & St2).
    (* the key of the subframe *)
    assert (H3 : ps_current (o_pub o') = Some pk /\ (o_merkle o' = root \/ o_merkle o' = None) /\ keys_good (o_keys o') (q ++ [x]) /\
      (in_force (o_keys o2) -> in_force (o_keys o')) /\ ks_cif (o_keys o') = ks_cif (o_keys o2) /\
      forall K, current_key (o_keys o2) = Some K -> chain_of K = cid ->
       (time_of (k_gst K) < time_of g <= time_of (k_gst K) + 90000 ->
          discloses K mk g (tr_tkey t g) /\ exists K', current_key (o_keys o') = Some K' /\ k_gst K' = g) /\
       (time_of g <= time_of (k_gst K) \/ time_of (k_gst K) + 90000 < time_of g -> o_keys o' = o_keys o2)).
    { pose proof (validate_key_effect _ _ _ _ Hs) as Heff.
      destruct (current_key (o_keys o2)) as [K|] eqn:EK.
      2: { destruct Heff as [->|cur key ks Hcur]; [|congruence]. split; [exact P2|]. split; [exact M2|]. split; [exact G2|].
           split; [auto|]. split; [reflexivity|]. discriminate. }
      destruct (Z.eq_dec (chain_of K) cid) as [Hci|Hci].
      - destruct (G2 K (current_key_in _ _ EK) Hci) as (HKc & Hlow & Hhigh).
        destruct (within_gap (time_of (k_gst K)) (time_of g)) as [Hlt|Hge].
        + pose proof (transmits_discloses pk t Ht K hk mk g HKc Htx Hlt) as Hdis. pose proof HKc as (HKok & Hch & _).
          destruct (key_accepted HC o2 mk g o' K (tr_tkey t g) Hlen Hg Hsub HKok EK Hdis Hs) as (key & ks & Kok & Kb & Kc & Kg & Est & Ept).
          destruct (process_tags_trust _ _ _ Ept) as ((T1 & T2 & T3) & _). cbn [set_keys o_merkle o_pub o_keys] in T1, T2, T3.
          assert (Kc' : k_chain key = tr_chain t) by exact Kc.
          destruct (store_key_spec _ _ _ D2 Est) as (D3 & Hin & Hcif & Hsub1 & Hsub2).
          pose proof (store_key_current _ K key ks D2 EK ltac:(congruence) Est) as Hcur'.
          rewrite T1, T2, T3. split; [exact P2|]. split; [exact M2|]. split; [|split; [|split; [exact Hcif|]]].
          * intros K1 HK1 Hci1. destruct (Hsub1 K1 HK1) as [->|(HK1' & _)]; [|exact (G2 K1 HK1' Hci1)].
            split; [|split].
            -- destruct Htx as (_ & (n & Hn' & Hnt) & _). split; [exact Kok|]. split; [exact Kc'|]. exists n. rewrite Kg.
               split; [lia|]. split; [exact Hnt|]. rewrite Kb. apply (tr_tkey_bytes pk t Ht g n Hn' Hnt).
            -- destruct Hlow as [(K0 & O & L0)|(m0 & b0 & X1 & X2 & X3 & X4)].
               ++ left. exists K0. split; [exact O|]. rewrite Kg. lia.
               ++ right. exists m0, b0. split; [exact X1|]. split; [exact X2|]. split; [exact X3|]. rewrite Kg. lia.
            -- right. exists x. split; [exact Hx_in|]. rewrite Kg, <- Hg'. lia.
          * intros (K1 & c1 & HK1 & Hci1 & Hcf1 & Hi1). exists key, c1. split; [exact Hcur'|]. split; [unfold chain_of; now rewrite Kc'|].
            split; [now rewrite Hcif|exact Hi1].
          * intros K1 HK1 Hci1. assert (K1 = K) by congruence. subst K1. split; [|intros; exfalso; lia].
            intros _. split; [exact Hdis|]. exists key. auto.
        + assert (o' = o2).
          { destruct Heff as [->|cur key ks Hcur Hval Hlt _ Hkg _ _]; [reflexivity|exfalso].
            assert (cur = K) by congruence. subst cur.
            pose proof (validated_gap K key g (proj1 HKc) Hg Hsub Hkg Hval) as Hgap.
            rewrite Hkg in Hlt. rewrite gst_cmp_time in Hlt; [|apply HKc|exact Hg]. change (time_of (k_gst K) < time_of g) in Hlt. lia. }
          subst o'. split; [exact P2|]. split; [exact M2|]. split; [exact G2|]. split; [auto|]. split; [reflexivity|].
          intros K1 HK1 _. assert (K1 = K) by congruence. subst K1. split; [intros; exfalso; lia|auto].
      - destruct Heff as [->|cur key ks Hcur Hval Hlt Hkch Hkg Est Ept].
        + split; [exact P2|]. split; [exact M2|]. split; [exact G2|]. split; [auto|]. split; [reflexivity|].
          intros K1 HK1 Hci1. congruence.
        + assert (cur = K) by congruence. subst cur.
          destruct (process_tags_trust _ _ _ Ept) as ((T1 & T2 & T3) & _). cbn [set_keys o_merkle o_pub o_keys] in T1, T2, T3.
          destruct (store_key_spec _ _ _ D2 Est) as (D3 & Hin & Hcif & Hsub1 & Hsub2).
          rewrite T1, T2, T3. split; [exact P2|]. split; [exact M2|]. split; [|split; [|split; [exact Hcif|]]].
          * intros K1 HK1 Hci1. destruct (Hsub1 K1 HK1) as [->|(HK1' & _)]; [|exact (G2 K1 HK1' Hci1)].
            exfalso. apply Hci. rewrite <- Hci1. unfold chain_of. now rewrite Hkch.
          * intros (K1 & c1 & HK1 & Hci1 & _). exfalso. apply Hci. congruence.
          * intros K1 HK1 Hci1. exfalso. apply Hci. congruence. }
    destruct H3 as (P3 & M3 & G3 & F3 & Cif3 & K3).
    assert (S3 : same_start (o_keys o2) (o_keys o')).
    { intros c Hcf Hi. exists c. rewrite Cif3. auto. }
    split; [|split; [exact (same_start_trans _ _ _ Hss2 S3)|split]].
    + split; [exact P3|]. split; [exact M3|]. split; [exact G3|auto].
    + intros H. destruct (St2 H) as [H2|H2]; [left|now right]. intros c g0 Hcf. rewrite Cif3 in Hcf. exact (H2 c g0 Hcf).
    + right. exists hk, mk, g, (o_keys o2). split; [exact Hc|]. split; [exact Hkt|]. split; [exact Hss2|]. split; [exact G2|].
      split; [exact F2|]. split; [exact C2|exact K3].
Qed.

(** A key of the chain is kept if the subframe completed is more than 25 hours later. *)
Lemma stale_step q o x o' K : Forall op_ok ((h0 ++ q) ++ [x]) -> prepared pk t root h0 o0 (q ++ [x]) ->
  run new (h0 ++ q) = Ok o -> inv_after q o -> step o x = Ok o' -> held (o_keys o) K -> chain_of K = cid ->
  (forall hk mk g, completes (h0 ++ q) x hk mk g -> time_of (k_gst K) + 90000 < time_of g) -> held (o_keys o') K.
Proof.
  intros Hok HP Hr Hinv Hs HK Hci Hlate. pose proof Hinv as (_ & _ & Hgood & _).
  destruct (after_blocks_snoc q x) as [(_ & Hn)|(hk & mk & g & Hc & _)].
  { pose proof (step_not_completing HC HS root user slow (h0 ++ q) o x o' Hok Hr Hn Hs) as (_ & _ & T3). now rewrite T3. }
  specialize (Hlate hk mk g Hc).
  destruct (completed_as_model HC HS root user slow (h0 ++ q) o x hk mk g Hok Hr Hc)
    as (sf & svn & ms & cd & d & Hrec & Hrest & Ef & Hd & Hnone & Es).
  pose proof (hkroot_header_byte _ _ _ _ _ Hok Hrec) as Hhb.
  destruct (subframe_received_bytes _ _ _ _ _ Hok Hrec) as (_ & _ & Hg & Hsub & _).
  set (o1 := set_dsm cd (set_mack ms (set_sub sf o))) in *.
  assert (T : same_trust o o1) by (split; [|split]; reflexivity).
  assert (Hst : stores_ok o) by (apply (run_stores (h0 ++ q) new o (new_stores _ _ _) Hr)).
  rewrite Es in Hs. apply bind_ok in Hs. destruct Hs as (o2 & E2 & Hs).
  assert (H2 : held (o_keys o2) K /\ keys_distinct (o_keys o2)).
  { destruct d as [m|]; [|apply ok_inj in E2; subst o2; split; [exact HK|apply Hst]].
    destruct (Hd m eq_refl) as (Hcm & Hby & _).
    split; [|eapply process_dsm_stores; [|exact E2]; apply (same_trust_stores o _ T); exact Hst].
    destruct (after_dsm q o x hk mk g m o1 o2 Hok HP Hr Hinv Hc Hhb T Hby Hcm E2) as (_ & _ & [(_ & Ek)|(_ & km & Hkm & _ & _ & Ek)]).
    - now rewrite Ek.
    - assert (Hcc : chain_of K = chain_of (km_root km)).
      { rewrite Hci. unfold chain_of. now rewrite (proj1 (km_root_ok _ _ _ (message_ok pk t Ht km Hkm))). }
      destruct (store_kroot_same (o_keys o) (km_root km) (km_header km) g K HK Hcc) as (E0 & E1).
      rewrite Ek. unfold held. rewrite E0, E1. exact HK. }
  destruct H2 as (HK2 & D2). pose proof (validate_key_effect _ _ _ _ Hs) as Heff.
  destruct Heff as [->|cur key ks Hcur Hval Hlt Hkch Hkg Est Ept]; [exact HK2|].
  destruct (process_tags_trust _ _ _ Ept) as ((T1 & T2 & T3) & _). cbn [set_keys o_keys] in T3. rewrite T3.
  destruct (store_key_spec _ _ _ D2 Est) as (_ & _ & _ & _ & Hsub2). apply Hsub2; [exact HK2|].
  intros Ech. assert (cur = K).
  { apply (held_unique (o_keys o2)); [exact D2|exact (current_key_in _ _ Hcur)|exact HK2|]. rewrite Ech. unfold chain_of. now rewrite Hkch. }
  subst cur. destruct (Hgood K HK Hci) as (HKc & _).
  pose proof (validated_gap K key g (proj1 HKc) Hg Hsub Hkg Hval) as Hgap. lia.
Qed.

(** ** No panic *)

Lemma pkrs_sound_app q q' : pkrs_sound_after root h0 (q ++ q') -> pkrs_sound_after root h0 q.
Proof.
  destruct (after_blocks_app q q') as (bl & Ebl). intros H r b1 b b2 id d Hr Eb. apply (H r b1 b (b2 ++ bl) id d Hr).
  now rewrite Ebl, Eb, <- app_assoc.
Qed.

(** The chains of the keys held are those of the start and that of the transmission. *)
Definition chains_from (ks : key_store) : Prop :=
  forall K, held ks K -> k_chain K = tr_chain t \/ exists K0, held (o_keys o0) K0 /\ k_chain K0 = k_chain K.

Lemma after_dsm_total q o x hk mk g m : Forall op_ok ((h0 ++ q) ++ [x]) -> prepared pk t root h0 o0 (q ++ [x]) ->
  pkrs_sound_after root h0 (q ++ [x]) ->
  run new (h0 ++ q) = Ok o -> inv_after q o -> completes (h0 ++ q) x hk mk g -> is_byte (nth 0 hk 0) ->
  Forall is_byte (dm_data m) ->
  match dm_type m with DsmKroot => (45 <= length (dm_data m))%nat | DsmPkr => pkr_size_ok (dm_data m) end ->
  completed_dsm (h0 ++ q) hk = Some (dsm_type_eqb (dm_type m) DsmPkr, dm_data m) ->
  exists o2, process_dsm o m (nth 0 hk 0) g = Ok o2.
Proof.
  intros Hok HP Hsd Hr (Hp & Hme & _) Hc Hhb Hby Hsz Hcd.
  pose proof (pr_honest _ _ _ _ _ _ HP q x [] hk mk g eq_refl Hc) as Htx.
  assert (Hst : stores_ok o) by (apply (run_stores (h0 ++ q) new); [apply new_stores|exact Hr]).
  destruct (after_completed q x hk mk g HP Hc) as (Hstep & Hexp).
  unfold completed_dsm in Hcd. rewrite Hexp in Hcd.
  destruct (expected_dsm _ _) as [((i & p) & dd)|] eqn:Ex; [|discriminate].
  assert (Ep : p = dsm_type_eqb (dm_type m) DsmPkr) by congruence. assert (Edd : dd = dm_data m) by congruence. subst p dd. clear Hcd.
  destruct (dm_type m) eqn:Ety; cbn [dsm_type_eqb] in Ex.
  - assert (Hone : exists km, In km (tr_kroots t) /\ has_block km hk /\ time_of (k_gst (km_root km)) < time_of g).
    { destruct Htx as ([Hbig|H] & _); [|exact H]. exfalso. unfold expected_dsm in Ex.
      destruct (complete_dsm _ _); [discriminate|]. destruct (complete_dsm _ _); [|discriminate].
      assert (Epk : is_pkr (b_dsm (block_of hk)) = false) by congruence. unfold is_pkr in Epk.
      change (b_dsm (block_of hk)) with (nth 1 hk 0 / 16) in Epk. lia. }
    destruct Hone as (km & Hkm & (Ehd & Hkb) & Hpast). pose proof (message_ok pk t Ht km Hkm) as Hmok.
    destruct (km_blocks_ok _ _ _ Hmok) as (n & Hn & Hl).
    assert (Eid : b_dsm (block_of hk) = km_id km).
    { apply (kroot_block_num _ (km_data km) n (km_id_ok _ _ _ Hmok) Hn Hl). exact Hkb. }
    pose proof (after_honest_blocks q (pr_honest _ _ _ _ _ _ (prepared_app q [x] HP))) as Hbl.
    pose proof (expected_kroot _ _ n (km_id_ok _ _ _ Hmok) Hn Hl _ (fun b => honest_same pk t Ht km b Hkm) _ _ _ _ _
                  Hbl (transmits_block t _ _ _ Htx) Eid Ex) as Ed.
    destruct (kroot_key_root HC pk t Ht km Hkm) as (f & L & P & V & HK & G & Hov & Hrok).
    destruct (km_header_ok _ _ _ Hmok) as (Hhb' & Hs & Hchn & Hal).
    destruct (kroot_accepted HC o m (km_header km) g f pk (km_root km)) as (ps & Eps & Ep); auto.
    { rewrite Ed. split; [exact L|]. split; [|split; [symmetry; exact P|exact V]]. left. exact Hp. }
    { intros k Ek. pose proof (to_support _ _ Ht) as Hsup. unfold key_supported in Hsup. now rewrite Ek in Hsup. }
    rewrite Ehd, Ep. eauto.
  - destruct (process_dsm o m (nth 0 hk 0) g) as [o2|] eqn:E; [eauto|exfalso].
    assert (Hsz' : match dm_type m with DsmKroot => (45 <= length (dm_data m))%nat | DsmPkr => pkr_size_ok (dm_data m) end) by (rewrite Ety; exact Hsz).
    apply (process_dsm_panic HC o m (nth 0 hk 0) g Hst Hhb Hby Hsz') in E. rewrite Ety in E. cbn [dsm_type_eqb dsm_panics] in E.
    destruct E as (r & Hr' & Hpan). destruct Hme as [Hme|Hme]; [|congruence].
    exact (Hsd r (blocks_after h0 q) (block_of hk) [] i (dm_data m) ltac:(congruence) Hstep Ex Hpan).
Qed.

Lemma after_total_step q o x : Forall op_ok ((h0 ++ q) ++ [x]) -> prepared pk t root h0 o0 (q ++ [x]) ->
  pkrs_sound_after root h0 (q ++ [x]) -> chains_usable t o0 ->
  run new (h0 ++ q) = Ok o -> inv_after q o -> chains_from (o_keys o) ->
  exists o', step o x = Ok o' /\ chains_from (o_keys o').
Proof.
  intros Hok HP Hsd Hus Hr Hinv Hch.
  assert (Hst : stores_ok o) by (apply (run_stores (h0 ++ q) new o (new_stores _ _ _) Hr)).
  destruct (after_blocks_snoc q x) as [(_ & Hn)|(hk & mk & g & Hc & _)].
  { assert (Hs : exists o', step o x = Ok o').
    { apply (harmless_step HC HS root user slow (h0 ++ q) o x Hok Hr). intros hk mk g Hc. elim (Hn _ _ _ Hc). }
    destruct Hs as (o' & Hs). exists o'. split; [exact Hs|].
    pose proof (step_not_completing HC HS root user slow (h0 ++ q) o x o' Hok Hr Hn Hs) as (_ & _ & T3). now rewrite T3. }
  destruct (completed_as_model HC HS root user slow (h0 ++ q) o x hk mk g Hok Hr Hc)
    as (sf & svn & ms & cd & d & Hrec & Hrest & Ef & Hd & Hnone & Es).
  pose proof (hkroot_header_byte _ _ _ _ _ Hok Hrec) as Hhb.
  assert (T0 : same_trust o o) by (split; [|split]; reflexivity).
  set (o1 := set_dsm cd (set_mack ms (set_sub sf o))) in *.
  assert (T : same_trust o o1) by (split; [|split]; reflexivity).
  (* the keys when the MACK message is looked at *)
  assert (H2 : forall o2 ks, same_trust o o2 -> (o3 <- match d with Some m => process_dsm o2 m (nth 0 hk 0) g | None => Ok o2 end ;; Ok (o_keys o3)) = Ok ks ->
    chains_from ks).
  { intros o2 ks T2 H. destruct d as [m|].
    - destruct (Hd m eq_refl) as (Hcm & Hby & _). apply bind_ok in H. destruct H as (o3 & E3 & H). apply ok_inj in H. subst ks.
      destruct (after_dsm q o x hk mk g m o2 o3 Hok HP Hr Hinv Hc Hhb T2 Hby Hcm E3) as (_ & _ & [(_ & Ek)|(_ & km & Hkm & _ & _ & Ek)]); rewrite Ek; [exact Hch|].
      intros K HK. apply store_kroot_held in HK. destruct HK as [HK| ->]; [now apply Hch|]. left.
      exact (proj1 (km_root_ok _ _ _ (message_ok pk t Ht km Hkm))).
    - cbn [bind] in H. apply ok_inj in H. subst ks. destruct T2 as (_ & _ & ->). exact Hch. }
  assert (Hs : exists o', step o x = Ok o').
  { apply (harmless_step HC HS root user slow (h0 ++ q) o x Hok Hr). intros hk' mk' g' Hc'.
    destruct (completes_unique _ _ _ _ _ _ _ _ Hc Hc') as (-> & -> & ->).
    pose proof (pr_honest _ _ _ _ _ _ HP q x [] _ _ _ eq_refl Hc) as (_ & (n & _ & Hnt) & _).
    pose proof (to_start _ _ Ht) as Hstart. split; [lia|]. split.
    - intros pkr dd E. destruct d as [m|]; [|rewrite (Hnone eq_refl) in E; discriminate].
      destruct (Hd m eq_refl) as (Hcm & Hby & Hsz & _).
      destruct (after_dsm_total q o x _ _ _ m Hok HP Hsd Hr Hinv Hc Hhb Hby Hsz Hcm) as (o2 & E2).
      rewrite Hcm in E. assert (pkr = dsm_type_eqb (dm_type m) DsmPkr) by congruence. assert (dd = dm_data m) by congruence. subst pkr dd.
      intros Hpan. apply (process_dsm_panic HC o m _ g Hst Hhb Hby Hsz) in Hpan. congruence.
    - intros ks k k' (cd1 & d1 & F1 & G1) Hk Hk'. assert (d1 = d) by congruence. subst d1.
      assert (Hks : chains_from ks).
      { apply (H2 o ks T0). destruct d as [m|].
        - destruct G1 as (a & A1 & A2). rewrite A1. cbn [bind]. congruence.
        - cbn [bind]. congruence. }
      apply Hus.
      + destruct (Hks k Hk) as [E|(K0 & E1 & E2)]; [now left|right; eauto].
      + destruct (Hks k' Hk') as [E|(K0 & E1 & E2)]; [now left|right; eauto]. }
  destruct Hs as (o' & Hs). exists o'. split; [exact Hs|].
  rewrite Es in Hs. apply bind_ok in Hs. destruct Hs as (o2 & E2 & Hs).
  assert (Hc2 : chains_from (o_keys o2)).
  { apply (H2 o1 (o_keys o2) T). rewrite E2. reflexivity. }
  assert (D2 : keys_distinct (o_keys o2)).
  { destruct d as [m|]; [eapply process_dsm_stores; [|exact E2]; apply (same_trust_stores o _ T); exact Hst|]. apply ok_inj in E2. subst o2. apply Hst. }
  destruct (validate_key_effect _ _ _ _ Hs) as [->|cur key ks Hcur Hval Hlt Hkch Hkg Est Ept]; [exact Hc2|].
  destruct (process_tags_trust _ _ _ Ept) as ((_ & _ & T3) & _). cbn [set_keys o_keys] in T3. rewrite T3.
  destruct (store_key_spec _ _ _ D2 Est) as (_ & _ & _ & Hsub1 & _).
  intros K HK. destruct (Hsub1 K HK) as [->|(HK' & _)]; [|now apply Hc2]. rewrite Hkch. apply Hc2. exact (current_key_in _ _ Hcur).
Qed.

(** ** All the calls *)

Hypothesis Hr0 : run new h0 = Ok o0.
Hypothesis Hok0 : Forall op_ok h0.

Lemma inv_start q : prepared pk t root h0 o0 q -> inv_after [] o0.
Proof.
  intros HP. split; [exact (pr_pub _ _ _ _ _ _ HP)|]. split; [|split].
  - pose proof (run_inv HC HS root user slow h0 Hok0 _ Hr0) as (_ & Hrest). pose proof (ri_merkle _ _ _ _ _ Hrest) as Hm.
    unfold merkle_inv in Hm. tauto.
  - intros K HK Hci. destruct (pr_keys _ _ _ _ _ _ HP K HK Hci) as ((Hch & Hn) & _).
    pose proof (run_inv HC HS root user slow h0 Hok0 _ Hr0) as (_ & Hrest).
    split; [split; [exact (proj1 (ri_keys _ _ _ _ _ Hrest K HK))|auto]|]. split; left; exists K; (split; [split; assumption|lia]).
  - rewrite after_blocks_nil. intros (m & _ & b1 & b & b2 & d & E & _). destruct b1; discriminate E.
Qed.

Lemma run_last h x o : run new (h ++ [x]) = Ok o -> exists o1, run new h = Ok o1 /\ step o1 x = Ok o.
Proof.
  rewrite run_app. destruct (run new h) as [o1|]; [|discriminate]. unfold run. cbn [bind fold_outcome]. intros H. exists o1. split; [reflexivity|].
  destruct (step o1 x); [exact H|discriminate].
Qed.

Lemma after_fired_app q q' : after_fired (blocks_after h0 q) -> after_fired (blocks_after h0 (q ++ q')).
Proof.
  intros (m & Hm & Hf). destruct (after_blocks_app q q') as (bl & ->). exists m. split; [exact Hm|]. now apply fired_app.
Qed.

Theorem after_inv q : Forall op_ok (h0 ++ q) -> prepared pk t root h0 o0 q -> forall o, run new (h0 ++ q) = Ok o ->
  inv_after q o /\ (start_in (o_keys o) q \/ ~ after_fired (blocks_after h0 q)).
Proof.
  induction q as [|x q IH] using rev_ind; intros Hok HP o Hr.
  - rewrite app_nil_r in Hr. assert (o = o0) by congruence. subst o. split; [exact (inv_start _ HP)|right].
    rewrite after_blocks_nil. intros (m & _ & b1 & b & b2 & d & E & _). destruct b1; discriminate E.
  - rewrite app_assoc in Hok, Hr. destruct (run_last _ _ _ Hr) as (o1 & Hr1 & Hs).
    destruct (IH (proj1 (proj1 (Forall_app _ _ _) Hok)) (prepared_app q [x] HP) o1 Hr1) as (Hinv & Hst).
    destruct (after_step q o1 x o Hok HP Hr1 Hinv Hs) as (Hinv' & _ & Hst' & _). auto.
Qed.

(** Once a DSM-KROOT has been received the key in force does not become older. *)
Lemma after_total q : Forall op_ok (h0 ++ q) -> prepared pk t root h0 o0 q -> pkrs_sound_after root h0 q -> chains_usable t o0 ->
  exists o, run new (h0 ++ q) = Ok o.
Proof.
  intros Hok HP Hsd Hus.
  assert (H : exists o, run new (h0 ++ q) = Ok o /\ chains_from (o_keys o)).
  { induction q as [|x q IH] using rev_ind.
    - rewrite app_nil_r. exists o0. split; [exact Hr0|]. intros K HK. right. eauto.
    - rewrite app_assoc in *. pose proof (proj1 (proj1 (Forall_app _ _ _) Hok)) as Hok1.
      destruct (IH Hok1 (prepared_app q [x] HP) (pkrs_sound_app q [x] Hsd)) as (o & Hr & Hch).
      destruct (after_inv q Hok1 (prepared_app q [x] HP) o Hr) as (Hinv & _).
      destruct (after_total_step q o x Hok HP Hsd Hus Hr Hinv Hch) as (o' & Hs & Hch').
      exists o'. rewrite run_snoc, Hr. cbn [bind]. auto. }
  destruct H as (o & Hr & _). eauto.
Qed.

Lemma stale_kept q : forall o K, Forall op_ok (h0 ++ q) -> prepared pk t root h0 o0 q -> held (o_keys o0) K -> chain_of K = cid ->
  (forall p x q' hk mk g, q = p ++ x :: q' -> completes (h0 ++ p) x hk mk g -> time_of (k_gst K) + 90000 < time_of g) ->
  run new (h0 ++ q) = Ok o -> forall K', held (o_keys o) K' -> chain_of K' = cid -> K' = K.
Proof.
  intros o K Hok HP HK Hci Hlate Hr.
  assert (Hheld : held (o_keys o) K).
  { revert o Hok HP Hlate Hr. induction q as [|x q IH] using rev_ind; intros o Hok HP Hlate Hr.
    - rewrite app_nil_r in Hr. assert (o = o0) by congruence. now subst o.
    - rewrite app_assoc in Hok, Hr. destruct (run_last _ _ _ Hr) as (o1 & Hr1 & Hs).
      pose proof (proj1 (proj1 (Forall_app _ _ _) Hok)) as Hok1. pose proof (prepared_app _ [x] HP) as HP1.
      assert (H1 : held (o_keys o1) K).
      { apply IH; [exact Hok1|exact HP1| |exact Hr1]. intros p y q' hk mk g E. apply (Hlate p y (q' ++ [x]) hk mk g). now rewrite E, <- app_assoc. }
      destruct (after_inv q Hok1 HP1 o1 Hr1) as (Hinv & _).
      apply (stale_step q o1 x o K Hok HP Hr1 Hinv Hs H1 Hci). intros hk mk g. apply (Hlate q x [] hk mk g eq_refl). }
  intros K' HK' Hci'. apply (held_unique (o_keys o)); [apply (run_stores (h0 ++ q) new o (new_stores _ _ _) Hr)|exact HK'|exact Hheld|congruence].
Qed.

Lemma after_kept q' : forall q o o' K, Forall op_ok (h0 ++ q ++ q') -> prepared pk t root h0 o0 (q ++ q') ->
  run new (h0 ++ q) = Ok o -> run new (h0 ++ q ++ q') = Ok o' -> after_fired (blocks_after h0 q) -> current_key (o_keys o) = Some K ->
  same_start (o_keys o) (o_keys o') /\ exists K', current_key (o_keys o') = Some K' /\ time_of (k_gst K) <= time_of (k_gst K').
Proof.
  induction q' as [|x q' IH] using rev_ind; intros q o o' K Hok HP Hr Hr' Hf HK.
  - rewrite app_nil_r in Hr'. assert (o' = o) by congruence. subst o'. split; [apply same_start_refl|]. exists K. split; [exact HK|lia].
  - rewrite (app_assoc q q' [x]) in HP, Hok, Hr'. rewrite app_assoc in Hok, Hr'. destruct (run_last _ _ _ Hr') as (o1 & Hr1 & Hs).
    pose proof (proj1 (proj1 (Forall_app _ _ _) Hok)) as Hok1. pose proof (prepared_app _ [x] HP) as HP1.
    destruct (IH q o o1 K Hok1 HP1 Hr Hr1 Hf HK) as (S1 & K1 & HK1 & Hle1).
    destruct (after_inv (q ++ q') Hok1 HP1 o1 Hr1) as (Hinv & _).
    pose proof (proj2 (proj2 (proj2 Hinv)) (after_fired_app q q' Hf)) as Hfo.
    destruct (after_step (q ++ q') o1 x o' Hok HP Hr1 Hinv Hs) as (_ & S2 & _ & Hcase).
    split; [exact (same_start_trans _ _ _ S1 S2)|].
    destruct Hcase as [(_ & Ek)|(hk & mk & g & ks & Hc & Hkt & _ & _ & _ & Hcur & Hk)]; [rewrite Ek; exists K1; auto|].
    specialize (Hcur Hfo). rewrite HK1 in Hcur. destruct Hfo as (K1' & c & HK1' & Hci & _). assert (K1' = K1) by congruence. subst K1'.
    destruct (Hk K1 Hcur Hci) as (R1 & R2).
    destruct (within_gap (time_of (k_gst K1)) (time_of g)) as [Hlt|Hge].
    + destruct (R1 Hlt) as (_ & K' & HK' & Eg). exists K'. split; [exact HK'|]. rewrite Eg. lia.
    + rewrite (R2 Hge). exists K1. auto.
Qed.

Lemma no_long_gap_after_app q q' : no_long_gap_after t h0 o0 (q ++ q') -> no_long_gap_after t h0 o0 q.
Proof. intros H p x q1 hk mk g E. apply (H p x (q1 ++ q') hk mk g). now rewrite E, <- app_assoc. Qed.

(** The receiver keeps up with the subframes that it receives. *)
Lemma after_follows n : forall p x hk mk g o, (length p < n)%nat -> Forall op_ok (h0 ++ p ++ [x]) -> prepared pk t root h0 o0 (p ++ [x]) ->
  no_long_gap_after t h0 o0 (p ++ [x]) -> completes (h0 ++ p) x hk mk g -> kroot_received_after t h0 (p ++ [x]) ->
  run new (h0 ++ p ++ [x]) = Ok o ->
  exists K, current_key (o_keys o) = Some K /\ time_of g <= time_of (k_gst K).
Proof.
  induction n as [|n IH]; intros p x hk mk g o Hlen Hok HP Hgap Hc Hrec Hr; [lia|].
  pose proof Hok as Hokk. pose proof Hr as Hrr. rewrite app_assoc in Hok, Hr. destruct (run_last _ _ _ Hr) as (o1 & Hr1 & Hs).
  pose proof (proj1 (proj1 (Forall_app _ _ _) Hok)) as Hok1. pose proof (prepared_app _ [x] HP) as HP1.
  destruct (after_inv p Hok1 HP1 o1 Hr1) as (Hinv & _).
  destruct (after_step p o1 x o Hok HP Hr1 Hinv Hs) as (_ & _ & _ & Hcase).
  pose proof (after_received _ (pr_honest _ _ _ _ _ _ HP) Hrec) as Hf.
  destruct Hcase as [(Hn & _)|(hk' & mk' & g' & ks & Hc' & Hkt & _ & Hgood & Hfo & Hcur & Hk)]; [elim (Hn _ _ _ Hc)|].
  destruct (completes_unique _ _ _ _ _ _ _ _ Hc Hc') as (-> & -> & ->).
  destruct (Hfo Hf) as (K & c & HK & Hci & _). destruct (Hk K HK Hci) as (R1 & R2).
  destruct (Hgood K (current_key_in _ _ HK) Hci) as (_ & Hlow & _).
  destruct (Z.le_gt_cases (time_of g) (time_of (k_gst K))) as [Hge|Hlt].
  { rewrite (R2 (or_introl Hge)). exists K. auto. }
  assert (Hle : time_of g <= time_of (k_gst K) + 90000).
  { destruct (Hgap p x [] hk mk g eq_refl Hc Hrec) as [(Hm0 & Hk0)|(p1 & y & p2 & hk1 & mk1 & g1 & Ep & Hc1 & Hrec1 & H1)].
    { destruct Hlow as [(K0 & (O1 & O2) & L0)|(m & b & Hm & Hb & Hid & L0)].
      - specialize (Hk0 K0 O1 O2). lia.
      - specialize (Hm0 m b Hm Hb Hid). lia. }
    assert (E1 : p = (p1 ++ [y]) ++ p2) by (rewrite Ep, <- app_assoc; reflexivity).
    pose proof (no_long_gap_after_app _ _ Hgap) as Hgap1.
    rewrite E1 in HP1, Hok1, Hr1, Hgap1.
    assert (Hry : exists oy, run new (h0 ++ p1 ++ [y]) = Ok oy).
    { rewrite app_assoc, run_app in Hr1. destruct (run new (h0 ++ p1 ++ [y])) as [oy|]; [eauto|discriminate Hr1]. }
    destruct Hry as (oy & Hry).
    pose proof Hok1 as Hoky. rewrite app_assoc in Hoky. apply Forall_app in Hoky. destruct Hoky as (Hoky & _).
    pose proof (prepared_app _ _ HP1) as HPy.
    destruct (IH p1 y hk1 mk1 g1 oy) as (Ky & HKy & Hgy); auto.
    { rewrite Ep, app_length in Hlen. cbn [length] in Hlen. lia. }
    { exact (no_long_gap_after_app _ _ Hgap1). }
    pose proof (after_received _ (pr_honest _ _ _ _ _ _ HPy) Hrec1) as Hfy.
    destruct (after_kept p2 (p1 ++ [y]) oy o1 Ky Hok1 HP1 Hry Hr1 Hfy HKy) as (_ & K2 & HK2 & Hle2).
    assert (Hf1 : after_fired (blocks_after h0 p)) by (rewrite E1; now apply after_fired_app).
    specialize (Hcur (proj2 (proj2 (proj2 Hinv)) Hf1)). assert (K2 = K) by congruence. subst K2. lia. }
  destruct (R1 ltac:(lia)) as (_ & K' & HK' & Eg). exists K'. split; [exact HK'|]. rewrite Eg. lia.
Qed.

Theorem after_key p x hk mk g o : Forall op_ok (h0 ++ p ++ [x]) -> in_subframe_order (p ++ [x]) -> prepared pk t root h0 o0 (p ++ [x]) ->
  no_long_gap_after t h0 o0 (p ++ [x]) -> completes (h0 ++ p) x hk mk g -> kroot_received_after t h0 (p ++ [x]) ->
  run new (h0 ++ p ++ [x]) = Ok o ->
  exists key, current_key (o_keys o) = Some key /\ k_gst key = g /\
    k_chain key = tr_chain t /\ key_bytes key = tr_key t (time_of g).
Proof.
  intros Hok Hord HP Hgap Hc Hrec Hr.
  destruct (after_follows _ p x hk mk g o (Nat.lt_succ_diag_r _) Hok HP Hgap Hc Hrec Hr) as (K & HK & Hge).
  pose proof (after_received _ (pr_honest _ _ _ _ _ _ HP) Hrec) as Hf.
  destruct (after_inv _ Hok HP o Hr) as ((_ & _ & Hgood & Hfo) & _).
  destruct (Hfo Hf) as (K1 & c & HK1 & Hci & _). assert (K1 = K) by congruence. subst K1.
  destruct (Hgood K (current_key_in _ _ HK) Hci) as ((HKok & Hch & m & Hm & Hmt & Hmb) & _ & Hhigh).
  assert (Hg' : g = subframe_of (op_gst x)).
  { destruct Hc as (data & s & gk & -> & _ & Hx). unfold expected_subframe in Hx.
    destruct (_ && _); [|discriminate]. cbn [w_gst op_gst] in *. congruence. }
  assert (Hxok : op_ok x).
  { rewrite Forall_forall in Hok. apply Hok. apply in_or_app. right. apply in_or_app. right. now left. }
  assert (Hgok : gst_ok g) by (rewrite Hg'; apply subframe_of_ok; now apply op_gst_ok).
  assert (Hle : time_of (k_gst K) <= time_of g).
  { destruct Hhigh as [(K0 & (O1 & O2) & L0)|(y & Hy & L0)].
    - destruct (pr_keys _ _ _ _ _ _ HP K0 O1 O2) as (_ & Hall). specialize (Hall x ltac:(apply in_or_app; right; now left)). rewrite <- Hg' in Hall. lia.
    - eapply Z.le_trans; [exact L0|]. rewrite Hg'. apply in_app_or in Hy. destruct Hy as [Hy|[<-|[]]]; [|lia].
      apply (proj2 (in_subframe_order_app _ _ Hord)); [exact Hy|now left]. }
  exists K. split; [exact HK|]. assert (Eg : k_gst K = g) by (apply time_of_inj; [apply HKok|exact Hgok|lia]).
  split; [exact Eg|]. split; [exact Hch|]. now rewrite Hmb, Eg.
Qed.

End Crypto.

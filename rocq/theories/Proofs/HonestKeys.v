(** The keys of a receiver of an honest transmission. *)
From Coq Require Import ZArith List Bool Lia ZifyBool ZifyNat.
From Verif Require Import Model.Prelude Model.Params Model.Gst Model.Svn Model.Bitfields
  Model.Maclt Model.Tesla Model.Merkle Model.Subframe Model.Dsm Model.MackStore Model.Nav Model.Osnma
  Spec.TimeSpec Spec.CollectSpec Spec.StoreSpec Spec.NavSpec Spec.TeslaSpec Spec.KrootSpec
  Spec.MerkleSpec Spec.MacltSpec Spec.KeySpec Spec.SystemSpec Spec.StoredSpec Spec.CompleteSpec Spec.PanicSpec
  Spec.HonestSpec
  Proofs.Base Proofs.Ring Proofs.Rows Proofs.GstProofs Proofs.LayoutProofs Proofs.SubframeProofs Proofs.DsmProofs
  Proofs.MackProofs Proofs.NavProofs Proofs.EntryProofs Proofs.NavInv Proofs.TeslaProofs
  Proofs.KrootProofs Proofs.MackValidProofs Proofs.MerkleProofs Proofs.TagProofs Proofs.NavHistory
  Proofs.SystemProofs Proofs.GetterProofs Proofs.KeyStoreProofs Proofs.StepProofs Proofs.AlertProofs Proofs.AuthProofs
  Proofs.PanicProofs Proofs.TotalProofs.
Import ListNotations.
Open Scope Z_scope.
Ltac Zify.zify_post_hook ::= Z.div_mod_to_equations.

(** ** Blocks of the DSM-KROOT *)

Lemma skipn_plus {A} a b (l : list A) : skipn a (skipn b l) = skipn (a + b) l.
Proof.
  revert l. induction b as [|b IH]; intros l; [now rewrite Nat.add_0_r|].
  destruct l as [|x l]; [now rewrite !skipn_nil|]. rewrite Nat.add_succ_r. cbn [skipn]. apply IH.
Qed.

Section Blocks.
Variables (id : Z) (d : list Z) (n : nat).
Hypothesis Hid : 0 <= id < 12.
Hypothesis Hn : blocks_needed id (nth 0 d 0) = Some n.
Hypothesis Hlen : length d = (13 * n)%nat.

Definition kroot_block (b : block) : Prop :=
  exists i, (13 * (i + 1) <= length d)%nat /\ b_header b = 16 * id + Z.of_nat i /\
    b_data b = firstn 13 (skipn (13 * i) d).

Lemma needed_bounds : (7 <= n <= 14)%nat.
Proof.
  unfold blocks_needed, is_pkr in Hn. destruct (12 <=? id) eqn:E; [lia|].
  destruct ((1 <=? nth 0 d 0 / 16) && (nth 0 d 0 / 16 <=? 8)) eqn:E2; [|discriminate]. injection Hn as <-. lia.
Qed.

Lemma kroot_block_num b : kroot_block b -> b_dsm b = id /\
  exists i, (i < n)%nat /\ b_num b = Z.of_nat i /\ b_data b = firstn 13 (skipn (13 * i) d).
Proof.
  intros (i & H1 & H2 & H3). pose proof needed_bounds. unfold b_dsm, b_num. rewrite H2. split; [lia|].
  exists i. split; [lia|]. split; [lia|exact H3].
Qed.

Lemma first_block_byte : nth 0 (firstn 13 (skipn (13 * 0) d)) 0 = nth 0 d 0.
Proof. rewrite Nat.mul_0_r, skipn_O. destruct d; reflexivity. Qed.

Variable honest_block : block -> Prop.
Hypothesis honest_same : forall b, honest_block b -> b_dsm b = id -> kroot_block b.

(** What the blocks give. *)
Lemma blocks_from_kroot l : Forall kroot_block l -> forall m k data, blocks_from m k l = Some data -> (k + m <= n)%nat ->
  data = firstn (13 * m) (skipn (13 * k) d).
Proof.
  intros Hl. induction m as [|m IH]; intros k data H Hk; cbn [blocks_from] in H.
  - injection H as <-. now rewrite Nat.mul_0_r, firstn_O.
  - destruct (first_copy k l) as [b|] eqn:Eb; [|discriminate].
    destruct (blocks_from m (S k) l) as [r|] eqn:Er; [|discriminate]. assert (Edata : data = b_data b ++ r) by congruence. subst data. clear H.
    unfold first_copy in Eb. apply find_some in Eb. destruct Eb as (Hin & Enum).
    rewrite Forall_forall in Hl. destruct (kroot_block_num b (Hl b Hin)) as (_ & i & Hi & Ei & Ed).
    assert (i = k) by lia. subst i. rewrite Ed, (IH (S k) r Er) by lia.
    replace (13 * S m)%nat with (13 + 13 * m)%nat by lia.
    replace (13 * S k)%nat with (13 + 13 * k)%nat by lia.
    rewrite <- (firstn_skipn 13 (firstn (13 + 13 * m) (skipn (13 * k) d))).
    rewrite firstn_firstn, Nat.min_l by lia. f_equal.
    rewrite skipn_firstn_comm. replace (13 + 13 * m - 13)%nat with (13 * m)%nat by lia. f_equal.
    symmetry. apply skipn_plus.
Qed.

Lemma expected_kroot bl b data pkr id' : Forall honest_block bl -> honest_block b -> b_dsm b = id ->
  expected_dsm bl b = Some (id', pkr, data) -> data = d.
Proof.
  intros Hbl Hb0 Hd H. pose proof (honest_same b Hb0 Hd) as Hb. unfold expected_dsm in H.
  destruct (complete_dsm (b_dsm b) (dsm_run_for (dsm_run bl) b)); [discriminate|].
  destruct (complete_dsm (b_dsm b) (dsm_run_for (dsm_run bl) b ++ [b])) as [dt|] eqn:E2; [|discriminate].
  assert (Edt : dt = data) by congruence. clear H. subst dt.
  destruct (kroot_block_num b Hb) as (_ & i & Hi & Ei & Ed). rewrite Hd in E2.
  assert (Hrun : Forall kroot_block (dsm_run_for (dsm_run bl) b ++ [b])).
  { apply Forall_app. split; [|repeat constructor; exact Hb]. apply Forall_forall. intros x Hx.
    apply dsm_run_for_in in Hx. destruct Hx as (Hx & Hxd). rewrite Forall_forall in Hbl. apply honest_same; [apply Hbl; exact Hx|congruence]. }
  unfold complete_dsm in E2. destruct (first_copy 0 _) as [b0|] eqn:E0; [|discriminate].
  unfold first_copy in E0. apply find_some in E0. destruct E0 as (Hin & Enum). pose proof Hrun as Hrun'. rewrite Forall_forall in Hrun'.
  destruct (kroot_block_num b0 (Hrun' b0 Hin)) as (_ & i0 & Hi0 & Ei0 & Ed0). assert (i0 = 0%nat) by lia. subst i0.
  rewrite Ed0, first_block_byte, Hn in E2.
  pose proof (blocks_from_kroot _ Hrun n 0 data E2 ltac:(lia)) as ->. rewrite Nat.mul_0_r, skipn_O, <- Hlen. apply firstn_all.
Qed.

(** The receiver is ready for the DSM-KROOT after these blocks. *)
Variable ready : list block -> Prop.
Hypothesis ready_app : forall bl q, ready bl -> ready (bl ++ q).
Hypothesis ready_back : forall bl b, b_dsm b = id -> ready (bl ++ [b]) -> ready bl.

(** The DSM-KROOT has been given to the receiver when it was ready. *)
Definition fired (bl : list block) : Prop :=
  exists b1 b b2 data, bl = b1 ++ b :: b2 /\ ready b1 /\ expected_dsm b1 b = Some (id, false, data).

Lemma fired_app bl q : fired bl -> fired (bl ++ q).
Proof. intros (b1 & b & b2 & data & -> & H). exists b1, b, (b2 ++ q), data. split; [now rewrite <- app_assoc|exact H]. Qed.

Lemma fired_snoc bl b : fired (bl ++ [b]) -> fired bl \/ ready bl /\ exists data, expected_dsm bl b = Some (id, false, data).
Proof.
  intros (b1 & c & b2 & data & E & R & H). destruct b2 as [|y b2] using rev_ind.
  - apply app_inj_tail in E. destruct E as (-> & ->). right. eauto.
  - left. rewrite app_comm_cons, app_assoc in E. apply app_inj_tail in E. destruct E as (-> & _). exists b1, c, b2, data. auto.
Qed.

Lemma complete_fired bl : forall data, complete_dsm id (dsm_run bl) = Some data ->
  (forall b, In b (dsm_run bl) -> b_dsm b = id) -> ready bl -> fired bl.
Proof.
  induction bl as [|b bl IH] using rev_ind; intros data H Hall R; [discriminate H|].
  rewrite dsm_run_snoc in H, Hall. assert (Hb : b_dsm b = id) by (apply Hall; apply in_or_app; right; now left).
  apply (ready_back _ _ Hb) in R.
  destruct (complete_dsm id (dsm_run_for (dsm_run bl) b)) as [dt|] eqn:E.
  - apply fired_app. unfold dsm_run_for in E. destruct (dsm_run bl) as [|r run] eqn:Er; [discriminate E|].
    destruct (b_dsm r =? b_dsm b) eqn:Eb; [|discriminate E].
    apply (IH dt E); [|exact R]. intros x Hx. apply Hall. apply in_or_app. left. unfold dsm_run_for. rewrite Eb. exact Hx.
  - exists bl, b, [], data. split; [reflexivity|]. split; [exact R|]. unfold expected_dsm. rewrite Hb, E, H. unfold is_pkr. do 2 f_equal. f_equal. lia.
Qed.

Lemma received_fired bl b1 b2 b3 : Forall honest_block bl -> bl = b1 ++ b2 ++ b3 -> ready b1 -> (forall b, In b b2 -> b_dsm b = id) ->
  (forall i, (13 * i < length d)%nat -> exists b, In b b2 /\ b_num b = Z.of_nat i) -> fired bl.
Proof.
  intros Hbl -> R Hid2 Hall. pose proof needed_bounds as Hnb. rewrite app_assoc. apply fired_app.
  rewrite app_assoc in Hbl. apply Forall_app in Hbl. destruct Hbl as (Hbl & _).
  destruct b2 as [|b b2 _] using rev_ind; [destruct (Hall 0%nat ltac:(lia)) as (b & [] & _)|].
  assert (Eb : b_dsm b = id) by (apply Hid2; apply in_or_app; right; now left).
  assert (Erun : dsm_run (b1 ++ b2 ++ [b]) = (dsm_run_for (dsm_run b1) b ++ b2) ++ [b]).
  { rewrite app_assoc, dsm_run_snoc, dsm_run_for_extend; [reflexivity|].
    intros x Hx. rewrite Eb. apply Hid2. apply in_or_app. now left. }
  assert (Hdsm : forall x, In x ((dsm_run_for (dsm_run b1) b ++ b2) ++ [b]) -> In x (b1 ++ b2 ++ [b]) /\ b_dsm x = id).
  { intros x Hx. apply in_app_or in Hx. destruct Hx as [Hx|[<-|[]]].
    2: { split; [|exact Eb]. apply in_or_app. right. apply in_or_app. right. now left. }
    apply in_app_or in Hx. destruct Hx as [Hx|Hx].
    - apply dsm_run_for_in in Hx. split; [apply in_or_app; left; apply Hx|]. rewrite <- Eb. apply Hx.
    - split; [apply in_or_app; right; apply in_or_app; now left|]. apply Hid2. apply in_or_app. now left. }
  assert (Hk : Forall kroot_block ((dsm_run_for (dsm_run b1) b ++ b2) ++ [b])).
  { apply Forall_forall. intros x Hx. rewrite Forall_forall in Hbl. destruct (Hdsm x Hx) as (D1 & D2).
    apply honest_same; [apply Hbl; exact D1|exact D2]. }
  assert (Hc : exists data, complete_dsm id (dsm_run (b1 ++ b2 ++ [b])) = Some data).
  { apply complete_dsm_iff. rewrite Erun.
    assert (Hhas : forall i, (i < n)%nat -> exists x, In x ((dsm_run_for (dsm_run b1) b ++ b2) ++ [b]) /\ b_num x = Z.of_nat i).
    { intros i Hi. destruct (Hall i ltac:(lia)) as (x & Hx & Ex). exists x. split; [|exact Ex].
      rewrite <- app_assoc. apply in_or_app. now right. }
    destruct (first_copy 0 ((dsm_run_for (dsm_run b1) b ++ b2) ++ [b])) as [b0|] eqn:E0.
    - exists b0, n. split; [reflexivity|]. split; [|exact Hhas].
      unfold first_copy in E0. apply find_some in E0. destruct E0 as (Hin & Enum). rewrite Forall_forall in Hk.
      destruct (kroot_block_num b0 (Hk b0 Hin)) as (_ & i0 & Hi0 & Ei0 & Ed0). assert (i0 = 0%nat) by lia. subst i0.
      rewrite Ed0, first_block_byte. exact Hn.
    - exfalso. destruct (Hhas 0%nat ltac:(lia)) as (x & Hx & Ex). unfold first_copy in E0.
      pose proof (find_none _ _ E0 x Hx) as Hf. cbn beta in Hf. lia. }
  destruct Hc as (data & Hc). apply (complete_fired _ data Hc); [|now apply ready_app].
  intros x Hx. rewrite Erun in Hx. apply (Hdsm x Hx).
Qed.

End Blocks.

(** A block of one of the DSM-KROOTs, or of a DSM-PKR. *)
Definition honest_block (ms : list kroot_message) (b : block) : Prop :=
  12 <= b_dsm b \/ exists m, In m ms /\ kroot_block (km_id m) (km_data m) b.

Lemma nodup_same ms m m' : NoDup (map km_id ms) -> In m ms -> In m' ms -> km_id m = km_id m' -> m = m'.
Proof.
  induction ms as [|a ms IH]; intros Hn Hm Hm' E; [contradiction|]. cbn [map] in Hn. apply NoDup_cons_iff in Hn. destruct Hn as (Ha & Hn).
  destruct Hm as [->|Hm], Hm' as [->|Hm']; [reflexivity| | |now apply IH].
  - elim Ha. rewrite E. now apply in_map.
  - elim Ha. rewrite <- E. now apply in_map.
Qed.

(** ** A nominal header does nothing else *)

Lemma status_not_dont_use hd : is_byte hd -> header_status hd = 1 \/ header_status hd = 2 ->
  nma_status hd = NmaTest \/ nma_status hd = NmaOperational.
Proof.
  intros Hb Hs. destruct (header_fields hd Hb) as (H1 & _). destruct (nma_status hd); cbn [status_code] in H1; auto; lia.
Qed.

Section Crypto.
Context {C : crypto} {B : build} {S : storage}.
Hypothesis HC : crypto_ok C.
Hypothesis HS : storage_ok S.

Lemma nominal_header o hd pkid : is_byte hd -> header_status hd = 1 \/ header_status hd = 2 -> header_cpks hd <> cpks_alert ->
  process_nma_header o hd pkid = o.
Proof.
  intros Hb Hs Ha. unfold process_nma_header. pose proof (header_alert hd Hb) as Hal.
  destruct (status_not_dont_use hd Hb Hs) as [-> | ->]; destruct (nma_cpks hd); try reflexivity; elim Ha; now apply Hal.
Qed.

(** ** The keys of the transmission *)

Variables (pk : public_key) (t : transmission).
Hypothesis Ht : transmission_ok pk t.

(** A key of the chain. *)
Definition chain_key (K : tkey) : Prop :=
  key_ok K /\ k_chain K = tr_chain t /\
  exists n, (n <= tr_length t)%nat /\ time_of (k_gst K) = tr_start t + 30 * Z.of_nat n /\
    key_bytes K = tr_key t (time_of (k_gst K)).

Lemma message_ok m : In m (tr_kroots t) -> kroot_message_ok pk t m.
Proof. exact (proj2 (to_kroots _ _ Ht) m). Qed.

Lemma same_message m m' : In m (tr_kroots t) -> In m' (tr_kroots t) -> km_id m = km_id m' -> m = m'.
Proof. exact (nodup_same _ m m' (proj1 (to_kroots _ _ Ht))). Qed.

Lemma honest_same m b : In m (tr_kroots t) -> honest_block (tr_kroots t) b -> b_dsm b = km_id m -> kroot_block (km_id m) (km_data m) b.
Proof.
  intros Hm [H|(m' & Hm' & H)] E; [pose proof (km_id_ok _ _ _ (message_ok m Hm)); lia|].
  destruct (km_blocks_ok _ _ _ (message_ok m' Hm')) as (n & Hn & Hl).
  destruct (kroot_block_num _ _ n (km_id_ok _ _ _ (message_ok m' Hm')) Hn Hl b H) as (Hb & _).
  now rewrite <- (same_message m' m Hm' Hm ltac:(congruence)).
Qed.

Lemma kroot_key_root m : In m (tr_kroots t) -> exists f, kroot_layout (km_data m) f /\ kf_pkid f = pk_id pk /\
  kroot_verified (km_header m) f (pk_key pk) /\ kroot_key f (km_root m) /\ gst_ok (k_gst (km_root m)) /\
  (overflow_checks = true -> 30 <= 604800 * kf_wn f + 3600 * kf_towh f) /\ key_ok (km_root m).
Proof.
  intros Hm. destruct (message_ok m Hm) as [(Hb & _) _ (Hd & f & L & P & V & HK & W & G) _ _].
  pose proof (to_support _ _ Ht) as Hsup.
  assert (Hw : 0 <= kf_towh f /\ kf_wn f < 4096).
  { pose proof (kl_width _ _ L) as Hw. unfold kroot_params in Hw.
    repeat (apply Forall_cons_iff in Hw; destruct Hw as (?Hw & Hw)). unfold in_width in *. cbn [fst snd] in *. lia. }
  assert (Hov : overflow_checks = true -> 30 <= 604800 * kf_wn f + 3600 * kf_towh f) by lia.
  exists f. split; [exact L|]. split; [exact P|]. split; [exact V|]. split; [exact HK|]. split; [exact G|]. split; [exact Hov|].
  assert (H521 : forall k521, pk_key pk = VkP521 k521 -> feature_p521 = true).
  { intros k E. unfold key_supported in Hsup. now rewrite E in Hsup. }
  destruct (key_from_dsm_kroot_sound HC _ _ _ _ Hb Hd
      (key_from_dsm_kroot_complete HC _ _ _ _ _ Hb Hd L V HK G Hov H521)) as (f' & _ & _ & _ & Hok). exact Hok.
Qed.

Lemma root_chain_key m : In m (tr_kroots t) -> chain_key (km_root m).
Proof.
  intros Hm. destruct (kroot_key_root m Hm) as (f & _ & _ & _ & _ & _ & _ & Hok). split; [exact Hok|].
  exact (km_root_ok _ _ _ (message_ok m Hm)).
Qed.

Lemma tr_tkey_bytes g n : (1 <= n <= tr_length t)%nat -> time_of g = tr_start t + 30 * Z.of_nat n ->
  key_bytes (tr_tkey t g) = tr_key t (time_of g) /\ Forall is_byte (tr_key t (time_of g)).
Proof.
  intros Hn Hg. destruct (to_keys _ _ Ht n Hn) as (Hl & Hb & _). rewrite <- Hg in Hl, Hb.
  split; [|exact Hb]. unfold key_bytes, tr_tkey. cbn [k_chain k_data]. rewrite <- Hl.
  rewrite firstn_app, Nat.sub_diag, firstn_O, app_nil_r. apply firstn_all.
Qed.

Lemma keys_lead_back m n : (m + n <= tr_length t)%nat ->
  key_before (tr_chain t) n (tr_key t (tr_start t + 30 * Z.of_nat (m + n))) (tr_start t + 30 * Z.of_nat (m + n))
    (tr_key t (tr_start t + 30 * Z.of_nat m)).
Proof.
  pose proof (to_keys _ _ Ht) as Hk. revert m. induction n as [|n IH]; intros m Hmn; cbn [key_before].
  - now rewrite Nat.add_0_r.
  - destruct (Hk (m + Datatypes.S n)%nat ltac:(lia)) as (_ & _ & Hp). eexists. split; [exact Hp|].
    replace (tr_start t + 30 * (Z.of_nat (m + Datatypes.S n) - 1)) with (tr_start t + 30 * Z.of_nat (m + n)) by lia.
    replace (tr_start t + 30 * Z.of_nat (m + Datatypes.S n) - 30) with (tr_start t + 30 * Z.of_nat (m + n)) by lia.
    apply IH. lia.
Qed.

(** The MACK message of a later subframe discloses a key that leads to [K]. *)
Lemma transmits_discloses K hk mk g : chain_key K -> transmits t hk mk g ->
  time_of (k_gst K) < time_of g <= time_of (k_gst K) + 90000 -> discloses K mk g (tr_tkey t g).
Proof.
  intros (Hok & Hch & m & Hm & Hmt & Hmb) (_ & (n & Hn & Hnt) & Hin) Hlt.
  destruct (tr_tkey_bytes g n Hn Hnt) as (Eb & Hby). split; [now rewrite Eb|]. split; [exact Hin|].
  split; [now rewrite Hch|]. split; [reflexivity|]. exists (n - m)%nat. split; [lia|]. split; [lia|].
  rewrite Eb, Hmb, Hch, Hnt, Hmt. pose proof (keys_lead_back m (n - m) ltac:(lia)) as Hb. replace (m + (n - m))%nat with n in Hb by lia. exact Hb.
Qed.

(** ** The receiver *)

Definition with_key (K : tkey) : key_store := mkKeys (Some K) None (Some (mkCif (ch_id (tr_chain t)) None)).

Lemma with_key_current K : k_chain K = tr_chain t -> current_key (with_key K) = Some K.
Proof.
  intros H. unfold current_key, with_key, find_key. cbn [ks_cif ks_k0 cif_cid].
  rewrite H. now rewrite Z.eqb_refl.
Qed.

Lemma with_key_held K q : held (with_key K) q -> q = K.
Proof. intros [H|H]; cbn [with_key ks_k0 ks_k1] in H; congruence. Qed.

Definition received_blocks (h : list op) : list block := blocks_received (osnma_words h).

Variables (root : option (list Z)) (user : option public_key) (slow : bool).
Notation new := (osnma_new root user slow).
Notation known := (key_known root user pk).

Lemma known_app bl q : known bl -> known (bl ++ q).
Proof.
  intros [H|(r & b1 & b & b2 & id & d & f & Hr & -> & H)]; [now left|]. right.
  exists r, b1, b, (b2 ++ q), id, d, f. split; [exact Hr|]. split; [now rewrite <- app_assoc|exact H].
Qed.

Lemma known_snoc bl b : known (bl ++ [b]) -> known bl \/ exists r id d f, root = Some r /\
  expected_dsm bl b = Some (id, true, d) /\ pkr_layout d f /\ sha256 (path_input f 4) = r /\ pkr_key f pk.
Proof.
  intros [H|(r & b1 & c & b2 & id & d & f & Hr & E & H)]; [left; now left|].
  destruct b2 as [|y b2] using rev_ind.
  - apply app_inj_tail in E. destruct E as (-> & ->). right. exists r, id, d, f. auto.
  - left. rewrite app_comm_cons, app_assoc in E. apply app_inj_tail in E. destruct E as (-> & _). right.
    exists r, b1, c, b2, id, d, f. auto.
Qed.

Lemma known_back m bl b : In m (tr_kroots t) -> b_dsm b = km_id m -> known (bl ++ [b]) -> known bl.
Proof.
  intros Hm Hb H. apply known_snoc in H. destruct H as [H|(r & id & d & f & _ & Hx & _)]; [exact H|].
  unfold expected_dsm in Hx. destruct (complete_dsm _ _); [discriminate|]. destruct (complete_dsm _ _); [|discriminate].
  assert (Hp : is_pkr (b_dsm b) = true) by congruence. pose proof (km_id_ok _ _ _ (message_ok m Hm)). unfold is_pkr in Hp. lia.
Qed.

(** One of the DSM-KROOTs has been given to the receiver when it had the public key. *)
Definition fired_one (bl : list block) : Prop :=
  exists m, In m (tr_kroots t) /\ fired (km_id m) known bl.

(** The public keys of the receiver. *)
Definition pub_state (bl : list block) (ps : pubkey_store) : Prop :=
  known bl /\ ps_current ps = Some pk \/ ~ known bl /\ ps = pubs_empty.

(** The key [K] is not before the root key of a DSM-KROOT of which a block has been received. *)
Definition rooted (K : tkey) (h : list op) : Prop :=
  exists m b, In m (tr_kroots t) /\ In b (received_blocks h) /\ b_dsm b = km_id m /\ time_of (k_gst (km_root m)) <= time_of (k_gst K).

Definition key_state (h : list op) (o : osnma) : Prop :=
  o_merkle o = root /\ pub_state (received_blocks h) (o_pub o) /\
  (o_keys o = keys_empty /\ ~ fired_one (received_blocks h) \/
   exists K, o_keys o = with_key K /\ chain_key K /\
     rooted K h /\ exists y, In y h /\ time_of (k_gst K) <= time_of (subframe_of (op_gst y))).

Lemma rooted_more K h h' bl : rooted K h -> received_blocks h' = received_blocks h ++ bl -> rooted K h'.
Proof. intros (m & b & Hm & Hb & H) E. exists m, b. split; [exact Hm|]. split; [rewrite E; apply in_or_app; now left|exact H]. Qed.

Lemma honest_app h q : honest t (h ++ q) -> honest t h.
Proof.
  intros H h1 x h2 hk mk g -> Hc. apply (H h1 x (h2 ++ q) hk mk g); [now rewrite <- app_assoc|exact Hc].
Qed.

Lemma honest_last h x hk mk g : honest t (h ++ [x]) -> completes h x hk mk g -> transmits t hk mk g.
Proof. intros H Hc. exact (H h x [] hk mk g eq_refl Hc). Qed.

Lemma received_blocks_snoc h x :
  received_blocks (h ++ [x]) = received_blocks h /\ (forall hk mk g, ~ completes h x hk mk g) \/
  exists hk mk g, completes h x hk mk g /\ received_blocks (h ++ [x]) = received_blocks h ++ [block_of hk].
Proof.
  unfold received_blocks. rewrite osnma_words_app. destruct x as [w svn g b|data svn g].
  - left. cbn [osnma_words flat_map]. rewrite !app_nil_r. split; [reflexivity|].
    intros hk mk g' (d & s & gk & E & _). discriminate E.
  - cbn [osnma_words flat_map]. destruct (forallb (Z.eqb 0) data) eqn:Ez; cbn [app]; rewrite ?app_nil_r.
    + left. split; [reflexivity|]. intros hk mk g' (d & s & gk & E & Hz & _). assert (d = data) by congruence. subst d. congruence.
    + rewrite blocks_received_snoc. destruct (expected_subframe (osnma_words h) (mkWord data svn g)) as [((hk & mk) & g')|] eqn:Ex.
      * right. exists hk, mk, g'. split; [|reflexivity]. exists data, svn, g. auto.
      * left. split; [now rewrite app_nil_r|]. intros hk mk g' (d & s & gk & E & Hz & Hx).
        assert (d = data /\ s = svn /\ gk = g) as (-> & -> & ->) by (repeat split; congruence). congruence.
Qed.

Lemma completes_unique h x hk mk g hk' mk' g' : completes h x hk mk g -> completes h x hk' mk' g' ->
  hk' = hk /\ mk' = mk /\ g' = g.
Proof.
  intros (d & s & gk & -> & _ & H) (d' & s' & gk' & E & _ & H').
  assert (d' = d /\ s' = s /\ gk' = gk) as (-> & -> & ->) by (repeat split; congruence). rewrite H in H'.
  repeat split; congruence.
Qed.

Lemma transmits_block hk mk g : transmits t hk mk g -> honest_block (tr_kroots t) (block_of hk).
Proof.
  intros ([H|(m & Hm & (_ & H) & _)] & _).
  - left. exact H.
  - right. exists m. split; [exact Hm|exact H].
Qed.

Lemma honest_blocks h : honest t h -> Forall (honest_block (tr_kroots t)) (received_blocks h).
Proof.
  induction h as [|x h IH] using rev_ind; intros Hh; [constructor|].
  pose proof (IH (honest_app _ _ Hh)) as Hb.
  destruct (received_blocks_snoc h x) as [(-> & _)|(hk & mk & g & Hc & ->)]; [exact Hb|].
  apply Forall_app. split; [exact Hb|]. constructor; [|constructor]. exact (transmits_block _ _ _ (honest_last _ _ _ _ _ Hh Hc)).
Qed.

(** ** The receiver of the transmission *)

Lemma received_blocks_app h q : exists bl, received_blocks (h ++ q) = received_blocks h ++ bl.
Proof.
  induction q as [|x q IH] using rev_ind; [exists []; now rewrite !app_nil_r|]. destruct IH as (bl & E).
  rewrite app_assoc. destruct (received_blocks_snoc (h ++ q) x) as [(-> & _)|(hk & mk & g & _ & ->)].
  - exists bl. exact E.
  - exists (bl ++ [block_of hk]). now rewrite E, <- app_assoc.
Qed.

Lemma hears_app h q : hears root user pk t (h ++ q) -> hears root user pk t h.
Proof.
  intros (H1 & H2 & H3). split; [exact (honest_app _ _ H1)|]. split; [exact H2|].
  destruct (received_blocks_app h q) as (bl & E). intros r b1 b b2 id d Hr Eb. fold (received_blocks h) in Eb.
  apply (H3 r b1 b (b2 ++ bl) id d Hr). fold (received_blocks (h ++ q)). now rewrite E, Eb, <- app_assoc.
Qed.

Lemma hears_last h x hk mk g : hears root user pk t (h ++ [x]) -> completes h x hk mk g -> transmits t hk mk g.
Proof. intros (H & _). exact (honest_last h x hk mk g H). Qed.

Lemma received_is_fired h : hears root user pk t h -> kroot_received_then root user pk t h -> fired_one (received_blocks h).
Proof.
  intros Hh (m & b1 & b2 & b3 & Hm & E & R & H1 & H2). destruct (km_blocks_ok _ _ _ (message_ok m Hm)) as (n & Hn & Hl).
  exists m. split; [exact Hm|].
  exact (received_fired _ _ n (km_id_ok _ _ _ (message_ok m Hm)) Hn Hl _ (fun b => honest_same m b Hm) known known_app
           (fun bl b => known_back m bl b Hm) _ b1 b2 b3 (honest_blocks h (proj1 Hh)) E R H1 H2).
Qed.

Lemma fired_one_snoc bl b : fired_one (bl ++ [b]) -> fired_one bl \/ known bl /\ exists id data, expected_dsm bl b = Some (id, false, data).
Proof.
  intros (m & Hm & H). apply fired_snoc in H. destruct H as [H|(R & data & H)]; [left; exists m; auto|right; eauto].
Qed.

(** The DSM-PKR messages. *)
Lemma pkr_key_model f pk' : pkr_key f pk' -> key_supported (pk_key pk') -> pk_id pk' = pf_npkid f /\
  match pk_key pk' with
  | VkP256 k => pf_npkt f = 1 /\ p256_from_sec1 (pf_key f) = Some k
  | VkP521 k => pf_npkt f = 3 /\ p521_from_sec1 (pf_key f) = Some k /\ feature_p521 = true
  end.
Proof. intros (E & H) Hs. split; [now symmetry|]. unfold key_supported in Hs. destruct (pk_key pk'); intuition. Qed.

Lemma honest_pkr bl b o1 m hd g : dm_type m = DsmPkr -> Forall is_byte (dm_data m) -> pkr_size_ok (dm_data m) ->
  nominal_pkrs root user pk (bl ++ [b]) -> (user = None \/ user = Some pk) ->
  (exists id, expected_dsm bl b = Some (id, true, dm_data m)) -> is_byte hd -> stores_ok o1 ->
  o_merkle o1 = root -> pub_state bl (o_pub o1) ->
  exists o2, process_dsm o1 m hd g = Ok o2 /\ o_merkle o2 = root /\ pub_state (bl ++ [b]) (o_pub o2) /\ o_keys o2 = o_keys o1.
Proof.
  intros Ety Hby Hsz Hnom Huser (id & Hx) Hhb Hst Hm Hps.
  assert (Hlay : forall r, root = Some r -> exists f, pkr_layout (dm_data m) f /\
    (sha256 (path_input f 4) = r -> exists pk', pkr_key f pk' /\ (pk' = pk \/ known bl))).
  { intros r Hr. exact (Hnom r bl b [] id (dm_data m) Hr eq_refl Hx). }
  assert (Hno : process_dsm o1 m hd g <> Panic).
  { intros Hpan. apply (process_dsm_panic HC o1 m hd g Hst Hhb Hby) in Hpan; [|rewrite Ety; exact Hsz].
    rewrite Ety in Hpan. cbn [dsm_type_eqb dsm_panics] in Hpan. destruct Hpan as (r & Hr & Hpan). rewrite Hm in Hr.
    destruct (Hlay r Hr) as (f & HL & Hf). destruct Hpan as [(H3 & Hlt)|(f' & HL' & Hp & Hbad)].
    - rewrite (pkr_layout_type _ _ HL) in H3. pose proof (f_equal (@length Z) (pl_bytes _ _ HL)) as Hlen.
      destruct (pl_key _ _ HL) as [(Hn & _)|[(_ & Hk)|(Hn & _)]]; [lia| |lia].
      cbn [length] in Hlen. rewrite !app_length in Hlen. unfold pkr_leaf in Hlen. cbn [length] in Hlen.
      rewrite (pkr_nodes_length _ _ HL) in Hlen. lia.
    - assert (f' = f) by (eapply pkr_layout_fun; eauto). subst f'. destruct (Hf Hp) as (pk' & (_ & Hk) & _).
      destruct (pk_key pk'); destruct Hk as (Hn & Hk); destruct Hbad as [(B1 & B2)|(B1 & _ & B2)]; congruence || lia. }
  destruct (process_dsm o1 m hd g) as [o2|] eqn:E; [|congruence]. clear Hno. exists o2. split; [reflexivity|].
  assert (Hval : ~ known bl -> forall r pk', root = Some r -> validate_pkr r (dm_data m) = Ok (ROk pk') -> pk' = pk).
  { intros Hn r pk' Hr Hv. destruct (validate_pkr_sound _ _ _ Hby Hv) as (f & HL & Hp & Hid & Hk).
    destruct (Hlay r Hr) as (f' & HL' & Hf). assert (f' = f) by (eapply pkr_layout_fun; eauto). subst f'.
    destruct (Hf Hp) as (pk2 & (Hid2 & Hk2) & [->|Hkn]); [|contradiction].
    destruct pk' as [k' i'], pk as [k2 i2]. cbn [pk_id pk_key] in *. subst i2 i'.
    destruct k' as [k'|k'], k2 as [k2|k2].
    - destruct Hk as (_ & Hk), Hk2 as (_ & Hk2). rewrite Hk in Hk2. assert (k' = k2) by congruence. now subst.
    - destruct Hk, Hk2. lia.
    - destruct Hk, Hk2. lia.
    - destruct Hk as (_ & Hk & _), Hk2 as (_ & Hk2). rewrite Hk in Hk2. assert (k' = k2) by congruence. now subst. }
  assert (Hknew : ~ known bl -> known (bl ++ [b]) -> exists r, root = Some r /\ validate_pkr r (dm_data m) = Ok (ROk pk)).
  { intros Hn Hk. apply known_snoc in Hk. destruct Hk as [Hk|(r & id' & d & f & Hr & Hx' & HL & Hp & Hkey)]; [contradiction|].
    exists r. split; [exact Hr|]. assert (d = dm_data m) by congruence. subst d.
    destruct (pkr_key_model f pk Hkey (to_support _ _ Ht)). now apply (validate_pkr_complete r _ f pk HL Hp). }
  destruct (process_dsm_effect _ _ _ _ _ E) as [->|? ? ? Hty|r pk' ps _ Hr Hv Hst' ->|r _ Hr Hv ->]; [|congruence| |].
  - split; [exact Hm|]. split; [|reflexivity]. destruct Hps as [(Hk & Hc)|(Hk & Hc)].
    + left. split; [now apply known_app|exact Hc].
    + right. split; [|exact Hc]. intros Hk2. destruct (Hknew Hk Hk2) as (r & Hr & Hv). clear - Ety E Hv Hr Hm Hc Hby Hsz.
      unfold process_dsm in E. rewrite Ety in E. unfold process_dsm_pkr in E. rewrite (pkr_type_byte _ Hby) in E by (destruct Hsz; lia).
      cbn [bind] in E. pose proof Hv as Hv'. unfold validate_pkr in Hv'. rewrite (pkr_type_byte _ Hby) in Hv' by (destruct Hsz; lia).
      cbn [bind] in Hv'. destruct (npkt_of _); [|discriminate|discriminate]. unfold process_dsm_pkr_npk in E.
      rewrite Hm, Hr, Hv in E. cbn [bind] in E. unfold store_new_pubkey, check_consistency in E. rewrite Hc in E.
      cbn [pubs_empty ps_current ps_next is_none orb assert_ bind] in E.
      assert (E2 : o_pub (set_pub (mkPubs (Some pk) None) o1) = o_pub o1) by congruence. rewrite Hc in E2. discriminate E2.
  - cbn [set_pub o_merkle o_pub o_keys]. split; [exact Hm|]. split; [|reflexivity].
    unfold store_new_pubkey in Hst'. destruct (check_consistency _); [|discriminate]. cbn [bind] in Hst'.
    assert (ok_inj : forall A (a b : A), Ok a = Ok b -> a = b) by congruence. apply ok_inj in Hst'. clear ok_inj. subst ps.
    destruct Hps as [(Hk & Hc)|(Hk & Hc)].
    + left. split; [now apply known_app|]. rewrite Hc. destruct (_ <? _); [exact Hc|]. destruct (_ =? _); [exact Hc|].
      destruct (ps_next _); [destruct (_ <? _); [reflexivity|exact Hc]|reflexivity].
    + rewrite Hm in Hr. assert (pk' = pk) by now apply (Hval Hk r). subst pk'. left. rewrite Hc. split; [|reflexivity].
      destruct (validate_pkr_sound _ _ _ Hby Hv) as (f & HL & Hp & Hid & Hkey). right.
      exists r, bl, b, [], id, (dm_data m), f. split; [exact Hr|]. split; [reflexivity|]. split; [exact Hx|]. split; [exact HL|].
      split; [exact Hp|]. split; [now symmetry|]. destruct (pk_key pk); intuition.
  - exfalso. rewrite Hm in Hr. destruct (validate_alert_sound _ _ _ Hby Hv) as (f & HL & Hp & H4).
    destruct (Hlay r Hr) as (f' & HL' & Hf). assert (f' = f) by (eapply pkr_layout_fun; eauto). subst f'.
    destruct (Hf Hp) as (pk' & (_ & Hk) & _). destruct (pk_key pk'); destruct Hk; lia.
Qed.

(** [K] is the root key of a DSM-KROOT of which a block has been received with this call, in the
    subframe [g]. *)
Definition new_root (K : tkey) (h : list op) (x : op) (g : gst) : Prop :=
  time_of (k_gst K) < time_of g /\ exists m b, In m (tr_kroots t) /\ K = km_root m /\
    In b (received_blocks (h ++ [x])) /\ b_dsm b = km_id m /\
    exists hk mk, completes h x hk mk g /\ has_block m hk.

Lemma new_root_rooted K h x g : new_root K h x g -> rooted K (h ++ [x]).
Proof. intros (_ & m & b & Hm & -> & Hb & H & _). exists m, b. split; [exact Hm|]. split; [exact Hb|]. split; [exact H|lia]. Qed.

(** The DSM that is processed, if any, leaves this key store. *)
Lemma honest_dsm h o x hk mk g m : Forall op_ok (h ++ [x]) -> hears root user pk t (h ++ [x]) -> run new h = Ok o -> key_state h o ->
  completes h x hk mk g -> is_byte (nth 0 hk 0) -> forall o1, same_trust o o1 -> Forall is_byte (dm_data m) ->
  completed_dsm h hk = Some (dsm_type_eqb (dm_type m) DsmPkr, dm_data m) ->
  match dm_type m with DsmKroot => (45 <= length (dm_data m))%nat | DsmPkr => pkr_size_ok (dm_data m) end ->
  exists o2, process_dsm o1 m (nth 0 hk 0) g = Ok o2 /\ o_merkle o2 = root /\ pub_state (received_blocks (h ++ [x])) (o_pub o2) /\
    ((dm_type m = DsmPkr \/ ~ known (received_blocks h)) /\ o_keys o2 = o_keys o \/
     dm_type m = DsmKroot /\ exists K, o_keys o2 = with_key K /\ chain_key K /\
       (o_keys o = with_key K \/ o_keys o = keys_empty /\ new_root K h x g)).
Proof.
  intros Hok Hh Hr (Hm & Hp & Hk) Hc Hhb o1 (T1 & T2 & T3) Hby Hcd Hsz.
  pose proof (hears_last _ _ _ _ _ Hh Hc) as Htx.
  assert (Hst : stores_ok o1).
  { apply (same_trust_stores o); [split; [|split]; assumption|]. apply (run_stores h new); [apply new_stores|exact Hr]. }
  assert (Hstep : received_blocks (h ++ [x]) = received_blocks h ++ [block_of hk]).
  { destruct (received_blocks_snoc h x) as [(_ & Hnc)|(hk' & mk' & g' & Hc' & ->)]; [elim (Hnc _ _ _ Hc)|].
    now destruct (completes_unique _ _ _ _ _ _ _ _ Hc Hc') as (-> & _). }
  unfold completed_dsm in Hcd. fold (received_blocks h) in Hcd.
  destruct (expected_dsm _ _) as [((i & p) & dd)|] eqn:Ex; [|discriminate].
  assert (Ep : p = dsm_type_eqb (dm_type m) DsmPkr) by congruence. assert (Edd : dd = dm_data m) by congruence. subst p dd. clear Hcd.
  destruct (dm_type m) eqn:Ety; cbn [dsm_type_eqb] in Ex.
  - (* DSM-KROOT *)
    assert (Hone : exists km, In km (tr_kroots t) /\ has_block km hk /\ time_of (k_gst (km_root km)) < time_of g).
    { destruct Htx as ([Hbig|H] & _); [|exact H]. exfalso. unfold expected_dsm in Ex.
      destruct (complete_dsm _ _); [discriminate|]. destruct (complete_dsm _ _); [|discriminate].
      assert (Epk : is_pkr (b_dsm (block_of hk)) = false) by congruence. unfold is_pkr in Epk.
      change (b_dsm (block_of hk)) with (nth 1 hk 0 / 16) in Epk. lia. }
    destruct Hone as (km & Hkm & (Ehd & Hkb) & Hpast). pose proof (message_ok km Hkm) as Hmok.
    destruct (km_blocks_ok _ _ _ Hmok) as (n & Hn & Hl).
    assert (Eid : b_dsm (block_of hk) = km_id km).
    { apply (kroot_block_num _ (km_data km) n (km_id_ok _ _ _ Hmok) Hn Hl). exact Hkb. }
    pose proof (expected_kroot _ _ n (km_id_ok _ _ _ Hmok) Hn Hl _ (fun b => honest_same km b Hkm) _ _ _ _ _
                  (honest_blocks h (proj1 (hears_app _ _ Hh))) (transmits_block _ _ _ Htx) Eid Ex) as Ed.
    destruct (kroot_key_root km Hkm) as (f & L & P & V & HK & G & Hov & Hrok).
    assert (Hpub : forall ps, ps_current ps = ps_current (o_pub o) -> (ps_current ps = None -> ps = o_pub o) ->
      pub_state (received_blocks (h ++ [x])) ps).
    { intros ps E E0. rewrite Hstep. destruct Hp as [(Hkn & Hcur)|(Hkn & Hcur)].
      - left. split; [now apply known_app|congruence].
      - right. rewrite Hcur in E0, E. split; [|now apply E0]. intros Hkn2. apply Hkn. exact (known_back km _ _ Hkm Eid Hkn2). }
    destruct (km_header_ok _ _ _ Hmok) as (Hhb' & Hs & Hchn & Hal). destruct (km_root_ok _ _ _ Hmok) as (Hrch & _).
    destruct Hp as [(Hkn & Hcur)|(Hkn & Hcur)].
    + destruct (kroot_accepted HC o1 m (km_header km) g f pk (km_root km)) as (ps & Eps & Ep); auto.
      { rewrite Ed. split; [exact L|]. split; [|split; [symmetry; exact P|exact V]]. left. now rewrite T2, Hcur. }
      { intros k E. pose proof (to_support _ _ Ht) as Hsup. unfold key_supported in Hsup. now rewrite E in Hsup. }
      rewrite nominal_header in Ep by auto. rewrite Ehd. eexists. split; [exact Ep|].
      cbn [set_keys set_pub o_merkle o_pub o_keys]. split; [now rewrite T1|].
      split.
      { assert (ps = o_pub o).
        { rewrite T2 in Eps. unfold make_pkid_current in Eps. destruct (check_consistency _); [|discriminate]. cbn [bind] in Eps.
          unfold has_pkid in Eps. rewrite Hcur, Z.eqb_refl in Eps. congruence. }
        subst ps. apply Hpub; auto. }
      right. split; [reflexivity|]. rewrite T3.
      assert (Ecid : nma_chain_id (km_header km) = ch_id (tr_chain t)).
      { destruct (header_fields _ Hhb') as (_ & -> & _). exact Hchn. }
      destruct Hk as [(Hk & _)|(K & Hk & HKc & _)]; rewrite Hk.
      * exists (km_root km). split; [|split; [exact (root_chain_key km Hkm)|right; split; [reflexivity|]]].
        2: { split; [exact Hpast|]. exists km, (block_of hk). split; [exact Hkm|]. split; [reflexivity|].
             split; [rewrite Hstep; apply in_or_app; right; now left|]. split; [exact Eid|].
             exists hk, mk. split; [exact Hc|]. split; [exact Ehd|exact Hkb]. }
        unfold store_kroot. rewrite Ecid. reflexivity.
      * exists K. split; [|split; [exact HKc|left; reflexivity]].
        unfold store_kroot, with_key. rewrite Ecid. cbn [ks_k0 ks_k1 ks_cif has_chain_id cif_cid].
        destruct HKc as (_ & Hch & _). rewrite Hch, Hrch, Z.eqb_refl. reflexivity.
    + exists o1. split; [|rewrite T1, T2; split; [exact Hm|split; [apply Hpub; auto|left; auto]]].
      unfold process_dsm. rewrite Ety. unfold process_dsm_kroot. rewrite Ed, (kroot_pkid_layout _ _ L). cbn [bind].
      unfold applicable_pubkey, check_consistency. rewrite T2, Hcur. reflexivity.
  - (* DSM-PKR *)
    destruct Hh as (_ & Huser & Hnom). fold (received_blocks (h ++ [x])) in Hnom. rewrite Hstep in Hnom |- *.
    destruct (honest_pkr (received_blocks h) (block_of hk) o1 m (nth 0 hk 0) g Ety Hby Hsz Hnom Huser) as (o2 & E2 & M2 & P2 & K2); auto.
    { exists i. exact Ex. }
    { congruence. }
    { now rewrite T2. }
    exists o2. split; [exact E2|]. split; [exact M2|]. split; [exact P2|]. left. split; [now left|congruence].
Qed.

(** The key store when the MACK message is looked at. *)
Lemma honest_keys_then h o x hk mk g : Forall op_ok (h ++ [x]) -> hears root user pk t (h ++ [x]) -> run new h = Ok o -> key_state h o ->
  completes h x hk mk g ->
  exists sf svn ms cd o2,
    subframe_received (h ++ [x]) svn g hk mk /\
    rest_inv root user slow (h ++ [x]) (set_dsm cd (set_mack ms (set_sub sf o))) /\
    keys_then o hk g (o_keys o2) /\ o_merkle o2 = root /\ pub_state (received_blocks (h ++ [x])) (o_pub o2) /\
    step o x = osnma_validate_key o2 mk g /\
    (forall pkr d, completed_dsm h hk = Some (pkr, d) -> ~ dsm_panics o (nth 0 hk 0) pkr d) /\
    (o_keys o2 = keys_empty /\ o_keys o = keys_empty /\ ~ fired_one (received_blocks (h ++ [x])) \/
     exists K, o_keys o2 = with_key K /\ chain_key K /\
       (o_keys o = with_key K \/ o_keys o = keys_empty /\ new_root K h x g)).
Proof.
  intros Hok Hh Hr Hks Hc. pose proof Hks as (Hm & Hp & Hk).
  destruct (completed_as_model HC HS root user slow h o x hk mk g Hok Hr Hc)
    as (sf & svn & ms & cd & d & Hrec & Hinv & Ef & Hd & Hnone & Es).
  pose proof (hkroot_header_byte _ _ _ _ _ Hok Hrec) as Hhb.
  exists sf, svn, ms, cd. set (o1 := set_dsm cd (set_mack ms (set_sub sf o))) in *.
  assert (T : same_trust o o1) by (split; [|split]; reflexivity).
  assert (T0 : same_trust o o) by (split; [|split]; reflexivity).
  assert (Hstep : received_blocks (h ++ [x]) = received_blocks h ++ [block_of hk]).
  { destruct (received_blocks_snoc h x) as [(_ & Hn)|(hk' & mk' & g' & Hc' & ->)]; [elim (Hn _ _ _ Hc)|].
    now destruct (completes_unique _ _ _ _ _ _ _ _ Hc Hc') as (-> & _). }
  destruct d as [m|].
  - destruct (Hd m eq_refl) as (Hcm & Hby & Hsz & _). clear Hd Hnone.
    destruct (honest_dsm h o x hk mk g m Hok Hh Hr Hks Hc Hhb o1 T Hby Hcm Hsz) as (o2 & E2 & M2 & P2 & K2).
    destruct (honest_dsm h o x hk mk g m Hok Hh Hr Hks Hc Hhb o T0 Hby Hcm Hsz) as (o2' & E2' & _).
    exists o2. split; [exact Hrec|]. split; [exact Hinv|]. split.
    { exists cd, (Some m). split; [exact Ef|]. exists o2'. split; [exact E2'|].
      eapply process_dsm_keys; [|exact E2'|exact E2]. exact T. }
    split; [exact M2|]. split; [exact P2|]. split; [rewrite Es, E2; reflexivity|]. split.
    { intros pkr dd E. rewrite Hcm in E. injection E as <- <-. intros Hpan.
      assert (Hst : stores_ok o) by (apply (run_stores h new); [apply new_stores|exact Hr]).
      apply (process_dsm_panic HC o m (nth 0 hk 0) g Hst Hhb Hby Hsz) in Hpan. congruence. }
    destruct K2 as [(Ety & Ek)|(Ety & K & Ek & HK & Hor)].
    + rewrite Ek. destruct Hk as [(Hk & Hf)|(K & HkK & HKc & _)].
      * left. split; [exact Hk|]. split; [exact Hk|]. rewrite Hstep. intros Hfire. apply fired_one_snoc in Hfire.
        destruct Hfire as [Hfire|(R & id & data & Hx)]; [elim (Hf Hfire)|]. destruct Ety as [Ety|Ety]; [|elim (Ety R)].
        unfold completed_dsm in Hcm. unfold received_blocks in Hx. rewrite Hx, Ety in Hcm. discriminate Hcm.
      * right. exists K. auto.
    + right. exists K. auto.
  - specialize (Hnone eq_refl). exists o1. split; [exact Hrec|]. split; [exact Hinv|]. split; [exists cd, None; auto|].
    split; [exact Hm|]. split.
    { rewrite Hstep. destruct Hp as [(Hkn & Hcur)|(Hkn & Hcur)]; [left; split; [now apply known_app|exact Hcur]|].
      right. split; [|exact Hcur]. intros Hkn2. apply known_snoc in Hkn2. destruct Hkn2 as [Hkn2|(r & id & d & f & _ & Hx & _)]; [contradiction|].
      unfold completed_dsm in Hnone. unfold received_blocks in Hx. rewrite Hx in Hnone. discriminate Hnone. }
    split; [rewrite Es; reflexivity|]. split; [intros; congruence|].
    destruct Hk as [(Hk & Hf)|(K & HkK & HKc & _)].
    + left. split; [exact Hk|]. split; [exact Hk|]. rewrite Hstep. intros Hfire. apply fired_one_snoc in Hfire.
      destruct Hfire as [Hfire|(_ & id & data & Hx)]; [elim (Hf Hfire)|].
      unfold completed_dsm in Hnone. unfold received_blocks in Hx. rewrite Hx in Hnone. discriminate Hnone.
    + right. exists K. auto.
Qed.

Lemma step_not_completing h o x o' : Forall op_ok (h ++ [x]) -> run new h = Ok o -> (forall hk mk g, ~ completes h x hk mk g) ->
  step o x = Ok o' -> same_trust o o'.
Proof.
  intros Hok Hr Hn Hs. pose proof Hok as Hok'. apply Forall_app in Hok. destruct Hok as (Hok & Hx). apply Forall_cons_iff in Hx. destruct Hx as (Hx & _).
  pose proof (run_inv HC HS root user slow h Hok _ Hr) as Hinv.
  destruct x as [word svn g b|data svn gk]; cbn [step] in Hs.
  { unfold feed_inav in Hs. destruct (nav_feed _ _ _ _ _) as [n|]; [|discriminate]. cbn [bind] in Hs. injection Hs as <-. split; [|split]; reflexivity. }
  destruct (forallb (Z.eqb 0) data) eqn:Ez.
  { unfold feed_osnma in Hs. replace (forallb (fun x => x =? 0) data) with (forallb (Z.eqb 0) data) in Hs.
    2: { clear. induction data as [|x l IH]; cbn [forallb]; [reflexivity|]. now rewrite IH, Z.eqb_sym. }
    rewrite Ez in Hs. injection Hs as <-. split; [|split]; reflexivity. }
  destruct (feed_osnma_unroll root user slow h o data svn gk Hok Hx Hinv Ez) as (sf0 & _ & _ & S3).
  destruct (expected_subframe (osnma_words h) (mkWord data svn gk)) as [((hk & mk) & g)|] eqn:Ex.
  - elim (Hn hk mk g). exists data, svn, gk. auto.
  - rewrite S3 in Hs. injection Hs as <-. split; [|split]; reflexivity.
Qed.

Lemma within_gap a b : a < b <= a + 90000 \/ (b <= a \/ a + 90000 < b).
Proof. lia. Qed.

(** A key more than 25 hours after the one held is not accepted. *)
Lemma validated_gap K key g : key_ok K -> gst_ok g -> is_subframe g = true -> k_gst key = g ->
  validate_key K key = Ok (ROk key) -> time_of g <= time_of (k_gst K) + 90000.
Proof.
  intros HK Hg Hs Hkg H. unfold validate_key in H.
  destruct (negb (chain_eqb _ _)); [discriminate|]. destruct (negb (gst_ltb _ _)); [discriminate|].
  bind_inv H. destruct (3000 <? _) eqn:E3; [discriminate|]. rewrite Hkg in E3.
  pose proof HK as [_ _ HKg HKs]. pose proof (subframes_difference_exact _ _ Hg HKg Hs HKs) as Hd.
  clear - E3 Hd. lia.
Qed.

(** What a call does to the keys. *)
Lemma honest_step h o x : Forall op_ok (h ++ [x]) -> hears root user pk t (h ++ [x]) -> run new h = Ok o -> key_state h o ->
  exists o', step o x = Ok o' /\ key_state (h ++ [x]) o' /\
    (forall K, o_keys o = with_key K -> exists K', o_keys o' = with_key K' /\ time_of (k_gst K) <= time_of (k_gst K')) /\
    (forall K K', o_keys o = with_key K -> o_keys o' = with_key K' -> time_of (k_gst K) < time_of (k_gst K') ->
       exists hk mk g, completes h x hk mk g) /\
    (o_keys o = keys_empty -> o_keys o' <> keys_empty -> exists hk mk g, completes h x hk mk g) /\
    (forall hk mk g, completes h x hk mk g -> exists ks, keys_then o hk g ks /\
      (ks = keys_empty /\ o_keys o' = keys_empty \/
       exists K K', ks = with_key K /\ chain_key K /\ o_keys o' = with_key K' /\
         (o_keys o = with_key K \/ o_keys o = keys_empty /\ new_root K h x g) /\
         (time_of (k_gst K) < time_of g <= time_of (k_gst K) + 90000 -> discloses K mk g (tr_tkey t g) /\ k_gst K' = g) /\
         (time_of g <= time_of (k_gst K) \/ time_of (k_gst K) + 90000 < time_of g -> K' = K))).
Proof.
  intros Hok Hh Hr Hks. pose proof Hks as (Hm & Hp & Hk).
  destruct (received_blocks_snoc h x) as [(Ebl & Hn)|(hk & mk & g & Hc & _)].
  - assert (Hs : exists o', step o x = Ok o').
    { apply (harmless_step HC HS root user slow h o x Hok Hr). intros hk mk g Hc. elim (Hn _ _ _ Hc). }
    destruct Hs as (o' & Hs). exists o'. split; [exact Hs|]. pose proof (step_not_completing h o x o' Hok Hr Hn Hs) as (T1 & T2 & T3).
    split; [|split; [|split; [|split]]].
    + split; [congruence|]. split; [rewrite Ebl, T2; exact Hp|]. rewrite T3. destruct Hk as [(Hk & Hf)|(K & HkK & HKc & Hroot & Hy)].
      * left. rewrite Ebl. auto.
      * right. exists K. split; [exact HkK|]. split; [exact HKc|]. split; [apply (rooted_more K h _ []); [exact Hroot|now rewrite app_nil_r]|]. destruct Hy as (y & Hy & Ey). exists y. split; [apply in_or_app; now left|exact Ey].
    + intros K HK. exists K. rewrite T3. split; [exact HK|lia].
    + intros K K' HK HK'. rewrite T3, HK in HK'. assert (K = K') by (unfold with_key in HK'; congruence). subst. lia.
    + congruence.
    + intros hk mk g Hc. elim (Hn _ _ _ Hc).
  - pose proof (hears_last _ _ _ _ _ Hh Hc) as Htx.
    destruct (honest_keys_then h o x hk mk g Hok Hh Hr Hks Hc) as (sf & svn & ms & cd & o2 & Hrec & Hinv & Hkt & M2 & P2 & Es & Hnp & K2).
    destruct (subframe_received_bytes _ _ _ _ _ Hok Hrec) as (_ & (Hlen & _) & Hg & Hsub & _).
    pose proof (to_start _ _ Ht) as Hstart.
    assert (Hkf : forall ks, keys_then o hk g ks -> ks = o_keys o2).
    { intros ks (cd1 & d1 & F1 & G1). destruct Hkt as (cd2 & d2 & F2 & G2).
      assert (d1 = d2) by congruence. subst d2. destruct d1 as [m|]; [|congruence].
      destruct G1 as (a & A1 & A2), G2 as (b & B1 & B2). congruence. }
    assert (Hs : exists o', step o x = Ok o').
    { apply (harmless_step HC HS root user slow h o x Hok Hr). intros hk' mk' g' Hc'.
      destruct (completes_unique _ _ _ _ _ _ _ _ Hc Hc') as (-> & -> & ->). split; [|split].
      - destruct Htx as (_ & (n & _ & Hnt) & _). lia.
      - exact Hnp.
      - intros ks k k' Hks' Hk1 Hk2. rewrite (Hkf _ Hks') in Hk1, Hk2.
        destruct K2 as [(E & _)|(K & E & (_ & Hch & _) & _)]; rewrite E in Hk1, Hk2; [destruct Hk1 as [?|?]; discriminate|].
        apply with_key_held in Hk1, Hk2. subst k k'. rewrite Hch. exact (to_chain _ _ Ht). }
    destruct Hs as (o' & Hs). exists o'. split; [exact Hs|]. rewrite Es in Hs.
    assert (Hg' : g = subframe_of (op_gst x)).
    { destruct Hc as (data & s & gk & -> & _ & Hx). unfold expected_subframe in Hx.
      destruct (_ && _); [|discriminate]. cbn [w_gst op_gst] in *. congruence. }
    assert (Hres : o_merkle o' = root /\ o_pub o' = o_pub o2 /\
      (o_keys o2 = keys_empty /\ o_keys o' = keys_empty \/
       exists K K', o_keys o2 = with_key K /\ chain_key K /\ o_keys o' = with_key K' /\ chain_key K' /\
         (time_of (k_gst K) < time_of g <= time_of (k_gst K) + 90000 -> discloses K mk g (tr_tkey t g) /\ k_gst K' = g) /\
         (time_of g <= time_of (k_gst K) \/ time_of (k_gst K) + 90000 < time_of g -> K' = K))).
    { destruct K2 as [(E & _)|(K & E & HKc & _)].
      - unfold osnma_validate_key in Hs. rewrite E in Hs. cbn in Hs. injection Hs as <-. auto.
      - destruct (within_gap (time_of (k_gst K)) (time_of g)) as [Hlt|Hge].
        + pose proof (transmits_discloses K hk mk g HKc Htx Hlt) as Hdis. pose proof HKc as (HKok & Hch & _).
          destruct (key_accepted HC o2 mk g o' K (tr_tkey t g) Hlen Hg Hsub HKok) as (key & ks & Kok & Kb & Kc & Kg & Est & Ept);
            [rewrite E; now apply with_key_current|exact Hdis|exact Hs|].
          destruct (process_tags_trust _ _ _ Ept) as ((T1 & T2 & T3) & _). cbn [set_keys o_merkle o_pub o_keys] in T1, T2, T3.
          assert (Eks : ks = with_key key).
          { rewrite E in Est. unfold store_key, with_key in Est. cbn [ks_k0 ks_k1 ks_cif has_chain_id] in Est.
            rewrite Kc, Hch in Est. cbn [tr_tkey k_chain] in Est. rewrite Z.eqb_refl in Est. injection Est as <-. reflexivity. }
          split; [congruence|]. split; [congruence|]. right. exists K, key. split; [exact E|]. split; [exact HKc|].
          split; [congruence|]. split; [|split; [auto|intros; exfalso; lia]].
          destruct Htx as (_ & (n & Hn & Hnt) & _). split; [exact Kok|]. split; [exact Kc|]. exists n. rewrite Kg.
          split; [lia|]. split; [exact Hnt|]. rewrite Kb. apply (tr_tkey_bytes g n Hn Hnt).
        + assert (o' = o2).
          { destruct (validate_key_effect _ _ _ _ Hs) as [->|cur key ks Hcur Hval Hlt _ Hkg _ _]; [reflexivity|exfalso].
            rewrite E, (with_key_current K) in Hcur by (apply HKc). injection Hcur as <-.
            pose proof (validated_gap K key g (proj1 HKc) Hg Hsub Hkg Hval) as Hgap.
            rewrite Hkg in Hlt. rewrite gst_cmp_time in Hlt; [|apply HKc|exact Hg]. change (time_of (k_gst K) < time_of g) in Hlt. lia. }
          subst o'. split; [exact M2|]. split; [reflexivity|]. right. exists K, K. split; [exact E|]. split; [exact HKc|]. split; [exact E|].
          split; [exact HKc|]. split; [lia|auto]. }
    destruct Hres as (M3 & P3 & K3). split; [|split; [|split; [|split]]].
    + split; [exact M3|]. split; [rewrite P3; exact P2|]. destruct K3 as [(E2 & E3)|(K & K' & E2 & HKc & E3 & HKc' & R1 & R2)].
      * left. split; [exact E3|]. destruct K2 as [(_ & _ & Hf)|(K & E & _)]; [exact Hf|]. rewrite E in E2. discriminate E2.
      * right. exists K'. split; [exact E3|]. split; [exact HKc'|].
        destruct (received_blocks_app h [x]) as (bl & Ebl).
        assert (HrK : rooted K (h ++ [x]) /\ exists y, In y (h ++ [x]) /\ time_of (k_gst K) <= time_of (subframe_of (op_gst y))).
        { destruct K2 as [(E & _)|(K0 & E & _ & Hor)]; [rewrite E in E2; discriminate E2|].
          assert (K0 = K) by (rewrite E in E2; unfold with_key in E2; congruence). subst K0.
          destruct Hor as [Hor|(_ & Hor)].
          - destruct Hk as [(Hk & _)|(K0 & HkK & _ & Hroot & y & Hy & Ey)]; [rewrite Hk in Hor; discriminate Hor|].
            assert (K0 = K) by (rewrite HkK in Hor; unfold with_key in Hor; congruence). subst K0.
            split; [exact (rooted_more K h _ bl Hroot Ebl)|]. exists y. split; [apply in_or_app; now left|exact Ey].
          - split; [exact (new_root_rooted K h x g Hor)|]. exists x. split; [apply in_or_app; right; now left|].
            rewrite <- Hg'. destruct Hor as (Hor & _). lia. }
        destruct (within_gap (time_of (k_gst K)) (time_of g)) as [Hlt|Hge]; [|now rewrite (R2 Hge)].
        destruct (R1 Hlt) as (_ & EK'). split.
        -- destruct HrK as ((m & b & Hin & Hb & Hid & Hle) & _). exists m, b. split; [exact Hin|]. split; [exact Hb|]. split; [exact Hid|].
           rewrite EK'. lia.
        -- exists x. split; [apply in_or_app; right; now left|]. rewrite <- Hg', EK'. lia.
    + intros K HK. destruct K2 as [(_ & E & _)|(K0 & E & _ & [Hor|(Hor & _)])]; [rewrite E in HK; discriminate HK| |rewrite Hor in HK; discriminate HK].
      assert (K0 = K) by (rewrite HK in Hor; unfold with_key in Hor; congruence). subst K0.
      destruct K3 as [(E2 & _)|(K0 & K' & E2 & _ & E3 & _ & R1 & R2)]; [rewrite E in E2; discriminate E2|].
      assert (K0 = K) by (rewrite E in E2; unfold with_key in E2; congruence). subst K0.
      exists K'. split; [exact E3|]. destruct (within_gap (time_of (k_gst K)) (time_of g)) as [Hlt|Hge].
      * destruct (R1 Hlt) as (_ & ->). lia.
      * rewrite (R2 Hge). lia.
    + intros K K' _ _ _. exists hk, mk, g. exact Hc.
    + intros _ _. exists hk, mk, g. exact Hc.
    + intros hk' mk' g' Hc'. destruct (completes_unique _ _ _ _ _ _ _ _ Hc Hc') as (-> & -> & ->).
      exists (o_keys o2). split; [exact Hkt|]. destruct K3 as [(E2 & E3)|(K & K' & E2 & HKc & E3 & HKc' & R1 & R2)]; [left; auto|].
      right. exists K, K'. split; [exact E2|]. split; [exact HKc|]. split; [exact E3|]. split; [|split; [exact R1|exact R2]].
      destruct K2 as [(E & _)|(K0 & E & _ & Hor)]; [rewrite E in E2; discriminate E2|].
      assert (K0 = K) by (rewrite E in E2; unfold with_key in E2; congruence). subst K0. exact Hor.
Qed.

Theorem honest_run h : Forall op_ok h -> hears root user pk t h -> exists o, run new h = Ok o /\ key_state h o.
Proof.
  induction h as [|x h IH] using rev_ind; intros Hok Hh.
  - exists new. split; [reflexivity|]. split; [reflexivity|]. split.
    { destruct (proj1 (proj2 Hh)) as [Eu|Eu]; unfold osnma_new; rewrite Eu; cbn [o_pub].
      - right. split; [|reflexivity]. unfold key_known. rewrite Eu. intros [E|(r & b1 & b & b2 & id & d & f & _ & E & _)]; [discriminate E|].
        destruct b1; discriminate E.
      - left. split; [now left|reflexivity]. }
    left. split; [reflexivity|].
    intros (m & _ & b1 & b & b2 & d & E & _). destruct b1; discriminate E.
  - destruct (IH (proj1 (proj1 (Forall_app _ _ _) Hok)) (hears_app _ _ Hh)) as (o & Hr & Hks).
    destruct (honest_step h o x Hok Hh Hr Hks) as (o' & Hs & Hks' & _). exists o'. split; [|exact Hks'].
    rewrite run_app, Hr. unfold run. cbn [bind fold_outcome]. now rewrite Hs.
Qed.

(** Once the DSM-KROOT has been received, the key of the last complete subframe is held. *)
Lemma key_kept q : forall h o o' K, Forall op_ok (h ++ q) -> hears root user pk t (h ++ q) -> run new h = Ok o -> run o q = Ok o' ->
  o_keys o = with_key K -> exists K', o_keys o' = with_key K' /\ time_of (k_gst K) <= time_of (k_gst K').
Proof.
  induction q as [|x q IH] using rev_ind; intros h o o' K Hok Hh Hr Hq HK.
  - injection Hq as <-. exists K. split; [exact HK|lia].
  - rewrite app_assoc in Hok, Hh. rewrite run_app in Hq. destruct (run o q) as [o1|] eqn:E1; [|discriminate].
    unfold run in Hq. cbn [bind fold_outcome] in Hq. destruct (step o1 x) as [o2|] eqn:E2; [|discriminate]. cbn [bind] in Hq. injection Hq as <-.
    pose proof (proj1 (proj1 (Forall_app _ _ _) Hok)) as Hok1. pose proof (hears_app _ _ Hh) as Hh1.
    destruct (IH h o o1 K Hok1 Hh1 Hr E1 HK) as (K1 & HK1 & Hle1).
    assert (Hr1 : run new (h ++ q) = Ok o1) by (rewrite run_app, Hr; exact E1).
    destruct (honest_run _ Hok1 Hh1) as (o1' & Hr1' & Hks1). assert (o1' = o1) by congruence. subst o1'.
    destruct (honest_step _ _ x Hok Hh Hr1 Hks1) as (o2' & Hs & _ & Hkeep & _).
    assert (o2' = o2) by congruence. subst o2'. destruct (Hkeep K1 HK1) as (K2 & HK2 & Hle2). exists K2. split; [exact HK2|lia].
Qed.

Notation received := (kroot_received_then root user pk t).

Lemma no_long_gap_app h q : no_long_gap t received (h ++ q) -> no_long_gap t received h.
Proof. intros H p x q' hk mk g E. apply (H p x (q' ++ q) hk mk g). now rewrite E, <- app_assoc. Qed.

(** The receiver keeps up with the subframes that it receives. *)
Lemma key_follows n : forall p x hk mk g, (length p < n)%nat -> Forall op_ok (p ++ [x]) -> hears root user pk t (p ++ [x]) ->
  no_long_gap t received (p ++ [x]) -> completes p x hk mk g -> received (p ++ [x]) ->
  exists o K, run new (p ++ [x]) = Ok o /\ o_keys o = with_key K /\ time_of g <= time_of (k_gst K).
Proof.
  induction n as [|n IH]; intros p x hk mk g Hlen Hok Hh Hgap Hc Hrec; [lia|].
  pose proof (proj1 (proj1 (Forall_app _ _ _) Hok)) as Hok0. pose proof (hears_app _ _ Hh) as Hh0.
  destruct (honest_run _ Hok0 Hh0) as (o0 & Hr0 & Hks0).
  destruct (honest_step p o0 x Hok Hh Hr0 Hks0) as (o1 & Hs & Hks1 & _ & _ & _ & Hcomp).
  assert (Hr1 : run new (p ++ [x]) = Ok o1) by (rewrite run_app, Hr0; unfold run; cbn [bind fold_outcome]; now rewrite Hs).
  destruct (Hcomp hk mk g Hc) as (ks & _ & [(_ & E)|(K & K' & _ & HKc & E & Hor & R1 & R2)]).
  { exfalso. destruct Hks1 as (_ & _ & [(_ & Hf)|(K & HK & _)]); [|rewrite E in HK; discriminate HK].
    apply Hf. apply received_is_fired; [exact Hh|exact Hrec]. }
  exists o1, K'. split; [exact Hr1|]. split; [exact E|].
  destruct (Z.le_gt_cases (time_of g) (time_of (k_gst K))) as [Hge|Hlt]; [rewrite (R2 (or_introl Hge)); exact Hge|].
  assert (Hle : time_of g <= time_of (k_gst K) + 90000).
  { destruct (Hgap p x [] hk mk g eq_refl Hc Hrec) as [H0|(p1 & y & p2 & hk1 & mk1 & g1 & Ep & Hc1 & Hrec1 & H1)].
    { assert (Hroot : rooted K (p ++ [x])).
      { destruct Hor as [Hor|(_ & Hor)]; [|exact (new_root_rooted K p x g Hor)].
        destruct Hks0 as (_ & _ & [(E0 & _)|(K0 & E0 & _ & Hroot & _)]); [rewrite E0 in Hor; discriminate Hor|].
        assert (K0 = K) by (rewrite E0 in Hor; unfold with_key in Hor; congruence). subst K0.
        destruct (received_blocks_app p [x]) as (bl & Ebl). exact (rooted_more K p _ bl Hroot Ebl). }
      destruct Hroot as (m & b & Hm & Hb & Hid & Hle). pose proof (H0 m b Hm Hb Hid). lia. }
    assert (E1 : p = (p1 ++ [y]) ++ p2) by (rewrite Ep, <- app_assoc; reflexivity).
    rewrite E1 in Hok0, Hh0, Hr0. pose proof (no_long_gap_app _ _ Hgap) as Hgap0. rewrite E1 in Hgap0.
    destruct (IH p1 y hk1 mk1 g1) as (oy & Ky & Hry & EKy & Hgy); auto.
    { rewrite Ep, app_length in Hlen. cbn [length] in Hlen. lia. }
    { exact (proj1 (proj1 (Forall_app _ _ _) Hok0)). }
    { exact (hears_app _ _ Hh0). }
    { exact (no_long_gap_app _ _ Hgap0). }
    assert (Hry2 : run oy p2 = Ok o0) by (rewrite run_app, Hry in Hr0; exact Hr0).
    destruct (key_kept p2 (p1 ++ [y]) oy o0 Ky Hok0 Hh0 Hry Hry2 EKy) as (K2 & EK2 & Hle2).
    destruct Hor as [Hor|(Hor & _)]; [|rewrite Hor in EK2; discriminate EK2].
    assert (K2 = K) by (rewrite EK2 in Hor; unfold with_key in Hor; congruence). subst K2. lia. }
  destruct (R1 ltac:(lia)) as (_ & ->). lia.
Qed.

Theorem honest_key h p x q hk mk g : h = p ++ x :: q -> Forall op_ok h -> in_subframe_order h -> hears root user pk t h ->
  no_long_gap t received (p ++ [x]) ->
  completes p x hk mk g -> received (p ++ [x]) -> (forall y, In y q -> subframe_of (op_gst y) = g) ->
  exists o key, run new h = Ok o /\ current_key (o_keys o) = Some key /\ k_gst key = g /\
    k_chain key = tr_chain t /\ key_bytes key = tr_key t (time_of g).
Proof.
  intros -> Hok Hord Hh Hgap Hc Hrec Hq.
  destruct (honest_run _ Hok Hh) as (o & Hr & Hks).
  assert (Esp : p ++ x :: q = (p ++ [x]) ++ q) by now rewrite <- app_assoc.
  rewrite Esp in Hok, Hh. pose proof (proj1 (proj1 (Forall_app _ _ _) Hok)) as Hok1. pose proof (hears_app _ _ Hh) as Hh1.
  destruct (key_follows _ p x hk mk g (Nat.lt_succ_diag_r _) Hok1 Hh1 Hgap Hc Hrec) as (o1 & K' & Hr1 & E & Hge).
  assert (Hq1 : run o1 q = Ok o) by (rewrite Esp, run_app, Hr1 in Hr; exact Hr).
  assert (Hg' : g = subframe_of (op_gst x)).
  { destruct Hc as (data & s & gk & -> & _ & Hx). unfold expected_subframe in Hx.
    destruct (_ && _); [|discriminate]. cbn [w_gst op_gst] in *. congruence. }
  destruct (key_kept q (p ++ [x]) o1 o K' Hok Hh Hr1 Hq1 E) as (K2 & HK2 & Hle).
  destruct Hks as (_ & _ & [(HkE & _)|(K3 & HkK & HKc3 & _ & Hy)]); [rewrite HkE in HK2; discriminate HK2|].
  assert (K3 = K2) by (rewrite HK2 in HkK; unfold with_key in HkK; congruence). subst K3.
  pose proof (hears_last _ _ _ _ _ Hh1 Hc) as (_ & (n & Hn & Hnt) & _).
  assert (Hgok : gst_ok g /\ is_subframe g = true).
  { rewrite Hg'. apply subframe_of_ok. apply op_gst_ok. rewrite Forall_forall in Hok. apply Hok.
    apply in_or_app. left. apply in_or_app. right. now left. }
  assert (Hle2 : time_of (k_gst K2) <= time_of g).
  { destruct Hy as (y & Hy & Ey). eapply Z.le_trans; [exact Ey|].
    apply in_app_or in Hy. destruct Hy as [Hy|[<-|Hy]].
    - apply In_nth_error in Hy. destruct Hy as (i & Hi). rewrite Hg'.
      apply (Hord i (length p) y x); [pose proof (proj1 (nth_error_Some p i) ltac:(congruence)); lia| |].
      + rewrite nth_error_app1; [exact Hi|]. apply nth_error_Some. congruence.
      + rewrite nth_error_app2, Nat.sub_diag by lia. reflexivity.
    - rewrite <- Hg'. lia.
    - rewrite (Hq y Hy). lia. }
  exists o, K2. split; [exact Hr|]. pose proof HKc3 as (HKok & Hch & m & Hm & Hmt & Hmb).
  split; [rewrite HK2; now apply with_key_current|].
  assert (Eg : k_gst K2 = g) by (apply time_of_inj; [apply HKok|apply Hgok|lia]).
  split; [exact Eg|]. split; [exact Hch|]. now rewrite Hmb, Eg.
Qed.

(** After a longer gap no key is accepted, whatever is received. *)
Theorem honest_stuck q : forall h o K, Forall op_ok (h ++ q) -> hears root user pk t (h ++ q) -> run new h = Ok o ->
  current_key (o_keys o) = Some K ->
  (forall p x q' hk mk g, q = p ++ x :: q' -> completes (h ++ p) x hk mk g -> time_of (k_gst K) + 90000 < time_of g) ->
  exists o', run new (h ++ q) = Ok o' /\ o_keys o' = o_keys o.
Proof.
  induction q as [|x q IH] using rev_ind; intros h o K Hok Hh Hr HK Hq.
  - exists o. rewrite app_nil_r. auto.
  - rewrite app_assoc in Hok, Hh |- *. pose proof (proj1 (proj1 (Forall_app _ _ _) Hok)) as Hok1. pose proof (hears_app _ _ Hh) as Hh1.
    destruct (IH h o K Hok1 Hh1 Hr HK) as (o1 & Hr1 & Ek1).
    { intros p y q' hk mk g -> Hc. apply (Hq p y (q' ++ [x]) hk mk g); [now rewrite <- app_assoc|exact Hc]. }
    destruct (honest_run _ Hok1 Hh1) as (o1' & Hr1' & Hks1). assert (o1' = o1) by congruence. subst o1'.
    destruct (honest_step _ _ x Hok Hh Hr1 Hks1) as (o2 & Hs & _ & Hkeep & _ & _ & Hcomp).
    exists o2. split; [rewrite run_app, Hr1; unfold run; cbn [bind fold_outcome]; now rewrite Hs|].
    rewrite <- Ek1 in HK |- *. destruct Hks1 as (_ & _ & [(E & _)|(K0 & E & HKc & _)]); [rewrite E in HK; discriminate HK|].
    rewrite E, with_key_current in HK by (apply HKc). assert (K0 = K) by congruence. subst K0.
    destruct (received_blocks_snoc (h ++ q) x) as [(_ & Hn)|(hk & mk & g & Hc & _)].
    + destruct (step_not_completing _ _ _ _ Hok Hr1 Hn Hs) as (_ & _ & T3). exact T3.
    + pose proof (Hq q x [] hk mk g eq_refl Hc) as Hfar.
      destruct (Hcomp hk mk g Hc) as (ks & _ & [(_ & E')|(K1 & K' & _ & _ & E' & Hor & _ & R2)]).
      * (* the keys are not lost *)
        destruct (Hkeep K E) as (K' & EK' & _). rewrite E' in EK'. discriminate EK'.
      * destruct Hor as [Hor|(Hor & _)]; [|rewrite Hor in E; discriminate E].
        assert (K1 = K) by (rewrite E in Hor; unfold with_key in Hor; congruence). subst K1.
        rewrite E', E. now rewrite (R2 (or_intror Hfar)).
Qed.

(** After a gap that is not longer the next key is accepted. *)
Theorem honest_resume h q x o K hk mk g : Forall op_ok ((h ++ q) ++ [x]) -> hears root user pk t ((h ++ q) ++ [x]) -> run new h = Ok o ->
  current_key (o_keys o) = Some K -> (forall p y q' hk mk g, q = p ++ y :: q' -> ~ completes (h ++ p) y hk mk g) ->
  completes (h ++ q) x hk mk g -> time_of (k_gst K) < time_of g <= time_of (k_gst K) + 90000 ->
  exists o' key, run new ((h ++ q) ++ [x]) = Ok o' /\ current_key (o_keys o') = Some key /\ k_gst key = g /\
    k_chain key = tr_chain t /\ key_bytes key = tr_key t (time_of g).
Proof.
  intros Hok Hh Hr HK Hq Hc Hgap. pose proof (proj1 (proj1 (Forall_app _ _ _) Hok)) as Hok1. pose proof (hears_app _ _ Hh) as Hh1.
  destruct (honest_stuck q h o K Hok1 Hh1 Hr HK) as (o1 & Hr1 & Ek).
  { intros p y q' hk' mk' g' E Hc'. elim (Hq p y q' hk' mk' g' E Hc'). }
  destruct (honest_run _ Hok1 Hh1) as (o1' & Hr1' & Hks1). assert (o1' = o1) by congruence. subst o1'.
  destruct (honest_step _ _ x Hok Hh Hr1 Hks1) as (o2 & Hs & Hks2 & Hkeep & _ & _ & Hcomp).
  rewrite <- Ek in HK. destruct Hks1 as (_ & _ & [(E & _)|(K0 & E & HKc & _)]); [rewrite E in HK; discriminate HK|].
  rewrite E, with_key_current in HK by (apply HKc). assert (K0 = K) by congruence. subst K0.
  destruct (Hcomp hk mk g Hc) as (ks & _ & [(_ & E')|(K1 & K' & _ & _ & E' & Hor & R1 & _)]).
  { destruct (Hkeep K E) as (K' & EK' & _). rewrite E' in EK'. discriminate EK'. }
  destruct Hor as [Hor|(Hor & _)]; [|rewrite Hor in E; discriminate E].
  assert (K1 = K) by (rewrite E in Hor; unfold with_key in Hor; congruence). subst K1. destruct (R1 Hgap) as (_ & Eg).
  exists o2, K'. split; [rewrite run_app, Hr1; unfold run; cbn [bind fold_outcome]; now rewrite Hs|].
  destruct Hks2 as (_ & _ & [(E2 & _)|(K2 & E2 & (HKok & Hch & n & Hn & Hnt & Hb) & _)]); [rewrite E2 in E'; discriminate E'|].
  assert (K2 = K') by (rewrite E' in E2; unfold with_key in E2; congruence). subst K2.
  split; [rewrite E'; now apply with_key_current|]. split; [exact Eg|]. split; [exact Hch|]. now rewrite Hb, Eg.
Qed.

End Crypto.

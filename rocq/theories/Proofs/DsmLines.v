(** The lines of the log about DSM blocks and the MACK storage. *)
From Coq Require Import ZArith List Bool Lia ZifyBool ZifyNat.
From Verif Require Import Model.Prelude Model.Params Model.Gst Model.Svn Model.Bitfields
  Model.Maclt Model.Tesla Model.Merkle Model.Subframe Model.Dsm Model.MackStore Model.Nav Model.Osnma
  Model.Logging
  Spec.TimeSpec Spec.CollectSpec Spec.StoreSpec Spec.NavSpec Spec.TeslaSpec Spec.KrootSpec
  Spec.MerkleSpec Spec.MacltSpec Spec.KeySpec Spec.SystemSpec Spec.StoredSpec Spec.CompleteSpec Spec.PanicSpec
  Spec.LogSpec Spec.HonestSpec Spec.CleanSpec Spec.DsmLogSpec
  Proofs.Base Proofs.Ring Proofs.Rows Proofs.GstProofs Proofs.LayoutProofs Proofs.SubframeProofs Proofs.DsmProofs
  Proofs.MackProofs Proofs.SystemProofs Proofs.StepProofs
  Proofs.TotalProofs Proofs.MackExact Proofs.LoggingProofs Proofs.LogRunProofs Proofs.LogTrueProofs Proofs.CleanTags Proofs.CleanStores Proofs.CleanProofs.
Import ListNotations.
Open Scope Z_scope.

Ltac Zify.zify_post_hook ::= Z.div_mod_to_equations.

Section Crypto.
Context {C : crypto} {B : build} {S : storage}.
Hypothesis HC : crypto_ok C.
Hypothesis HS : storage_ok S.
Variable mx : option level.

(** ** Functions that log nothing about DSM blocks *)

Definition about_other (m : message) : Prop := about_dsm m = false /\ about_mack_storage m = false.
Notation others := (says about_other).

Ltac other_line :=
  match goal with
  | H : Ok _ = Ok ?m |- _ => injection H as <-; split; reflexivity
  | H : bind _ _ = Ok ?m |- _ => repeat bind_inv H; injection H as <-; split; reflexivity
  end.
Ltac others := repeat (says1; cbv beta); try other_line.

Lemma mack_store_dsm st m svn g s : says (fun m => about_dsm m = false) (mack_store_log mx st m svn g s).
Proof.
  unfold mack_store_log, mack_adjust_log. repeat (says1; cbv beta);
    match goal with H : Ok _ = Ok ?m |- _ => injection H as <-; reflexivity end.
Qed.
Lemma feed_inav_others o word svn g b : others (feed_inav_log mx o word svn g b).
Proof.
  unfold feed_inav_log, nav_feed_log, nav_adjust_log, nav_feed_kind_log, entry_feed_log, ced_feed_log, timing_feed_log,
    log_contents, log_word, log_age. others.
Qed.
Lemma subframe_feed_others st data svn g : others (subframe_feed_log mx st data svn g).
Proof. unfold subframe_feed_log. others. Qed.
Lemma one_tag_others k key tag adkd cop g1 g2 prnd prnds prna j s n : others (process_one_tag_log mx k key tag adkd cop g1 g2 prnd prnds prna j s n).
Proof. unfold process_one_tag_log, nav_validate_dummy_tag_log, nav_validate_tag_log. others. Qed.
Lemma process_mack_others n m key prna g s : others (process_mack_log mx n m key prna g s).
Proof.
  unfold process_mack_log, process_mack_tag_log.
  repeat (first [apply one_tag_others|says1]; cbv beta); try other_line.
Qed.
Lemma process_slow_others n m key prna g s : others (process_mack_slowmac_log mx n m key prna g s).
Proof.
  unfold process_mack_slowmac_log, process_slowmac_tag_log.
  repeat (first [apply one_tag_others|says1]; cbv beta); try other_line.
Qed.
Lemma process_tags_others o key : others (process_tags_log mx o key).
Proof.
  unfold process_tags_log, process_tags_fast_log, process_tags_slow_log, validate_mack_log.
  repeat (first [apply process_mack_others|apply process_slow_others|says1]; cbv beta); try other_line.
Qed.
Lemma validate_key_others o mk g : others (osnma_validate_key_log mx o mk g).
Proof. unfold osnma_validate_key_log. repeat (first [apply process_tags_others|says1]; cbv beta); try other_line. Qed.
Lemma nma_header_others o hd id : others (process_nma_header_log mx o hd id).
Proof. unfold process_nma_header_log, keys_revoke_log, pubs_revoke_log, alert_message_received_log. others. Qed.
Lemma process_dsm_others o d hd g : others (process_dsm_log mx o d hd g).
Proof.
  unfold process_dsm_log, process_dsm_kroot_log, process_dsm_pkr_log, process_dsm_pkr_npk_log, process_dsm_pkr_alert_message_log,
    applicable_pubkey_log, store_kroot_log, store_new_pubkey_log, alert_message_received_log.
  repeat (first [apply nma_header_others|says1]; cbv beta); try other_line.
Qed.

(** ** The collector *)

Lemma last_block bl c l : bl = l ++ [c] -> exists r run, dsm_run bl = r :: run /\ b_dsm r = b_dsm c.
Proof.
  intros ->. rewrite dsm_run_snoc. unfold dsm_run_for. destruct (dsm_run l) as [|r run]; [exists c, []; auto|].
  destruct (b_dsm r =? b_dsm c) eqn:E; [|exists c, []; auto]. exists r, (run ++ [c]). split; [reflexivity|lia].
Qed.

(** After the first part of [CollectDsm::feed], also when the DSM is complete. *)
Lemma started_done h st b : block_ok b -> represents_dsm (dsm_run h) st ->
  let st1 := if negb (dsm_id (b_header b) =? cd_id st) || match cd_type st with None => true | Some _ => false end
     then mkCollectDsm (cd_dsm st) (repeat false max_dsm_blocks) false (Some (dsm_type (b_header b))) (dsm_id (b_header b))
     else st in
  cd_id st1 = b_dsm b /\ cd_done st1 = is_some (complete_dsm (b_dsm b) (dsm_run_for (dsm_run h) b)).
Proof.
  intros (Hbyte & _) (Hl1 & Hl2 & Hrep). cbv zeta. rewrite dsm_id_div by auto. fold (b_dsm b).
  destruct (dsm_run h) as [|r run] eqn:Erun.
  - rewrite Hrep, orb_true_r. cbn [cd_id cd_done]. split; reflexivity.
  - destruct Hrep as (Hid & Ht & Hd & Hh). rewrite Hid, Ht, orb_false_r. unfold dsm_run_for.
    destruct (b_dsm r =? b_dsm b) eqn:E.
    + replace (b_dsm b =? b_dsm r) with true by lia. cbn [negb]. replace (b_dsm b) with (b_dsm r) by lia. auto.
    + replace (b_dsm b =? b_dsm r) with false by lia. cbn [negb cd_id cd_done]. split; reflexivity.
Qed.

Lemma store_block_line bl st b : length (cd_dsm st) = 208%nat -> holds_run (dsm_run_for (dsm_run bl) b) st -> block_ok b ->
  says (dsm_claim bl b) (store_block_log mx st (b_num b) (b_data b)).
Proof.
  intros Hl Hh (Hbyte & Hlen). unfold is_byte in Hbyte. unfold store_block_log, dsm_block_bytes.
  assert (Hn : 0 <= b_num b < 16) by (unfold b_num; lia).
  set (n := Z.to_nat (b_num b)). assert (Hn' : (n < 16)%nat) by lia. assert (En : Z.of_nat n = b_num b) by lia.
  destruct (Hh n Hn') as (Hv & Hd).
  apply says_lbind; [apply says_quiet|]. intros sec Es. rewrite plain_quiet, slice_in in Es by lia.
  assert (Esec : sec = sub (n * 13) (n * 13 + 13) (cd_dsm st)) by congruence. subst sec. clear Es.
  apply says_lbind; [apply says_quiet|]. intros v Ev. rewrite plain_quiet in Ev. unfold index in Ev. rewrite Hv in Ev. injection Ev as <-.
  destruct (first_copy n _) as [c|] eqn:Ec; cbn [is_some].
  - replace (n * 13)%nat with (13 * n)%nat by lia. rewrite (Hd c eq_refl).
    destruct (bytes_eqb (b_data c) (b_data b)) eqn:E; cbn [negb].
    + apply bytes_eqb_eq in E. apply says_lbind; [|intros; apply says_done]. apply says_log. intros m Hm. injection Hm as <-.
      cbn [dsm_claim]. split; [exact En|]. exists c. auto.
    + apply says_lbind; [|intros; apply says_done]. apply says_log. intros m Hm. injection Hm as <-.
      cbn [dsm_claim]. split; [exact En|]. split; [reflexivity|]. split; [|exists c; auto].
      intros Hx. rewrite (proj2 (bytes_eqb_eq _ _) Hx) in E. discriminate E.
  - apply says_lbind; [apply says_quiet|]. intros d _. apply says_lbind; [apply says_quiet|]. intros bv _.
    apply says_lbind; [|intros; apply says_done]. apply says_log. intros m Hm. injection Hm as <-.
    cbn [dsm_claim]. split; [exact En|exact Ec].
Qed.

Lemma missing_count run l n : length l = 16%nat -> (n <= 16)%nat ->
  (forall i, (i < 16)%nat -> nth_error l i = Some (is_some (first_copy i run))) ->
  length (filter negb (sub 0 n l)) = blocks_missing n run.
Proof.
  intros Hl Hn H. unfold blocks_missing.
  assert (E : sub 0 n l = map (fun i => is_some (first_copy i run)) (seq 0 n)).
  { apply nth_error_ext. intros i. rewrite nth_error_map. destruct (Nat.lt_ge_cases i n) as [Hi|Hi].
    - rewrite (nth_error_nth' (seq 0 n) 0%nat) by (rewrite seq_length; lia). rewrite seq_nth by lia.
      rewrite nth_error_sub. cbn [option_map Nat.add]. replace (i <? n - 0)%nat with true by lia. apply H. lia.
    - rewrite (proj2 (nth_error_None _ _)) by (rewrite length_sub; lia).
      rewrite (proj2 (nth_error_None (seq 0 n) i)) by (rewrite seq_length; lia). reflexivity. }
  rewrite E. clear. induction (seq 0 n) as [|i l IH]; [reflexivity|]. cbn [map filter].
  destruct (first_copy i run); cbn [is_some negb length]; rewrite IH; reflexivity.
Qed.

Lemma done_and_size_line bl st b : length (cd_dsm st) = 208%nat -> length (cd_block_valid st) = 16%nat ->
  Forall block_ok (dsm_run_for (dsm_run bl) b ++ [b]) -> holds_run (dsm_run_for (dsm_run bl) b ++ [b]) st -> 0 <= b_dsm b ->
  says (dsm_claim bl b) (done_and_size_log mx st (if 12 <=? b_dsm b then DsmPkr else DsmKroot)).
Proof.
  intros Hl Hl2 Hok Hh Hid. unfold done_and_size_log. set (run := dsm_run_for (dsm_run bl) b ++ [b]) in *.
  destruct (Hh 0%nat ltac:(lia)) as (Hv0 & Hd0).
  apply says_lbind; [apply says_quiet|]. intros v Ev. rewrite plain_quiet in Ev. unfold index in Ev. rewrite Hv0 in Ev. injection Ev as <-.
  destruct (first_copy 0 run) as [b0|] eqn:E0; cbn [is_some negb].
  2:{ apply says_lbind; [|intros; apply says_done]. apply says_log. intros m Hm. injection Hm as <-. exact E0. }
  apply first_copy_in in E0 as Hin. destruct Hin as (Hin & Enum).
  assert (Hb0 : length (b_data b0) = 13%nat) by (rewrite Forall_forall in Hok; now apply Hok).
  assert (Hbyte : nth_error (cd_dsm st) 0 = Some (nth 0 (b_data b0) 0)).
  { rewrite <- (Hd0 b0 eq_refl). cbn [Nat.mul Nat.add].
    rewrite <- (nth_error_nth' (sub 0 13 (cd_dsm st)) 0) by (rewrite length_sub; lia).
    rewrite nth_error_sub. reflexivity. }
  apply says_lbind; [apply says_quiet|]. intros v Ev. rewrite plain_quiet in Ev. unfold index in Ev. rewrite Hbyte in Ev. injection Ev as <-.
  cbv zeta. apply says_lbind.
  - unfold dsm_number_of_blocks_log. rewrite blocks_needed_eq by auto.
    destruct (blocks_needed (b_dsm b) (nth 0 (b_data b0) 0)) as [n|] eqn:En; cbn [is_none].
    + apply says_lbind; [apply says_done|intros; apply says_done].
    + apply says_lbind; [|intros; apply says_done]. apply says_log. intros m Hm. injection Hm as <-. cbn [dsm_claim]. cbv zeta. fold run.
      exists b0. split; [exact E0|]. split; [rewrite Z.shiftr_div_pow2 by lia; reflexivity|]. split; [exact En|].
      unfold is_pkr. destruct (12 <=? b_dsm b); split; congruence.
  - intros a Ea. unfold dsm_number_of_blocks_log in Ea.
    rewrite blocks_needed_eq in Ea by auto.
    assert (Ea' : a = blocks_needed (b_dsm b) (nth 0 (b_data b0) 0)).
    { destruct (blocks_needed _ _); cbn [is_none] in Ea; rewrite plain_lbind in Ea; [rewrite plain_done in Ea|rewrite plain_log in Ea];
        cbn [bind] in Ea; rewrite plain_done in Ea; congruence. }
    clear Ea. destruct a as [n|]; [|apply says_done].
    pose proof (blocks_needed_range _ _ _ (eq_sym Ea')) as Hn.
    apply says_lbind; [apply says_quiet|]. intros first Ef. rewrite plain_quiet, slice_in in Ef by lia. injection Ef as <-.
    apply says_lbind; [|intros; apply says_done]. apply says_log. intros m Hm. injection Hm as <-. cbn [dsm_claim]. cbv zeta. fold run.
    exists b0. split; [exact E0|]. split; [now symmetry|]. apply missing_count; [exact Hl2|lia|]. intros i Hi. exact (proj1 (Hh i Hi)).
Qed.

Lemma dsm_feed_lines bl st b : Forall block_ok bl -> block_ok b -> represents_dsm (dsm_run bl) st ->
  says (dsm_claim bl b) (dsm_feed_log mx st (b_header b) (b_data b)).
Proof.
  intros Hok Hb Hrep. pose proof Hb as (Hbyte & Hblen). unfold dsm_feed_log.
  pose proof (dsm_started bl st b Hb Hrep) as Hst. pose proof (started_done bl st b Hb Hrep) as Hsd. cbv zeta in Hsd.
  assert (Hok2 : Forall block_ok (dsm_run_for (dsm_run bl) b)).
  { apply Forall_forall. intros x Hx. apply dsm_run_for_in in Hx. rewrite Forall_forall in Hok. apply Hok. apply Hx. }
  assert (Hid0 : 0 <= b_dsm b) by (unfold b_dsm, is_byte in *; lia).
  apply says_lbind.
  { apply says_log. intros m Hm. injection Hm as <-. cbn [dsm_claim]. rewrite dsm_id_div, dsm_block_id_mod by auto. auto. }
  intros _ _.
  set (st1 := if _ || _ then _ else st) in Hst, Hsd.
  assert (H1 : says (dsm_claim bl b) (if negb (dsm_id (b_header b) =? cd_id st) || match cd_type st with None => true | Some _ => false end
     then log mx LInfo (Ok (LgNewDsm (dsm_id (b_header b)) (cd_id st))) >>>
          done (mkCollectDsm (cd_dsm st) (repeat false max_dsm_blocks) false (Some (dsm_type (b_header b))) (dsm_id (b_header b)))
     else done st) /\
     forall s, plain (if negb (dsm_id (b_header b) =? cd_id st) || match cd_type st with None => true | Some _ => false end
     then log mx LInfo (Ok (LgNewDsm (dsm_id (b_header b)) (cd_id st))) >>>
          done (mkCollectDsm (cd_dsm st) (repeat false max_dsm_blocks) false (Some (dsm_type (b_header b))) (dsm_id (b_header b)))
     else done st) = Ok s -> s = st1).
  { unfold st1. destruct (_ || _) eqn:Enew.
    - split.
      + apply says_lbind; [|intros; apply says_done]. apply says_log. intros m Hm. injection Hm as <-. cbn [dsm_claim]. cbv zeta.
        rewrite dsm_id_div in * by auto. fold (b_dsm b) in *. split; [reflexivity|]. intros l c E.
        destruct (last_block _ _ _ E) as (r & run & Er & Ec). destruct Hrep as (_ & _ & Hrep). rewrite Er in Hrep.
        destruct Hrep as (Hid & Ht & _). rewrite Hid, Ht, orb_false_r in Enew. rewrite Hid. split; [exact Ec|]. lia.
      + intros s Hs. rewrite plain_lbind, plain_log in Hs. cbn [bind] in Hs. rewrite plain_done in Hs. congruence.
    - split; [apply says_done|]. intros s Hs. change (Ok st = Ok s) in Hs. congruence. }
  clearbody st1. apply says_lbind; [exact (proj1 H1)|]. intros s Es. apply (proj2 H1) in Es. subst s. clear H1.
  destruct Hst as (Hl1 & Hl2 & Ht & Hh). destruct Hsd as (Hid1 & Hdone).
  apply says_lbind; [apply says_quiet|]. intros ty Ety. rewrite plain_quiet, Ht in Ety. injection Ety as <-.
  destruct (cd_done st1) eqn:Ed.
  { apply says_lbind; [|intros; apply says_done]. apply says_log. intros m Hm. injection Hm as <-. cbn [dsm_claim].
    destruct (complete_dsm _ _) as [d|]; [now exists d|discriminate Hdone]. }
  assert (Hinc : complete_dsm (b_dsm b) (dsm_run_for (dsm_run bl) b) = None).
  { destruct (complete_dsm _ _); [discriminate Hdone|reflexivity]. }
  specialize (Hh eq_refl). rewrite dsm_block_id_mod by auto. fold (b_num b).
  apply says_lbind; [now apply store_block_line|].
  intros st2 E2. rewrite store_block_plain in E2.
  destruct (store_block_spec _ st1 b Hl1 Hl2 Hh Hb) as (st2' & E2' & G1 & G2 & G3 & G4 & G5 & G6). rewrite E2 in E2'. injection E2' as <-.
  assert (Hok3 : Forall block_ok (dsm_run_for (dsm_run bl) b ++ [b])) by (apply Forall_app; auto).
  apply says_lbind; [now apply done_and_size_line|].
  intros size Esz. rewrite done_and_size_plain in Esz.
  destruct (done_and_size_spec _ st2 (b_dsm b) G1 G2 Hok3 G6 Hid0) as (r & Er & Hr). rewrite Er in Esz.
  assert (r = size) by congruence. subst r.
  destruct size as [size|]; [|apply says_done].
  destruct (complete_dsm (b_dsm b) (dsm_run_for (dsm_run bl) b ++ [b])) as [d|] eqn:Ecd; [|discriminate Hr].
  destruct Hr as (n & En & Hsl). assert (n = size) by congruence. subst n.
  apply says_lbind.
  { apply says_log. intros m Hm. injection Hm as <-. cbn [dsm_claim]. cbv zeta. rewrite G5, Hid1. split; [reflexivity|]. exists d.
    split; [exact Hinc|]. split; [exact Ecd|]. apply slice_ok in Hsl. destruct Hsl as (S1 & S2 & ->). rewrite length_sub; lia. }
  intros _ _. apply says_lbind; [apply says_quiet|]. intros data Edata. rewrite plain_quiet, Hsl in Edata.
  assert (data = d) by congruence. subst data.
  apply says_lbind; [|intros; apply says_done]. apply says_log. intros m Hm. injection Hm as <-. cbn [dsm_claim]. cbv zeta. auto.
Qed.

(** ** The MACK storage *)

Lemma dsm_feed_macks st hd b : says (fun m => about_mack_storage m = false) (dsm_feed_log mx st hd b).
Proof.
  unfold dsm_feed_log, store_block_log, done_and_size_log, dsm_number_of_blocks_log. repeat (says1; cbv beta);
    match goal with H : Ok _ = Ok ?m |- _ => injection H as <-; reflexivity end.
Qed.

Lemma macks_received_items ws : macks_received ws = items_received ws.
Proof. reflexivity. Qed.

Lemma last_stretch its gs g l : stretches its = gs ++ [(g, l)] -> exists its' i, its = its' ++ [i] /\ it_gst i = g.
Proof.
  intros E. destruct its as [|x its _] using rev_ind; [destruct gs; discriminate E|]. exists its, x. split; [reflexivity|].
  rewrite stretches_snoc in E. destruct (stretches its) as [|(g1 & l1) gs1 _] using rev_ind.
  - unfold push_item in E. cbn [rev] in E. change ([(it_gst x, [x])]) with ([] ++ [(it_gst x, [x])]) in E.
    apply app_inj_tail in E. destruct E as (_ & E). congruence.
  - rewrite push_item_snoc in E. destruct (gst_eqb g1 (it_gst x)) eqn:Eg.
    + apply app_inj_tail in E. destruct E as (_ & E). apply gst_eqb_eq in Eg. congruence.
    + apply app_inj_tail in E. destruct E as (_ & E). congruence.
Qed.

Lemma mack_store_lines its st mk svn g s : represents_ms (stretches its) st ->
  says (mack_claim its mk svn g) (mack_store_log mx st mk svn g s).
Proof.
  intros Hrep. pose proof Hrep as (Hm & Hg & Hwp & Hr). destruct (ms_sizes HS) as (Hs & Hd & Hds).
  pose proof (Nat.mod_upper_bound (length (stretches its) - 1) mack_depth ltac:(lia)) as Hlt.
  unfold mack_store_log. apply says_lbind.
  - unfold mack_adjust_log. apply says_lbind; [apply says_quiet|]. intros cur Ecur. rewrite plain_quiet in Ecur. apply index_ok in Ecur.
    pose proof (nth_error_nth _ _ None Ecur) as Ecur'.
    apply says_lbind.
    + destruct cur as [g0|]; [|apply says_done]. destruct (gst_eqb g0 g) eqn:Eg; cbn [negb]; [apply says_done|].
      apply says_lbind.
      * apply says_log. intros m Hx. injection Hx as <-. cbn [mack_claim]. split; [reflexivity|].
        split; [intros ->; rewrite (proj2 (gst_eqb_eq g g) eq_refl) in Eg; discriminate Eg|].
        destruct (stretches its) as [|(g1, l) gs _] eqn:Est using rev_ind.
        { cbn [length Nat.sub] in *. rewrite Nat.mod_0_l in * by lia.
          assert (Hz : ms_get st 0 = (None, repeat None num_sats)) by (apply (proj2 Hr); cbn [map length]; lia).
          unfold ms_get in Hz. apply pair_equal_spec in Hz. destruct Hz as (Hz & _). rewrite Hwp in *. congruence. }
        rewrite app_length in *. cbn [length] in *. rewrite Nat.add_sub in *. rewrite map_app in Hr. cbn [map] in Hr.
        assert (Hcur : ms_get st (ms_wp st) = (Some g1, row_of_items l)).
        { destruct Hr as (Hr & _). rewrite Hwp. apply Hr.
          - rewrite nth_error_app2 by (rewrite map_length; lia). rewrite map_length, Nat.sub_diag. reflexivity.
          - rewrite app_length, map_length. cbn [length]. lia. }
        unfold ms_get in Hcur. apply pair_equal_spec in Hcur. destruct Hcur as (Hcg & _).
        assert (g1 = g0) by congruence. subst g1. exact (last_stretch _ _ _ _ Est).
      * intros _ _. cbv zeta. apply says_lbind; [apply says_quiet|]. intros; apply says_done.
    + intros st2 _. apply says_lbind; [apply says_quiet|]. intros; apply says_done.
  - intros st1 E. rewrite mack_adjust_plain in E. cbv zeta. apply says_lbind; [apply says_quiet|]. intros r E'. rewrite plain_quiet in E'.
    assert (Hpos : position is_none r = None <-> (num_sats <= length (macks_now its g))%nat).
    { assert (Hroom : (length (macks_now its g) < num_sats)%nat -> position is_none r <> None).
      { intros Hl. destruct (mack_adjust_row HS _ st g st1 Hrep E) as (r' & Er & Hp).
        - intros gs' l Est. unfold macks_now in Hl. rewrite Est, rev_app_distr in Hl. cbn [rev app] in Hl.
          rewrite (proj2 (gst_eqb_eq g g) eq_refl) in Hl. exact Hl.
        - assert (r' = r) by congruence. now subst r'. }
      split; [intros Hn; destruct (Nat.le_gt_cases num_sats (length (macks_now its g))) as [Hle|Hgt]; [exact Hle|elim (Hroom Hgt Hn)]|].
      intros Hle. destruct (stretches its) as [|(g0, l) gs _] eqn:Est using rev_ind.
      { unfold macks_now in Hle. rewrite Est in Hle. cbn [rev length] in Hle. lia. }
      unfold macks_now in Hle. rewrite Est, rev_app_distr in Hle. cbn [rev app] in Hle.
      destruct (gst_eqb g0 g) eqn:Eg; [|cbn [length] in Hle; lia].
      rewrite app_length in *. cbn [length] in *. rewrite Nat.add_sub in *. rewrite map_app in Hr. cbn [map] in Hr.
      assert (Hcur : ms_get st (ms_wp st) = (Some g0, row_of_items l)).
      { destruct Hr as (Hr & _). rewrite Hwp. apply Hr.
        - rewrite nth_error_app2 by (rewrite map_length; lia). rewrite map_length, Nat.sub_diag. reflexivity.
        - rewrite app_length, map_length. cbn [length]. lia. }
      unfold ms_get in Hcur. apply pair_equal_spec in Hcur. destruct Hcur as (Hcg & Hcr).
      unfold mack_adjust in E. destruct (index_in (ms_gsts st) (ms_wp st)) as (cur & Ecur); [lia|].
      rewrite Ecur in E. cbn [bind] in E. apply index_ok in Ecur. pose proof (nth_error_nth _ _ None Ecur) as Ecur'.
      assert (Hcu : cur = Some g0) by congruence. rewrite Hcu in E. cbv beta iota in E. rewrite Eg in E. cbn [negb bind] in E.
      rewrite set_index_in in E by lia. cbn [bind ms_macks ms_wp] in E.
      assert (Est1 : st1 = mkMackStorage (ms_macks st) (put (ms_wp st) [Some g] (ms_gsts st)) (ms_wp st)) by congruence.
      assert (E1 : ms_macks st1 = ms_macks st /\ ms_wp st1 = ms_wp st) by (rewrite Est1; split; reflexivity). destruct E1 as (E1 & E2).
      rewrite E1, E2, (row_slice _ mack_depth) in E' by (auto; lia).
      assert (r = row_of_items l) by congruence. subst r. rewrite row_of_items_position.
      replace (length l <? num_sats)%nat with false by lia. reflexivity. }
    destruct (position is_none r) as [i|].
    + apply says_lbind.
      * apply says_log. intros m Hx. injection Hx as <-. cbn [mack_claim]. repeat (split; [reflexivity|]).
        destruct (Nat.le_gt_cases num_sats (length (macks_now its g))) as [Hle|Hgt]; [|exact Hgt]. apply Hpos in Hle. discriminate Hle.
      * intros _ _. apply says_lbind; [apply says_quiet|]. intros ? _. apply says_lbind; [apply says_quiet|]. intros; apply says_done.
    + apply says_lbind; [|intros; apply says_done]. apply says_log. intros m Hx. injection Hx as <-. cbn [mack_claim].
      repeat (split; [reflexivity|]). now apply Hpos.
Qed.

(** ** The whole receiver *)

Variables (root : option (list Z)) (user : option public_key) (slow : bool).
Notation new := (osnma_new root user slow).

Theorem dsm_lines h o x ls o' l m : Forall op_ok (h ++ [x]) -> run new h = Ok o -> step_log mx o x = Ok (ls, o') ->
  In (l, m) ls -> about_dsm m = true ->
  exists hk mk g, completes h x hk mk g /\ dsm_claim (blocks_received (osnma_words h)) (block_of hk) m.
Proof.
  intros Hok' Hr Hs Hin Hm.
  enough (H : says (fun m => about_dsm m = true -> exists hk mk g, completes h x hk mk g /\
      dsm_claim (blocks_received (osnma_words h)) (block_of hk) m) (step_log mx o x)) by exact (H _ _ Hs l m Hin Hm).
  clear Hs Hin Hm ls o' l m.
  assert (Hoth : forall (A : Type) (y : logging A), others y -> says (fun m => about_dsm m = true -> exists hk mk g, completes h x hk mk g /\
      dsm_claim (blocks_received (osnma_words h)) (block_of hk) m) y).
  { intros A y Hy ls a E l m Hin Hm. destruct (Hy ls a E l m Hin) as (X & _). congruence. }
  destruct x as [word svn g b|data svn gk]; cbn [step_log]; [apply Hoth, feed_inav_others|].
  set (x := FeedOsnma data svn gk) in *.
  pose proof Hok' as Hok2. apply Forall_app in Hok2. destruct Hok2 as (Hok & Hx). apply Forall_cons_iff in Hx. destruct Hx as (Hx & _).
  pose proof (run_inv HC HS root user slow h Hok _ Hr) as Hinv.
  unfold feed_osnma_log. destruct (forallb (fun x => x =? 0) data) eqn:Ez; [apply says_done|].
  assert (Ez' : forallb (Z.eqb 0) data = false).
  { rewrite <- Ez. clear. induction data as [|y l IH]; cbn [forallb]; [reflexivity|]. now rewrite IH, Z.eqb_sym. }
  apply says_lbind; [apply Hoth, subframe_feed_others|]. intros (sf & r) E. rewrite subframe_feed_plain in E.
  destruct r as [((hk & mk) & g)|]; [|apply says_done]. cbv zeta.
  assert (Hc : completes h x hk mk g).
  { exact (fed_completes root slow user h o data svn gk sf hk mk g Hok Hx Hinv Ez' E). }
  destruct (subframe_fed root user slow h o data svn gk sf _ Hok Hx Hinv Ez E) as (Hrest & Hrec).
  destruct (Hrec _ _ _ eq_refl) as (Hsf & _). clear Hrec.
  destruct (subframe_received_bytes _ _ _ _ _ Hok' Hsf) as ((Hlen & Hhk) & _).
  destruct (run_exact_dsm HC HS root user slow h Hok o Hr) as (Hd1 & Hd2).
  assert (Hbok : block_ok (block_of hk)).
  { split; [|cbn [block_of b_data]; rewrite skipn_length; lia]. rewrite Forall_forall in Hhk. apply Hhk, nth_In. lia. }
  unfold process_subframe_log.
  assert (E0 : index hk 0 = Ok (nth 0 hk 0)) by (apply index_ok, nth_error_nth'; lia).
  assert (E1 : index hk 1 = Ok (nth 1 hk 0)) by (apply index_ok, nth_error_nth'; lia).
  rewrite E0, E1. apply says_lbind; [apply says_quiet|]. intros hd Ehd. rewrite plain_quiet in Ehd. injection Ehd as <-.
  apply says_lbind.
  { intros ls a Els l m Hin Hm. pose proof (mack_store_dsm _ _ _ _ _ _ _ Els l m Hin) as X. cbv beta in X. congruence. }
  intros ms _. cbv zeta.
  apply says_lbind; [apply says_quiet|]. intros hd Ehd. rewrite plain_quiet in Ehd. injection Ehd as <-.
  cbn [set_mack set_sub o_dsm].
  apply says_lbind.
  { intros ls a Els l m Hin _. exists hk, mk, g. split; [exact Hc|].
    exact (dsm_feed_lines _ (o_dsm o) (block_of hk) Hd2 Hbok Hd1 ls a Els l m Hin). }
  intros (cd, d) _. cbv zeta.
  apply says_lbind; [destruct d; [apply Hoth, process_dsm_others|apply says_done]|].
  intros o2 _. apply Hoth, validate_key_others.
Qed.


Theorem mack_lines h o x ls o' l m : Forall op_ok (h ++ [x]) -> run new h = Ok o -> step_log mx o x = Ok (ls, o') ->
  In (l, m) ls -> about_mack_storage m = true ->
  exists hk mk g, completes h x hk mk g /\ mack_claim (macks_received (osnma_words h)) mk (op_svn x) g m.
Proof.
  intros Hok' Hr Hs Hin Hm.
  enough (H : says (fun m => about_mack_storage m = true -> exists hk mk g, completes h x hk mk g /\
      mack_claim (macks_received (osnma_words h)) mk (op_svn x) g m) (step_log mx o x)) by exact (H _ _ Hs l m Hin Hm).
  clear Hs Hin Hm ls o' l m.
  assert (Hoth : forall (A : Type) (y : logging A), others y -> says (fun m => about_mack_storage m = true -> exists hk mk g, completes h x hk mk g /\
      mack_claim (macks_received (osnma_words h)) mk (op_svn x) g m) y).
  { intros A y Hy ls a E l m Hin Hm. destruct (Hy ls a E l m Hin) as (_ & X). congruence. }
  destruct x as [word svn g b|data svn gk]; cbn [step_log]; [apply Hoth, feed_inav_others|].
  set (x := FeedOsnma data svn gk) in *.
  pose proof Hok' as Hok2. apply Forall_app in Hok2. destruct Hok2 as (Hok & Hx). apply Forall_cons_iff in Hx. destruct Hx as (Hx & _).
  pose proof (run_inv HC HS root user slow h Hok _ Hr) as Hinv.
  unfold feed_osnma_log. destruct (forallb (fun x => x =? 0) data) eqn:Ez; [apply says_done|].
  assert (Ez' : forallb (Z.eqb 0) data = false).
  { rewrite <- Ez. clear. induction data as [|y l IH]; cbn [forallb]; [reflexivity|]. now rewrite IH, Z.eqb_sym. }
  apply says_lbind; [apply Hoth, subframe_feed_others|]. intros (sf & r) E. rewrite subframe_feed_plain in E.
  destruct r as [((hk & mk) & g)|]; [|apply says_done]. cbv zeta.
  assert (Hc : completes h x hk mk g).
  { exact (fed_completes root slow user h o data svn gk sf hk mk g Hok Hx Hinv Ez' E). }
  destruct (subframe_fed root user slow h o data svn gk sf _ Hok Hx Hinv Ez E) as (Hrest & Hrec).
  destruct (Hrec _ _ _ eq_refl) as (Hsf & _). clear Hrec.
  destruct (subframe_received_bytes _ _ _ _ _ Hok' Hsf) as ((Hlen & Hhk) & _).
  pose proof (run_exact_mack HS HC root user slow h Hok o Hr) as Hms.
  unfold process_subframe_log.
  assert (E0 : index hk 0 = Ok (nth 0 hk 0)) by (apply index_ok, nth_error_nth'; lia).
  assert (E1 : index hk 1 = Ok (nth 1 hk 0)) by (apply index_ok, nth_error_nth'; lia).
  rewrite E0, E1. apply says_lbind; [apply says_quiet|]. intros hd Ehd. rewrite plain_quiet in Ehd. injection Ehd as <-.
  apply says_lbind.
  { intros ls a Els l m Hin _. exists hk, mk, g. split; [exact Hc|].
    exact (mack_store_lines _ _ mk svn g _ Hms ls a Els l m Hin). }
  intros ms _. cbv zeta.
  apply says_lbind; [apply says_quiet|]. intros hd Ehd. rewrite plain_quiet in Ehd. injection Ehd as <-.
  apply says_lbind.
  { intros ls a Els l m Hin Hm. pose proof (dsm_feed_macks _ _ _ _ _ Els l m Hin) as X. cbv beta in X. congruence. }
  intros (cd, d) _. cbv zeta.
  apply says_lbind; [destruct d; [apply Hoth, process_dsm_others|apply says_done]|].
  intros o2 _. apply Hoth, validate_key_others.
Qed.

End Crypto.

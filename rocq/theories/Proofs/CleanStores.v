(** No warnings from the stores of MACK messages and DSM blocks. *)
From Coq Require Import ZArith List Bool Lia ZifyBool ZifyNat.
From Verif Require Import Model.Prelude Model.Params Model.Gst Model.Svn Model.Bitfields
  Model.Maclt Model.Tesla Model.Merkle Model.Subframe Model.Dsm Model.MackStore Model.Nav Model.Osnma
  Model.Logging
  Spec.TimeSpec Spec.CollectSpec Spec.StoreSpec Spec.NavSpec Spec.TeslaSpec Spec.KrootSpec
  Spec.MerkleSpec Spec.MacltSpec Spec.KeySpec Spec.SystemSpec Spec.StoredSpec Spec.CompleteSpec Spec.PanicSpec
  Spec.LogSpec Spec.HonestSpec Spec.CleanSpec
  Proofs.Base Proofs.Ring Proofs.Rows Proofs.GstProofs Proofs.LayoutProofs Proofs.SubframeProofs Proofs.DsmProofs
  Proofs.MackProofs Proofs.LoggingProofs Proofs.LogTrueProofs Proofs.CleanTags.
Import ListNotations.
Open Scope Z_scope.
Ltac Zify.zify_post_hook ::= Z.div_mod_to_equations.

Section Crypto.
Context {C : crypto} {B : build} {S : storage}.
Hypothesis HS : storage_ok S.

Lemma feed_inav_hushed o w svn g b : hushed (feed_inav_log W o w svn g b).
Proof.
  unfold hushed, feed_inav_log, nav_feed_log, nav_adjust_log, nav_feed_kind_log, entry_feed_log, ced_feed_log, timing_feed_log,
    log_contents, log_word, log_age. hush.
Qed.

Lemma subframe_feed_hushed st d svn g : hushed (subframe_feed_log W st d svn g).
Proof. unfold hushed, subframe_feed_log. hush. Qed.

(** ** MACK messages *)

Lemma mack_adjust_hushed st g : hushed (mack_adjust_log W st g).
Proof. unfold hushed, mack_adjust_log. hush. Qed.

Lemma empty_position : position is_none (repeat (@None stored_mack) num_sats) <> None.
Proof. destruct (ms_sizes HS) as (Hs & _). destruct num_sats; [lia|]. cbn. discriminate. Qed.

(** There is room in the row of the subframe [g]. *)
Lemma mack_adjust_row gs st g st1 : represents_ms gs st -> mack_adjust st g = Ok st1 ->
  (forall gs' l, gs = gs' ++ [(g, l)] -> (length l < num_sats)%nat) ->
  exists r, slice (ms_macks st1) (ms_wp st1 * num_sats) ((ms_wp st1 + 1) * num_sats) = Ok r /\ position is_none r <> None.
Proof.
  intros (Hm & Hg & Hwp & Hr) H Hroom. destruct (ms_sizes HS) as (Hs & Hd & Hds).
  unfold mack_adjust in H.
  pose proof (Nat.mod_upper_bound (length gs - 1) mack_depth ltac:(lia)) as Hlt.
  destruct (index_in (ms_gsts st) (ms_wp st)) as (cur & Ecur); [lia|].
  rewrite Ecur in H. cbn [bind] in H. apply index_ok in Ecur.
  pose proof (nth_error_nth _ _ None Ecur) as Ecur'.
  destruct gs as [|(g0, l) gs _] using rev_ind.
  - cbn [length Nat.sub] in *. rewrite Nat.mod_0_l in * by lia.
    assert (Hz : ms_get st 0 = (None, repeat None num_sats)).
    { destruct Hr as (_ & Hr). apply Hr. cbn [map length]. lia. }
    unfold ms_get in Hz. injection Hz as Hz1 Hz2.
    rewrite Hwp in *. assert (cur = None) as -> by congruence. cbn [bind] in H.
    rewrite set_index_in in H by lia. cbn [bind ms_macks ms_wp] in H. injection H as <-. cbn [ms_macks ms_wp].
    rewrite Hwp, (row_slice _ mack_depth) by (auto; lia). eexists. split; [reflexivity|]. rewrite Hz2. apply empty_position.
  - rewrite app_length in *. cbn [length] in *. rewrite Nat.add_sub in *.
    rewrite map_app in Hr. cbn [map] in Hr.
    assert (Hcur : ms_get st (ms_wp st) = (Some g0, row_of_items l)).
    { destruct Hr as (Hr & _). rewrite Hwp. apply Hr.
      - rewrite nth_error_app2 by (rewrite map_length; lia).
        rewrite map_length, Nat.sub_diag. reflexivity.
      - rewrite app_length, map_length. cbn [length]. lia. }
    unfold ms_get in Hcur. injection Hcur as Hcg Hcr.
    assert (cur = Some g0) as -> by congruence.
    destruct (gst_eqb g0 g) eqn:Eg; cbn [negb bind] in H.
    + apply gst_eqb_eq in Eg. subst g0.
      rewrite set_index_in in H by lia. cbn [bind ms_macks ms_wp] in H. injection H as <-. cbn [ms_macks ms_wp].
      rewrite (row_slice _ mack_depth) by (auto; lia). eexists. split; [reflexivity|]. rewrite Hcr, row_of_items_position.
      pose proof (Hroom gs l eq_refl). replace (length l <? num_sats)%nat with true by lia. discriminate.
    + pose proof (Nat.mod_upper_bound (ms_wp st + 1) mack_depth ltac:(lia)) as Hlt1.
      set (wp1 := ((ms_wp st + 1) mod mack_depth)%nat) in *.
      rewrite (row_copy num_sats mack_depth) in H by (rewrite ?repeat_length; auto; lia).
      cbn [bind ms_gsts ms_wp ms_macks] in H. rewrite set_index_in in H by lia. cbn [bind ms_macks ms_wp] in H.
      injection H as <-. cbn [ms_macks ms_wp].
      assert (Hlen : length (put (wp1 * num_sats) (repeat None num_sats) (ms_macks st)) = (num_sats * mack_depth)%nat)
        by (apply length_put_row; auto; now rewrite repeat_length).
      rewrite (row_slice _ mack_depth) by (auto; lia). eexists. split; [reflexivity|].
      rewrite (row_put num_sats mack_depth) by (rewrite ?repeat_length; auto; lia). rewrite Nat.eqb_refl. apply empty_position.
Qed.

Lemma mack_store_hushed gs st mk svn g s : represents_ms gs st ->
  (forall gs' l, gs = gs' ++ [(g, l)] -> (length l < num_sats)%nat) ->
  hushed (mack_store_log W st mk svn g s).
Proof.
  intros Hrep Hroom. unfold mack_store_log. apply says_lbind; [apply mack_adjust_hushed|]. intros st1 E.
  rewrite mack_adjust_plain in E. destruct (mack_adjust_row gs st g st1 Hrep E Hroom) as (r & Er & Hpos).
  cbv zeta. apply says_lbind; [apply says_quiet|]. intros r' E'. rewrite plain_quiet, Er in E'. injection E' as <-.
  destruct (position is_none r); [|congruence]. hush.
Qed.

(** ** DSM blocks *)

(** After the first part of [CollectDsm::feed]. *)
Definition started (before : list block) (b : block) (st1 : collect_dsm) : Prop :=
  length (cd_dsm st1) = 208%nat /\ length (cd_block_valid st1) = 16%nat /\
  cd_type st1 = Some (if 12 <=? b_dsm b then DsmPkr else DsmKroot) /\
  (cd_done st1 = false -> holds_run before st1).

Lemma dsm_started h st b : block_ok b -> represents_dsm (dsm_run h) st ->
  started (dsm_run_for (dsm_run h) b) b
    (if negb (dsm_id (b_header b) =? cd_id st) || match cd_type st with None => true | Some _ => false end
     then mkCollectDsm (cd_dsm st) (repeat false max_dsm_blocks) false (Some (dsm_type (b_header b))) (dsm_id (b_header b))
     else st).
Proof.
  intros (Hbyte & _) (Hl1 & Hl2 & Hrep). unfold dsm_type. rewrite dsm_id_div by auto. fold (b_dsm b).
  assert (Hreset : dsm_run_for (dsm_run h) b = [] -> started (dsm_run_for (dsm_run h) b) b
    (mkCollectDsm (cd_dsm st) (repeat false max_dsm_blocks) false (Some (if 12 <=? b_dsm b then DsmPkr else DsmKroot)) (b_dsm b))).
  { intros ->. unfold started. cbn [cd_dsm cd_block_valid cd_type cd_done]. split; [exact Hl1|]. split; [reflexivity|]. split; [reflexivity|].
    intros _ n Hn. cbn [cd_block_valid first_copy find is_some cd_dsm]. split; [|discriminate].
    change max_dsm_blocks with 16%nat. rewrite nth_error_repeat by lia. reflexivity. }
  destruct (dsm_run h) as [|r run] eqn:Erun.
  - rewrite Hrep, orb_true_r. apply Hreset. reflexivity.
  - destruct Hrep as (Hid & Ht & Hd & Hh). rewrite Hid, Ht, orb_false_r. unfold dsm_run_for in *.
    destruct (b_dsm r =? b_dsm b) eqn:E.
    + replace (b_dsm b =? b_dsm r) with true by lia. cbn [negb]. unfold started. split; [exact Hl1|]. split; [exact Hl2|].
      split; [|exact Hh]. replace (b_dsm b) with (b_dsm r) by lia. exact Ht.
    + replace (b_dsm b =? b_dsm r) with false by lia. cbn [negb]. apply Hreset. reflexivity.
Qed.

Lemma store_block_hushed before st b : length (cd_dsm st) = 208%nat -> holds_run before st -> block_ok b ->
  (forall c, In c before -> b_num c = b_num b -> b_data c = b_data b) ->
  hushed (store_block_log W st (b_num b) (b_data b)).
Proof.
  intros Hl Hh (Hbyte & Hlen) Hsame. unfold is_byte in Hbyte. unfold store_block_log, dsm_block_bytes.
  assert (Hn : 0 <= b_num b < 16) by (unfold b_num; lia).
  set (n := Z.to_nat (b_num b)). assert (Hn' : (n < 16)%nat) by lia.
  destruct (Hh n Hn') as (Hv & Hd).
  apply says_lbind; [apply says_quiet|]. intros sec Es. rewrite plain_quiet, slice_in in Es by lia.
  assert (Esec : sec = sub (n * 13) (n * 13 + 13) (cd_dsm st)) by congruence. subst sec. clear Es.
  apply says_lbind; [apply says_quiet|]. intros v Ev. rewrite plain_quiet in Ev. unfold index in Ev. rewrite Hv in Ev. injection Ev as <-.
  destruct (first_copy n before) as [c|] eqn:Ec; cbn [is_some]; [|hush].
  apply first_copy_in in Ec as Hc. destruct Hc as (Hc & Enum).
  replace (n * 13)%nat with (13 * n)%nat by lia. rewrite (Hd c eq_refl), (Hsame c Hc ltac:(lia)).
  rewrite bytes_eqb_refl. cbn [negb]. hush.
Qed.

Lemma done_and_size_hushed run st id : length (cd_dsm st) = 208%nat -> Forall block_ok run -> holds_run run st -> 0 <= id ->
  (forall c, In c run -> b_num c = 0 -> blocks_needed id (nth 0 (b_data c) 0) <> None) ->
  hushed (done_and_size_log W st (if 12 <=? id then DsmPkr else DsmKroot)).
Proof.
  intros Hl Hok Hh Hid Hneed. unfold done_and_size_log. destruct (Hh 0%nat ltac:(lia)) as (Hv0 & Hd0).
  apply says_lbind; [apply says_quiet|]. intros v Ev. rewrite plain_quiet in Ev. unfold index in Ev. rewrite Hv0 in Ev. injection Ev as <-.
  destruct (first_copy 0 run) as [b0|] eqn:E0; cbn [is_some negb]; [|hush].
  apply first_copy_in in E0 as Hin. destruct Hin as (Hin & Enum).
  assert (Hb0 : length (b_data b0) = 13%nat) by (rewrite Forall_forall in Hok; now apply Hok).
  assert (Hbyte : nth_error (cd_dsm st) 0 = Some (nth 0 (b_data b0) 0)).
  { rewrite <- (Hd0 b0 eq_refl). cbn [Nat.mul Nat.add].
    rewrite <- (nth_error_nth' (sub 0 13 (cd_dsm st)) 0) by (rewrite length_sub; lia).
    rewrite nth_error_sub. reflexivity. }
  apply says_lbind; [apply says_quiet|]. intros v Ev. rewrite plain_quiet in Ev. unfold index in Ev. rewrite Hbyte in Ev. injection Ev as <-.
  cbv zeta. unfold dsm_number_of_blocks_log. rewrite blocks_needed_eq by auto.
  pose proof (Hneed b0 Hin ltac:(lia)) as Hn. destruct (blocks_needed id (nth 0 (b_data b0) 0)) as [n|]; [|congruence].
  cbn [is_none]. hush.
Qed.

Lemma dsm_feed_hushed bl st b : Forall block_ok bl -> block_ok b -> represents_dsm (dsm_run bl) st ->
  (forall c, In c bl -> b_dsm c = b_dsm b -> b_num c = b_num b -> b_data c = b_data b) ->
  (forall c, In c bl \/ c = b -> b_dsm c = b_dsm b -> b_num c = 0 -> blocks_needed (b_dsm b) (nth 0 (b_data c) 0) <> None) ->
  hushed (dsm_feed_log W st (b_header b) (b_data b)).
Proof.
  intros Hok Hb Hrep Hsame Hneed. pose proof Hb as (Hbyte & Hblen). unfold dsm_feed_log.
  pose proof (dsm_started bl st b Hb Hrep) as Hst.
  assert (Hok2 : Forall block_ok (dsm_run_for (dsm_run bl) b)).
  { apply Forall_forall. intros x Hx. apply dsm_run_for_in in Hx. rewrite Forall_forall in Hok. apply Hok. apply Hx. }
  assert (Hid0 : 0 <= b_dsm b) by (unfold b_dsm, is_byte in *; lia).
  apply says_lbind; [apply says_off; reflexivity|]. intros _ _.
  set (st1 := if _ || _ then _ else st) in Hst.
  assert (H1 : hushed (if negb (dsm_id (b_header b) =? cd_id st) || match cd_type st with None => true | Some _ => false end
     then log W LInfo (Ok (LgNewDsm (dsm_id (b_header b)) (cd_id st))) >>>
          done (mkCollectDsm (cd_dsm st) (repeat false max_dsm_blocks) false (Some (dsm_type (b_header b))) (dsm_id (b_header b)))
     else done st) /\
     forall s, plain (if negb (dsm_id (b_header b) =? cd_id st) || match cd_type st with None => true | Some _ => false end
     then log W LInfo (Ok (LgNewDsm (dsm_id (b_header b)) (cd_id st))) >>>
          done (mkCollectDsm (cd_dsm st) (repeat false max_dsm_blocks) false (Some (dsm_type (b_header b))) (dsm_id (b_header b)))
     else done st) = Ok s -> s = st1).
  { unfold st1. destruct (_ || _).
    - split; [unfold hushed; hush|]. intros s Hs.
      change (Ok (mkCollectDsm (cd_dsm st) (repeat false max_dsm_blocks) false (Some (dsm_type (b_header b))) (dsm_id (b_header b))) = Ok s) in Hs.
      congruence.
    - split; [apply says_done|]. intros s Hs. change (Ok st = Ok s) in Hs. congruence. }
  clearbody st1. apply says_lbind; [exact (proj1 H1)|]. intros s Es. apply (proj2 H1) in Es. subst s. clear H1.
  destruct Hst as (Hl1 & Hl2 & Ht & Hh).
  apply says_lbind; [apply says_quiet|]. intros ty Ety. rewrite plain_quiet, Ht in Ety. injection Ety as <-.
  destruct (cd_done st1) eqn:Ed; [hush|]. specialize (Hh eq_refl).
  rewrite dsm_block_id_mod by auto. fold (b_num b).
  apply says_lbind.
  - apply (store_block_hushed (dsm_run_for (dsm_run bl) b)); auto. intros c Hc. apply dsm_run_for_in in Hc. apply Hsame; apply Hc.
  - intros st2 E2. rewrite store_block_plain in E2.
    destruct (store_block_spec _ st1 b Hl1 Hl2 Hh Hb) as (st2' & E2' & G1 & G2 & G3 & G4 & G5 & G6). rewrite E2 in E2'. injection E2' as <-.
    apply says_lbind; [|intros size _; hush].
    apply (done_and_size_hushed (dsm_run_for (dsm_run bl) b ++ [b])); auto.
    + apply Forall_app. split; auto.
    + intros c Hc. apply in_app_or in Hc. destruct Hc as [Hc|[<-|[]]].
      * apply dsm_run_for_in in Hc. apply Hneed; [left|]; apply Hc.
      * apply Hneed; auto.
Qed.

End Crypto.

(** Histories that do not panic, and histories that do. *)
From Coq Require Import ZArith List Bool Lia ZifyBool ZifyNat.
From Verif Require Import Model.Prelude Model.Params Model.Gst Model.Svn Model.Bitfields
  Model.Maclt Model.Tesla Model.Merkle Model.Subframe Model.Dsm Model.MackStore Model.Nav Model.Osnma
  Spec.TimeSpec Spec.CollectSpec Spec.StoreSpec Spec.NavSpec Spec.TeslaSpec Spec.KrootSpec
  Spec.MerkleSpec Spec.MacltSpec Spec.KeySpec Spec.SystemSpec Spec.StoredSpec Spec.CompleteSpec Spec.PanicSpec
  Proofs.Base Proofs.Ring Proofs.Rows Proofs.GstProofs Proofs.LayoutProofs Proofs.SubframeProofs Proofs.DsmProofs
  Proofs.MackProofs Proofs.NavProofs Proofs.EntryProofs Proofs.NavInv Proofs.TeslaProofs
  Proofs.KrootProofs Proofs.MackValidProofs Proofs.MerkleProofs Proofs.TagProofs Proofs.NavHistory
  Proofs.SystemProofs Proofs.GetterProofs Proofs.KeyStoreProofs Proofs.StepProofs Proofs.AuthProofs Proofs.PanicProofs.
Import ListNotations.
Open Scope Z_scope.

Ltac Zify.zify_post_hook ::= Z.div_mod_to_equations.

(** ** The blocks received *)

Lemma push_word_fst ws acc : fst (fold_left push_word ws acc) = fst acc ++ ws.
Proof.
  revert acc. induction ws as [|w ws IH]; intros acc; cbn [fold_left]; [now rewrite app_nil_r|].
  rewrite IH. unfold push_word. cbn [fst]. now rewrite <- app_assoc.
Qed.

Lemma blocks_received_snoc ws w : blocks_received (ws ++ [w]) =
  blocks_received ws ++ match expected_subframe ws w with Some (hk, _, _) => [block_of hk] | None => [] end.
Proof.
  unfold blocks_received. rewrite fold_left_app. cbn [fold_left]. set (acc := fold_left push_word ws ([], [])).
  unfold push_word at 1. replace (fst acc) with ws by (unfold acc; now rewrite push_word_fst). cbn [snd].
  destruct (expected_subframe ws w) as [((hk & mk) & g)|]; [reflexivity|now rewrite app_nil_r].
Qed.

Section Crypto.
Context {C : crypto} {B : build} {S : storage}.
Hypothesis HC : crypto_ok C.
Hypothesis HS : storage_ok S.

(** ** DSM messages *)

Definition pkr_size_ok (d : list Z) : Prop :=
  7 <= nth 0 d 0 / 16 <= 10 /\ Z.of_nat (length d) = 13 * (nth 0 d 0 / 16 + 6).

Lemma process_dsm_panic o m hd g : stores_ok o -> is_byte hd -> Forall is_byte (dm_data m) ->
  match dm_type m with DsmKroot => (45 <= length (dm_data m))%nat | DsmPkr => pkr_size_ok (dm_data m) end ->
  (process_dsm o m hd g = Panic <-> dsm_panics o hd (dsm_type_eqb (dm_type m) DsmPkr) (dm_data m)).
Proof.
  intros Hst Hh Hd Hs. unfold process_dsm, dsm_panics. destruct (dm_type m); cbn [dsm_type_eqb].
  - now apply process_dsm_kroot_panic.
  - destruct Hs. now apply process_dsm_pkr_panic.
Qed.

Lemma length_concat_blocks (bs : list (list Z)) : Forall (fun b => length b = 13%nat) bs ->
  length (concat bs) = (13 * length bs)%nat.
Proof. induction 1 as [|b bs Hb _ IH]; cbn [concat length]; [reflexivity|]. rewrite app_length, IH, Hb. lia. Qed.

Lemma dsm_received_size h id d : Forall op_ok h -> dsm_received h id d ->
  if id <? 12 then (45 <= length d)%nat else pkr_size_ok d.
Proof.
  intros Hok (bs & Ed & Hn & Hb).
  assert (Hlen : length d = (13 * length bs)%nat).
  { rewrite Ed. apply length_concat_blocks. apply Forall_forall. intros b Hin. apply In_nth_error in Hin.
    destruct Hin as (i & Hi). destruct (Hb i b Hi) as (svn & g & hk & mk & H1 & _ & H2).
    destruct (subframe_received_bytes _ _ _ _ _ Hok H1) as ((Hl & _) & _). rewrite <- H2, skipn_length. lia. }
  unfold blocks_needed, is_pkr in Hn. unfold pkr_size_ok. destruct (id <? 12) eqn:E.
  - replace (12 <=? id) with false in Hn by lia. destruct ((1 <=? _) && _) eqn:E2 in Hn; [|discriminate]. injection Hn as Hn. lia.
  - replace (12 <=? id) with true in Hn by lia. destruct ((7 <=? _) && _) eqn:E2 in Hn; [|discriminate]. injection Hn as Hn. lia.
Qed.

Variables (root : option (list Z)) (user : option public_key) (slow : bool).
Notation new := (osnma_new root user slow).

(** The DSM collector has the blocks received. *)
Definition exact_dsm (h : list op) (o : osnma) : Prop :=
  represents_dsm (dsm_run (blocks_received (osnma_words h))) (o_dsm o) /\
  Forall block_ok (blocks_received (osnma_words h)).

(** What feeding a word that is not zero does first. *)
Lemma feed_osnma_unroll h o data svn g : Forall op_ok h -> op_ok (FeedOsnma data svn g) -> inv root user slow h o ->
  forallb (Z.eqb 0) data = false ->
  exists sf, sub_inv (h ++ [FeedOsnma data svn g]) (set_sub sf o) /\
    rest_inv root user slow (h ++ [FeedOsnma data svn g]) (set_sub sf o) /\
    feed_osnma o data svn g =
    match expected_subframe (osnma_words h) (mkWord data svn g) with
    | Some (hk, mk, g') => process_subframe (set_sub sf o) hk mk svn g'
    | None => Ok (set_sub sf o)
    end.
Proof.
  intros Hok Hx (Hsub & Hrest) Hz.
  assert (Hmono : rest_inv root user slow (h ++ [FeedOsnma data svn g]) o) by (apply rest_inv_mono; auto).
  unfold feed_osnma.
  replace (forallb (fun x => x =? 0) data) with (forallb (Z.eqb 0) data).
  2: { clear. induction data as [|x l IH]; cbn [forallb]; [reflexivity|]. now rewrite IH, Z.eqb_sym. }
  rewrite Hz. set (w := mkWord data svn g) in *.
  assert (Hw : osnma_words (h ++ [FeedOsnma data svn g]) = osnma_words h ++ [w]).
  { rewrite osnma_words_app. cbn [osnma_words flat_map]. now rewrite Hz. }
  assert (Hwok : word_ok w) by (destruct Hx as ((X1 & _) & X2 & X3); split; auto).
  pose proof (osnma_words_ok h Hok) as Hwords.
  destruct (subframe_feed_spec (current_run (osnma_words h)) (o_sub o) w) as (sf & Esf & Hsf); auto.
  { now apply Forall_current_run. }
  { intros; eapply current_run_same; eauto. }
  change (subframe_feed (o_sub o) data svn g = Ok (sf, expected_subframe (osnma_words h) w)) in Esf.
  rewrite Esf. cbn [bind]. exists sf. split; [|split].
  - rewrite <- current_run_snoc, <- Hw in Hsf. exact Hsf.
  - destruct Hmono as [I1 I2 I3 I4 I5 I6 I7]. constructor; auto.
  - destruct (expected_subframe (osnma_words h) w) as [((hk & mk) & g')|]; reflexivity.
Qed.

Lemma completes_received h data svn gk hk mk g : forallb (Z.eqb 0) data = false ->
  expected_subframe (osnma_words h) (mkWord data svn gk) = Some (hk, mk, g) ->
  subframe_received (h ++ [FeedOsnma data svn gk]) svn g hk mk.
Proof.
  intros Hz Hex. set (w := mkWord data svn gk) in *.
  assert (Hw : osnma_words (h ++ [FeedOsnma data svn gk]) = osnma_words h ++ [w]).
  { rewrite osnma_words_app. cbn [osnma_words flat_map]. now rewrite Hz. }
  apply expected_subframe_sound in Hex. destruct Hex as (ws & W1 & W2 & W3 & W4 & W5).
  exists (ws ++ [w]). rewrite Hw. split; [exact W1|]. split; [|auto]. intros y Hy. apply in_app_or in Hy.
  destruct Hy as [Hy|[<-|[]]]; [|now rewrite W4]. specialize (W5 y Hy). unfold same_subframe in W5.
  apply andb_true_iff in W5. rewrite !Z.eqb_eq in W5. rewrite W4. unfold subframe_of. destruct W5 as (-> & ->). reflexivity.
Qed.

Lemma exact_dsm_new : exact_dsm [] new.
Proof. split; [apply represents_dsm_new|constructor]. Qed.

(** What happens to the messages of a subframe before its key is looked at. *)
Lemma subframe_unroll h o svn g hk mk : Forall op_ok h -> rest_inv root user slow h o ->
  subframe_received h svn g hk mk -> forall bl, represents_dsm (dsm_run bl) (o_dsm o) -> Forall block_ok bl ->
  exists ms cd d, mack_store (o_mack o) mk svn g (nma_status (nth 0 hk 0)) = Ok ms /\
    dsm_feed (o_dsm o) (nth 1 hk 0) (skipn 2 hk) = Ok (cd, d) /\
    block_ok (block_of hk) /\ represents_dsm (dsm_run (bl ++ [block_of hk])) cd /\
    option_map dsm_out d = expected_dsm bl (block_of hk) /\
    process_subframe o hk mk svn g =
    (o2 <- match d with
           | Some m => process_dsm (set_dsm cd (set_mack ms o)) m (nth 0 hk 0) g
           | None => Ok (set_dsm cd (set_mack ms o))
           end ;; osnma_validate_key o2 mk g).
Proof.
  intros Hok Hinv Hsf bl Hbl Hblok.
  destruct (subframe_received_bytes _ _ _ _ _ Hok Hsf) as ((Hlen & Hhk) & _).
  assert (Hbyte : forall i, (i < 15)%nat -> is_byte (nth i hk 0)).
  { intros i Hi. rewrite Forall_forall in Hhk. apply Hhk. apply nth_In. lia. }
  destruct (ri_mack _ _ _ _ _ Hinv) as (its & Hms & Hits).
  destruct (store_item_spec HS _ _ (mkItem mk svn g (nma_status (nth 0 hk 0))) Hms) as (ms & Em & _).
  unfold store_item in Em. cbn [it_message it_svn it_gst it_status] in Em.
  assert (Hb : block_ok (block_of hk)).
  { split; cbn [block_of b_header b_data]; [apply Hbyte; lia|rewrite skipn_length; lia]. }
  destruct (dsm_feed_spec bl (o_dsm o) (block_of hk) (Forall_dsm_run _ _ Hblok) Hb Hbl) as (cd & d & Ed & Hout & Hcd).
  cbn [block_of b_header b_data] in Ed.
  exists ms, cd, d. split; [exact Em|]. split; [exact Ed|]. split; [exact Hb|]. split; [exact Hcd|]. split; [exact Hout|].
  unfold process_subframe.
  assert (E0 : index hk 0 = Ok (nth 0 hk 0)) by (apply index_ok, nth_error_nth'; lia).
  assert (E1 : index hk 1 = Ok (nth 1 hk 0)) by (apply index_ok, nth_error_nth'; lia).
  rewrite E0. cbn [bind]. rewrite Em. cbn [bind]. rewrite E1. cbn [bind]. cbn [set_mack o_dsm]. rewrite Ed. cbn [bind].
  reflexivity.
Qed.

(** The trusted state in which the DSM is processed. *)
Lemma process_dsm_dsm o m hd g o' : process_dsm o m hd g = Ok o' -> o_dsm o' = o_dsm o.
Proof.
  intros H. apply process_dsm_effect in H.
  destruct H as [->|pk key ps Et Hpk Hkey Hps Hid ->|r pk ps Et Hm Hv Hps ->|r Et Hm Hv ->]; try reflexivity.
  unfold process_nma_header. destruct (nma_status _); destruct (nma_cpks _); reflexivity.
Qed.

Lemma validate_key_dsm o mk g o' : osnma_validate_key o mk g = Ok o' -> o_dsm o' = o_dsm o.
Proof.
  intros H. apply validate_key_effect in H. destruct H as [->|cur key ks Hc Hv Hlt Hch Hg Hs Ht]; [reflexivity|].
  apply process_tags_trust in Ht. destruct Ht as (_ & _ & _ & -> & _). reflexivity.
Qed.

Lemma step_exact_dsm h o x o' : Forall op_ok (h ++ [x]) -> inv root user slow h o -> exact_dsm h o ->
  step o x = Ok o' -> exact_dsm (h ++ [x]) o'.
Proof.
  intros Hok Hinv (Hd1 & Hd2) H. pose proof Hok as Hok'. apply Forall_app in Hok. destruct Hok as (Hok & Hx).
  apply Forall_cons_iff in Hx. destruct Hx as (Hx & _). unfold exact_dsm. rewrite osnma_words_app.
  destruct x as [word svn g b|data svn g]; cbn [step] in H.
  - cbn [osnma_words flat_map]. rewrite !app_nil_r. unfold feed_inav in H. bind_inv H. injection H as <-. now split.
  - cbn [osnma_words flat_map]. destruct (forallb (Z.eqb 0) data) eqn:Ez.
    + rewrite !app_nil_r. unfold feed_osnma in H.
      replace (forallb (fun x => x =? 0) data) with (forallb (Z.eqb 0) data) in H.
      2: { clear. induction data as [|x l IH]; cbn [forallb]; [reflexivity|]. now rewrite IH, Z.eqb_sym. }
      rewrite Ez in H. injection H as <-. now split.
    + rewrite app_nil_r. rewrite blocks_received_snoc.
      destruct (feed_osnma_unroll h o data svn g Hok Hx Hinv Ez) as (sf & S1 & S2 & S3). rewrite S3 in H.
      destruct (expected_subframe (osnma_words h) (mkWord data svn g)) as [((hk & mk) & g')|] eqn:Ex.
      * pose proof (completes_received h data svn g hk mk g' Ez Ex) as Hrec.
        destruct (subframe_unroll _ _ _ _ _ _ Hok' S2 Hrec (blocks_received (osnma_words h)) Hd1 Hd2)
          as (ms & cd & d & _ & _ & Hb & Hcd & _ & Ep). rewrite Ep in H. bind_inv H.
        assert (Ecd : o_dsm x = cd).
        { destruct d as [m|]; [now apply process_dsm_dsm in E|]. now injection E as <-. }
        rewrite (validate_key_dsm _ _ _ _ H), Ecd. split; [exact Hcd|]. apply Forall_app. split; [exact Hd2|]. now constructor.
      * injection H as <-. rewrite app_nil_r. now split.
Qed.

Lemma run_exact_dsm h : Forall op_ok h -> forall o, run new h = Ok o -> exact_dsm h o.
Proof.
  induction h as [|x h IH] using rev_ind; intros Hok o H.
  - injection H as <-. apply exact_dsm_new.
  - rewrite run_snoc in H. bind_inv H. pose proof Hok as Hok'. apply Forall_app in Hok. destruct Hok as (Hok & _).
    eapply step_exact_dsm; [exact Hok'| | |exact H]; [now apply run_inv|now apply IH].
Qed.

(** ** Steps *)

Lemma feed_inav_total h o word svn g b : inv root user slow h o -> exists o', feed_inav o word svn g b = Ok o'.
Proof.
  intros (_ & Hrest). destruct (ri_nav _ _ _ _ _ Hrest) as (hs & Hn & _). unfold feed_inav.
  destruct (nav_feed_spec HS hs (o_nav o) word svn g b Hn) as (n' & En & _). rewrite En. cbn [bind]. eauto.
Qed.

Lemma rest_mack_good h o : Forall op_ok h -> rest_inv root user slow h o -> mack_good (o_mack o).
Proof.
  intros Hok Hinv svn g. destruct (ri_mack _ _ _ _ _ Hinv) as (its & Hms & Hits).
  destruct (mack_get_total HS _ _ svn g Hms) as (r & Er & _). exists r. split; [exact Er|].
  intros message s ->. destruct (item_found HS h its _ svn g message s Hms Hits Er) as (hk & Hr & _).
  destruct (subframe_received_bytes _ _ _ _ _ Hok Hr) as (_ & (Hl & _) & _). exact Hl.
Qed.

(** The DSM that the call completes, as the model sees it. *)
Lemma completed_as_model h o x hk mk g : Forall op_ok (h ++ [x]) -> run new h = Ok o -> completes h x hk mk g ->
  exists sf svn ms cd d,
    subframe_received (h ++ [x]) svn g hk mk /\
    rest_inv root user slow (h ++ [x]) (set_dsm cd (set_mack ms (set_sub sf o))) /\
    dsm_feed (o_dsm o) (nth 1 hk 0) (skipn 2 hk) = Ok (cd, d) /\
    (forall m, d = Some m ->
       completed_dsm h hk = Some (dsm_type_eqb (dm_type m) DsmPkr, dm_data m) /\
       Forall is_byte (dm_data m) /\
       match dm_type m with DsmKroot => (45 <= length (dm_data m))%nat | DsmPkr => pkr_size_ok (dm_data m) end /\
       dsm_received (h ++ [x]) (dm_id m) (dm_data m) /\ dm_type m = (if dm_id m <? 12 then DsmKroot else DsmPkr)) /\
    (d = None -> completed_dsm h hk = None) /\
    step o x =
    (o2 <- match d with
           | Some m => process_dsm (set_dsm cd (set_mack ms (set_sub sf o))) m (nth 0 hk 0) g
           | None => Ok (set_dsm cd (set_mack ms (set_sub sf o)))
           end ;; osnma_validate_key o2 mk g).
Proof.
  intros Hok Hrun (data & svn & gk & -> & Hz & Hex).
  pose proof Hok as Hok'. apply Forall_app in Hok. destruct Hok as (Hok & Hx). apply Forall_cons_iff in Hx. destruct Hx as (Hx & _).
  pose proof (run_inv HC HS root user slow h Hok _ Hrun) as Hinv.
  destruct (run_exact_dsm h Hok o Hrun) as (Hd1 & Hd2).
  destruct (feed_osnma_unroll h o data svn gk Hok Hx Hinv Hz) as (sf & S1 & S2 & S3). rewrite Hex in S3.
  pose proof (completes_received h data svn gk hk mk g Hz Hex) as Hrec.
  destruct (subframe_unroll _ _ _ _ _ _ Hok' S2 Hrec (blocks_received (osnma_words h)) Hd1 Hd2)
    as (ms & cd & d & Em & Ed & Hb & Hcd & Hout & Ep).
  destruct (subframe_stored HS _ _ _ _ _ _ _ _ _ _ _ _ Hok' S2 Hrec Em Ed) as (Hinv2 & Hm).
  exists sf, svn, ms, cd, d. split; [exact Hrec|]. split; [exact Hinv2|]. split; [exact Ed|]. split; [|split].
  - intros m ->. destruct (Hm m eq_refl) as (Hdr & Ht). split.
    { unfold completed_dsm. rewrite <- Hout. cbn [option_map dsm_out]. reflexivity. }
    split; [exact (dsm_received_bytes _ _ _ Hok' Hdr)|]. split; [|auto].
    pose proof (dsm_received_size _ _ _ Hok' Hdr) as Hs. rewrite Ht. destruct (dm_id m <? 12); exact Hs.
  - intros ->. unfold completed_dsm. now rewrite <- Hout.
  - cbn [step]. rewrite S3. exact Ep.
Qed.

Lemma hkroot_header_byte h svn g hk mk : Forall op_ok h -> subframe_received h svn g hk mk -> is_byte (nth 0 hk 0).
Proof.
  intros Hok H. destruct (subframe_received_bytes _ _ _ _ _ Hok H) as ((Hl & Hb) & _).
  rewrite Forall_forall in Hb. apply Hb, nth_In. lia.
Qed.

(** A DSM that panics makes the call panic. *)
Theorem dsm_panics_step h o x hk mk g pkr d : Forall op_ok (h ++ [x]) -> run new h = Ok o -> completes h x hk mk g ->
  completed_dsm h hk = Some (pkr, d) -> dsm_panics o (nth 0 hk 0) pkr d -> step o x = Panic.
Proof.
  intros Hok Hrun Hc Hd Hp.
  destruct (completed_as_model h o x hk mk g Hok Hrun Hc) as (sf & svn & ms & cd & m & Hrec & Hinv & Ef & Hm & Hnone & ->).
  destruct m as [m|]; [|rewrite (Hnone eq_refl) in Hd; discriminate].
  destruct (Hm m eq_refl) as (Hcm & Hby & Hsz & _). rewrite Hd in Hcm. injection Hcm as -> ->.
  assert (Hst : stores_ok o) by (apply (run_stores h new); [apply new_stores|exact Hrun]).
  assert (E : process_dsm (set_dsm cd (set_mack ms (set_sub sf o))) m (nth 0 hk 0) g = Panic).
  { apply process_dsm_panic; [exact Hst|exact (hkroot_header_byte _ _ _ _ _ Hok Hrec)|exact Hby|exact Hsz|exact Hp]. }
  rewrite E. reflexivity.
Qed.

Theorem harmless_step h o x : Forall op_ok (h ++ [x]) -> run new h = Ok o -> harmless_call h o x ->
  exists o', step o x = Ok o'.
Proof.
  intros Hok Hrun Hh. pose proof Hok as Hok'. apply Forall_app in Hok. destruct Hok as (Hok & Hx). apply Forall_cons_iff in Hx. destruct Hx as (Hx & _).
  pose proof (run_inv HC HS root user slow h Hok _ Hrun) as Hinv.
  destruct x as [word svn g b|data svn gk]; cbn [step]; [exact (feed_inav_total h o word svn g b Hinv)|].
  destruct (forallb (Z.eqb 0) data) eqn:Ez.
  { unfold feed_osnma. replace (forallb (fun x => x =? 0) data) with (forallb (Z.eqb 0) data).
    2: { clear. induction data as [|x l IH]; cbn [forallb]; [reflexivity|]. now rewrite IH, Z.eqb_sym. }
    rewrite Ez. eauto. }
  destruct (feed_osnma_unroll h o data svn gk Hok Hx Hinv Ez) as (sf0 & S1 & S2 & S3).
  destruct (expected_subframe (osnma_words h) (mkWord data svn gk)) as [((hk & mk) & g)|] eqn:Ex; [|rewrite S3; eauto].
  clear sf0 S1 S2 S3.
  assert (Hc : completes h (FeedOsnma data svn gk) hk mk g) by (exists data, svn, gk; auto).
  destruct (Hh hk mk g Hc) as (Ht & Hdsm & Hchains).
  destruct (completed_as_model h o _ hk mk g Hok' Hrun Hc) as (sf & svn' & ms & cd & m & Hrec & Hinv2 & Ef & Hm & Hnone & Es).
  cbn [step] in Es. rewrite Es.
  assert (Hst : stores_ok o) by (apply (run_stores h new); [apply new_stores|exact Hrun]).
  destruct (subframe_received_bytes _ _ _ _ _ Hok' Hrec) as (_ & (Hlen & _) & Hg & Hsub & _).
  pose proof (hkroot_header_byte _ _ _ _ _ Hok' Hrec) as Hhd.
  set (o1 := set_dsm cd (set_mack ms (set_sub sf o))) in *.
  assert (Hst1 : stores_ok o1) by exact Hst.
  assert (H2 : exists o2, match m with Some m => process_dsm o1 m (nth 0 hk 0) g | None => Ok o1 end = Ok o2 /\
            rest_inv root user slow (h ++ [FeedOsnma data svn gk]) o2 /\ stores_ok o2 /\ keys_then o hk g (o_keys o2)).
  { destruct m as [m|].
    - destruct (Hm m eq_refl) as (Hcm & Hby & Hsz & Hdr & Hty). pose proof (Hdsm _ _ Hcm) as Hnp.
      destruct (process_dsm o1 m (nth 0 hk 0) g) as [o2|] eqn:E2.
      2: { exfalso. apply Hnp. now apply process_dsm_panic in E2. }
      exists o2. split; [reflexivity|]. split; [|split; [exact (process_dsm_stores _ _ _ _ _ Hst1 E2)|]].
      + pose proof E2 as E2'. unfold process_dsm in E2'. destruct (dm_id m <? 12) eqn:El; rewrite Hty in E2'.
        * eapply process_dsm_kroot_inv; [exact HC|exact Hok'|exact Hinv2| |exact Hdr|exact Hrec|exact E2']. lia.
        * eapply process_dsm_pkr_inv; [exact Hok'|exact Hinv2| |exact Hdr|exact E2']. lia.
      + exists cd, (Some m). split; [exact Ef|].
        destruct (process_dsm o m (nth 0 hk 0) g) as [o2'|] eqn:E2'.
        * exists o2'. split; [reflexivity|]. eapply process_dsm_keys; [|exact E2'|exact E2]. split; [|split]; reflexivity.
        * exfalso. apply Hnp. now apply process_dsm_panic in E2'.
    - exists o1. split; [reflexivity|]. split; [exact Hinv2|]. split; [exact Hst1|]. exists cd, None. auto. }
  destruct H2 as (o2 & E2 & Hinv3 & Hst2 & Hkt). rewrite E2. cbn [bind].
  apply (osnma_validate_key_total HC HS o2 mk g Hlen Hg Hsub).
  - exact (rest_mack_good _ _ Hok' Hinv3).
  - destruct (ri_nav _ _ _ _ _ Hinv3) as (hs & N1 & N2 & _). exists hs. auto.
  - intros k Hk. exact (proj1 (ri_keys _ _ _ _ _ Hinv3 k Hk)).
  - exact (proj2 Hst2).
  - intros k k' Hk Hk'. exact (Hchains _ k k' Hkt Hk Hk').
  - exact Ht.
Qed.

Theorem harmless_run h : Forall op_ok h -> harmless new h -> exists o, run new h = Ok o.
Proof.
  induction h as [|x h IH] using rev_ind; intros Hok Hh; [exists new; reflexivity|].
  pose proof Hok as Hok'. apply Forall_app in Hok. destruct Hok as (Hok & _).
  destruct (IH Hok) as (o & Ho).
  { intros h1 y h2 o E Hr. apply (Hh h1 y (h2 ++ [x]) o); [|exact Hr]. rewrite E, <- app_assoc. reflexivity. }
  rewrite run_snoc, Ho. cbn [bind]. apply (harmless_step h o x Hok' Ho). exact (Hh h x [] o eq_refl Ho).
Qed.

(** ** Histories that change nothing that is trusted *)

(** No DSM is completed. *)
Fixpoint no_dsm (ws : list oword) (bl : list block) (h : list op) : bool :=
  match h with
  | [] => true
  | FeedInav _ _ _ _ :: h => no_dsm ws bl h
  | FeedOsnma data svn g :: h =>
      if forallb (Z.eqb 0) data then no_dsm ws bl h
      else match expected_subframe ws (mkWord data svn g) with
           | None => no_dsm (ws ++ [mkWord data svn g]) bl h
           | Some (hk, _, _) =>
               match expected_dsm bl (block_of hk) with
               | None => no_dsm (ws ++ [mkWord data svn g]) (bl ++ [block_of hk]) h
               | Some _ => false
               end
           end
  end.

Lemma no_dsm_run h : forall h0 o, Forall op_ok (h0 ++ h) -> run new h0 = Ok o -> ks_cif (o_keys o) = None ->
  no_dsm (osnma_words h0) (blocks_received (osnma_words h0)) h = true ->
  exists o', run new (h0 ++ h) = Ok o' /\ same_trust o o'.
Proof.
  induction h as [|x h IH]; intros h0 o Hok Hrun Hcif Hq.
  { rewrite app_nil_r. exists o. split; [exact Hrun|split; [|split]; reflexivity]. }
  assert (Hok1 : Forall op_ok (h0 ++ [x])).
  { replace (h0 ++ x :: h) with ((h0 ++ [x]) ++ h) in Hok by (rewrite <- app_assoc; reflexivity). now apply Forall_app in Hok. }
  pose proof Hok1 as Hok2. apply Forall_app in Hok2. destruct Hok2 as (Hok0 & Hx). apply Forall_cons_iff in Hx. destruct Hx as (Hx & _).
  pose proof (run_inv HC HS root user slow h0 Hok0 _ Hrun) as Hinv.
  replace (h0 ++ x :: h) with ((h0 ++ [x]) ++ h) in * by (rewrite <- app_assoc; reflexivity).
  assert (Hnext : forall o1, step o x = Ok o1 -> same_trust o o1 ->
            no_dsm (osnma_words (h0 ++ [x])) (blocks_received (osnma_words (h0 ++ [x]))) h = true ->
            exists o', run new ((h0 ++ [x]) ++ h) = Ok o' /\ same_trust o o').
  { intros o1 E1 (T1 & T2 & T3) Hn. destruct (IH (h0 ++ [x]) o1 Hok) as (o' & E' & U1 & U2 & U3).
    - rewrite run_snoc, Hrun. exact E1.
    - now rewrite T3.
    - exact Hn.
    - exists o'. split; [exact E'|]. split; [congruence|]. split; congruence. }
  rewrite osnma_words_app in Hnext. destruct x as [word svn g b|data svn g]; cbn [no_dsm] in Hq.
  - destruct (feed_inav_total h0 o word svn g b Hinv) as (o1 & E1). apply (Hnext o1 E1).
    + unfold feed_inav in E1. bind_inv E1. injection E1 as <-. split; [|split]; reflexivity.
    + cbn [osnma_words flat_map]. rewrite !app_nil_r. exact Hq.
  - cbn [osnma_words flat_map] in Hnext. rewrite !app_nil_r in Hnext. cbn [step] in Hnext.
    destruct (forallb (Z.eqb 0) data) eqn:Ez.
    { rewrite app_nil_r in Hnext. apply (Hnext o); [|split; [|split]; reflexivity|exact Hq].
      unfold feed_osnma. replace (forallb (fun x => x =? 0) data) with (forallb (Z.eqb 0) data).
      2: { clear. induction data as [|x l IH]; cbn [forallb]; [reflexivity|]. now rewrite IH, Z.eqb_sym. }
      now rewrite Ez. }
    rewrite blocks_received_snoc in Hnext.
    destruct (expected_subframe (osnma_words h0) (mkWord data svn g)) as [((hk & mk) & g')|] eqn:Ex.
    + assert (Hc : completes h0 (FeedOsnma data svn g) hk mk g') by (exists data, svn, g; auto).
      destruct (completed_as_model h0 o _ hk mk g' Hok1 Hrun Hc) as (sf & svn' & ms & cd & m & _ & _ & _ & Hm & _ & Es).
      destruct (expected_dsm _ (block_of hk)) as [r|] eqn:Ed; [discriminate|].
      destruct m as [m|].
      { destruct (Hm m eq_refl) as (K & _). unfold completed_dsm in K. rewrite Ed in K. discriminate. }
      cbn [bind step] in Es. unfold osnma_validate_key, current_key in Es.
      cbn [set_dsm set_mack set_sub o_keys] in Es. rewrite Hcif in Es.
      apply (Hnext _ Es); [split; [|split]; reflexivity|exact Hq].
    + destruct (feed_osnma_unroll h0 o data svn g Hok0 Hx Hinv Ez) as (sf & _ & _ & S3). rewrite Ex in S3.
      apply (Hnext _ S3); [split; [|split]; reflexivity|]. rewrite app_nil_r. exact Hq.
Qed.

(** A history that ends with a DSM that panics. *)
Theorem first_dsm_panics h x hk mk g pkr d : Forall op_ok (h ++ [x]) -> no_dsm [] [] h = true ->
  completes h x hk mk g -> completed_dsm h hk = Some (pkr, d) -> dsm_panics new (nth 0 hk 0) pkr d ->
  run new (h ++ [x]) = Panic.
Proof.
  intros Hok Hq Hc Hd Hp.
  assert (Hok1 : Forall op_ok h) by (now apply Forall_app in Hok).
  destruct (no_dsm_run h [] new Hok1 eq_refl eq_refl Hq) as (o & Ho & T1 & T2 & _). cbn [app] in Ho.
  rewrite run_snoc, Ho. cbn [bind]. apply (dsm_panics_step h o x hk mk g pkr d Hok Ho Hc Hd).
  unfold dsm_panics in *. destruct pkr; [now rewrite T1|now rewrite T2].
Qed.

(** ** A check that a history is harmless *)

(** All the chains of the keys held can be used together, at each step. *)
Fixpoint fits_along (o : osnma) (h : list op) : Prop :=
  match h with
  | [] => True
  | x :: h' => exists o', step o x = Ok o' /\ chains_fit (o_keys o') /\ fits_along o' h'
  end.

Lemma validate_key_chains o mk g o' k : keys_distinct (o_keys o) -> osnma_validate_key o mk g = Ok o' -> held (o_keys o) k ->
  (forall a b, held (o_keys o) a -> held (o_keys o) b -> chain_of a = chain_of b -> a = b) ->
  exists k', held (o_keys o') k' /\ k_chain k' = k_chain k.
Proof.
  intros Hd H Hk Hu. apply validate_key_effect in H. destruct H as [->|cur key ks Hc Hv Hlt Hch Hg Hs Ht]; [eauto|].
  destruct (store_key_spec _ _ _ Hd Hs) as (_ & D2 & _ & _ & D5).
  apply process_tags_trust in Ht. destruct Ht as ((_ & _ & T3) & _). rewrite T3. cbn [set_keys o_keys].
  destruct (Z.eq_dec (chain_of k) (chain_of key)) as [E|E]; [|eauto].
  exists key. split; [exact D2|]. rewrite Hch. f_equal. apply Hu; [|exact Hk|unfold chain_of in *; congruence].
  apply current_key_in in Hc. exact Hc.
Qed.

Lemma fits_along_at h1 : forall o x h2, fits_along o (h1 ++ x :: h2) ->
  exists o1 o', run o h1 = Ok o1 /\ step o1 x = Ok o' /\ chains_fit (o_keys o').
Proof.
  induction h1 as [|y h1 IH]; intros o x h2 H; cbn [app fits_along] in H.
  - destruct H as (o' & E & Hf & _). exists o, o'. auto.
  - destruct H as (o' & E & _ & H). destruct (IH o' x h2 H) as (o1 & o2 & R & R'). exists o1, o2. split; [|exact R'].
    unfold run. cbn [fold_outcome]. rewrite E. exact R.
Qed.

Theorem fits_along_harmless h : Forall op_ok h -> fits_along new h ->
  (forall data svn g, In (FeedOsnma data svn g) h -> 390 <= time_of g) -> harmless new h.
Proof.
  intros Hok Hf Ht h1 x h2 o Eh Ho hk mk g Hc.
  assert (Hok1 : Forall op_ok (h1 ++ [x])).
  { rewrite Eh in Hok. replace (h1 ++ x :: h2) with ((h1 ++ [x]) ++ h2) in Hok by (rewrite <- app_assoc; reflexivity).
    now apply Forall_app in Hok. }
  rewrite Eh in Hf. destruct (fits_along_at h1 new x h2 Hf) as (o1 & o' & R1 & R2 & R3).
  rewrite Ho in R1. injection R1 as <-.
  destruct (completed_as_model h1 o x hk mk g Hok1 Ho Hc) as (sf & svn & ms & cd & m & Hrec & Hinv & Ef & Hm & Hnone & Es).
  split; [|split].
  - intros _. destruct Hc as (data & svn' & gk & -> & _ & Hex).
    specialize (Ht data svn' gk ltac:(rewrite Eh; apply in_or_app; right; now left)).
    apply expected_subframe_sound in Hex. destruct Hex as (ws & _ & _ & _ & W4 & _). cbn [w_gst] in W4. subst g.
    apply Forall_app in Hok1. destruct Hok1 as (_ & Hx). apply Forall_cons_iff in Hx. destruct Hx as ((_ & _ & Hg) & _).
    destruct gk as [w t]. unfold subframe_of, time_of, gst_ok in *. cbn [g_wn g_tow] in *. lia.
  - intros pkr d Hd Hp. rewrite (dsm_panics_step h1 o x hk mk g pkr d Hok1 Ho Hc Hd Hp) in R2. discriminate.
  - intros ks k k' (cd' & d' & F1 & F2) Hk Hk'. rewrite Ef in F1. injection F1 as <- <-.
    rewrite R2 in Es. symmetry in Es. apply bind_ok in Es. destruct Es as (o2 & E2 & E3).
    assert (Hst : stores_ok o) by (apply (run_stores h1 new); [apply new_stores|exact Ho]).
    assert (Hk2 : o_keys o2 = ks /\ stores_ok o2).
    { destruct m as [m|].
      - destruct F2 as (o2' & F2 & ->). split.
        + eapply process_dsm_keys; [|exact F2|exact E2]. split; [|split]; reflexivity.
        + eapply process_dsm_stores; [|exact E2]. exact Hst.
      - injection E2 as <-. split; [symmetry; exact F2|exact Hst]. }
    destruct Hk2 as (Hk2 & _ & Hd2). rewrite <- Hk2 in Hk, Hk'.
    assert (Hu : forall a b, held (o_keys o2) a -> held (o_keys o2) b -> chain_of a = chain_of b -> a = b).
    { intros a b Ha Hb Hab. now apply (held_unique (o_keys o2)). }
    destruct (validate_key_chains _ _ _ _ k Hd2 E3 Hk Hu) as (c & C1 & C2).
    destruct (validate_key_chains _ _ _ _ k' Hd2 E3 Hk' Hu) as (c' & C1' & C2').
    rewrite <- C2, <- C2'. now apply R3.
Qed.

End Crypto.

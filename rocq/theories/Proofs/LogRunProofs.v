(** Logging does not change what the library does: the functions whose messages are computed
    from the data received. *)
From Coq Require Import ZArith List Bool Lia ZifyBool ZifyNat.
From Verif Require Import Model.Prelude Model.Params Model.Gst Model.Svn Model.Bitfields
  Model.Maclt Model.Tesla Model.Merkle Model.Subframe Model.Dsm Model.MackStore Model.Nav Model.Osnma
  Model.Logging
  Spec.TimeSpec Spec.CollectSpec Spec.StoreSpec Spec.NavSpec Spec.TeslaSpec Spec.KrootSpec
  Spec.MerkleSpec Spec.MacltSpec Spec.KeySpec Spec.SystemSpec Spec.StoredSpec Spec.CompleteSpec Spec.PanicSpec
  Proofs.Base Proofs.Ring Proofs.Rows Proofs.GstProofs Proofs.LayoutProofs Proofs.SubframeProofs Proofs.DsmProofs
  Proofs.MackProofs Proofs.NavProofs Proofs.EntryProofs Proofs.NavInv Proofs.TeslaProofs
  Proofs.KrootProofs Proofs.MackValidProofs Proofs.MerkleProofs Proofs.TagProofs Proofs.NavHistory
  Proofs.SystemProofs Proofs.GetterProofs Proofs.KeyStoreProofs Proofs.StepProofs Proofs.AuthProofs Proofs.PanicProofs
  Proofs.TotalProofs Proofs.LoggingProofs.
Import ListNotations.
Open Scope Z_scope.
Ltac Zify.zify_post_hook ::= Z.div_mod_to_equations.

Section Crypto.
Context {C : crypto} {B : build} {S : storage}.
Hypothesis HC : crypto_ok C.
Hypothesis HS : storage_ok S.
Variable mx : option level.

(** ** What is printed of a message *)

Lemma slice_total {A} (l : list A) a b : (a <= b)%nat -> (b <= length l)%nat -> exists x, slice l a b = Ok x.
Proof. intros H1 H2. rewrite slice_in by assumption. eauto. Qed.

Lemma pkr_debug_total d : pkr_size_ok d ->
  ((exists f, pkr_layout d f) \/ pkr_new_public_key_type d = Ok NpktReserved) -> exists p, pkr_debug d = Ok p.
Proof.
  intros (Hl & Hnb) H. unfold pkr_debug, pkr_padding, pkr_new_public_key.
  destruct H as [(f & HL)|Ht].
  - rewrite (pkr_number_of_blocks_layout d f HL), (pkr_message_id_layout d f HL). cbn [bind].
    rewrite !(pkr_node_layout d f HL) by lia. cbn [bind].
    rewrite (pkr_type_layout d f HL), (pkr_id_layout d f HL), (pkr_key_size_layout d f HL). cbn [bind].
    pose proof (pkr_length d f HL) as Hlen. rewrite slice_in by lia. cbn [bind].
    destruct ((7 <=? pf_nb f) && (pf_nb f <=? 10)) eqn:E; cbn [bind]; [|eexists; reflexivity].
    destruct (pl_nibbles _ _ HL) as (Hn1 & Hn2 & _).
    assert (Hn0 : nth 0 d 0 = 16 * pf_nb f + pf_mid f) by (rewrite (pl_bytes _ _ HL); reflexivity).
    unfold nibble in *. rewrite slice_in by lia. cbn [bind]. eexists; reflexivity.
  - unfold pkr_key_size. rewrite Ht. cbn [bind]. unfold pkr_number_of_blocks, pkr_message_id, pkr_new_public_key_id.
    rewrite !bits_at_in by lia. cbn [bind]. unfold pkr_intermediate_tree_node, assert_.
    cbn [Nat.ltb Nat.leb bind]. rewrite !slice_in by lia. cbn [bind]. eexists; reflexivity.
Qed.

Lemma tags_debug_total m js : (forall j, In j js -> exists t, mack_tag_and_info m j = Ok t) ->
  exists l, tags_debug m js = Ok l.
Proof.
  induction js as [|j js IH]; intros H; cbn [tags_debug]; [eauto|].
  destruct (H j (or_introl eq_refl)) as (t & ->). destruct IH as (l & ->); [intros; apply H; now right|].
  cbn [bind]. eauto.
Qed.

Lemma mack_debug_total message ks ts : length message = 60%nat -> sizes_ok ks ts ->
  exists s, mack_debug (mack_new message ks ts) = Ok s.
Proof.
  intros Hl Hs. unfold mack_debug. rewrite mack_tag0_ok, mack_macseq_ok by auto. cbn [bind].
  destruct (tags_debug_total (mack_new message ks ts) (seq 1 (mack_num_tags (mack_new message ks ts) - 1))) as (l & ->).
  { intros j Hj. apply in_seq in Hj. eexists. apply mack_tag_and_info_ok; auto. lia. }
  cbn [bind]. rewrite mack_key_ok by auto. cbn [bind]. eauto.
Qed.

Lemma key_sizes_ok k : key_ok k -> sizes_ok (ch_key_bytes (k_chain k) * 8) (ch_tag_bits (k_chain k)).
Proof. intros H. apply announced_sizes_ok; apply H. Qed.

(** ** The processing of a subframe *)

Lemma process_dsm_pkr_plain o d : Forall is_byte d -> pkr_size_ok d ->
  plain (process_dsm_pkr_log mx o d) = process_dsm_pkr o d.
Proof.
  intros Hb Hs. unfold process_dsm_pkr_log, process_dsm_pkr. rewrite plain_lbind, plain_quiet.
  apply bind_ext. intros [fn| |] Ht.
  - unfold process_dsm_pkr_npk_log, process_dsm_pkr_npk. destruct (o_merkle o) as [r|]; [|now rewrite plain_lbind, plain_log].
    rewrite plain_lbind, plain_quiet. apply bind_ext. intros [pk|e] E; [|now rewrite plain_lbind, plain_log].
    destruct (validate_pkr_sound r d pk Hb E) as (f & HL & _).
    destruct (pkr_debug_total d Hs (or_introl (ex_intro _ f HL))) as (p & ->). cbn [bind].
    rewrite plain_lbind, plain_log. cbn [bind]. rewrite plain_lbind, store_new_pubkey_plain. apply bind_ext. reflexivity.
  - unfold process_dsm_pkr_alert_message_log, process_dsm_pkr_alert_message.
    destruct (o_merkle o) as [r|]; [|now rewrite plain_lbind, plain_log].
    rewrite plain_lbind, plain_quiet. apply bind_ext. intros [u|e] E; [|now rewrite plain_lbind, plain_log].
    destruct (validate_alert_sound r d u Hb E) as (f & HL & _).
    destruct (pkr_debug_total d Hs (or_introl (ex_intro _ f HL))) as (p & ->). cbn [bind].
    rewrite plain_lbind, plain_log. cbn [bind]. now rewrite alert_plain.
  - destruct (pkr_debug_total d Hs (or_intror Ht)) as (p & ->). cbn [bind].
    now rewrite plain_lbind, plain_log.
Qed.

Lemma process_dsm_plain o m hd g : Forall is_byte (dm_data m) ->
  (dm_type m = DsmPkr -> pkr_size_ok (dm_data m)) ->
  plain (process_dsm_log mx o m hd g) = process_dsm o m hd g.
Proof.
  intros Hb Hs. unfold process_dsm_log, process_dsm. destruct (dm_type m).
  - apply process_dsm_kroot_plain.
  - now apply process_dsm_pkr_plain; auto.
Qed.

Lemma validate_mack_plain message key k prna g : length message = 60%nat -> key_ok key ->
  plain (validate_mack_log mx (mack_of_chain message key) k prna g) = validate_mack (mack_of_chain message key) k prna g.
Proof.
  intros Hl Hk. unfold validate_mack_log, validate_mack. rewrite plain_lbind, plain_quiet. apply bind_ext. intros [m|e] _; [reflexivity|].
  destruct (mack_debug_total message _ _ Hl (key_sizes_ok key Hk)) as (s & E). unfold mack_of_chain. rewrite E. cbn [bind].
  now rewrite plain_lbind, plain_log.
Qed.

Lemma process_tags_fast_plain st only key g svn n : mack_good st -> key_ok key ->
  plain (process_tags_fast_log mx st only key g svn n) = process_tags_fast st only key g svn n.
Proof.
  intros Hm Hk. unfold process_tags_fast_log, process_tags_fast. destruct only; [reflexivity|].
  rewrite plain_lbind, plain_quiet. apply bind_ext. intros [(message & s)|] E; [|reflexivity].
  destruct (Hm svn g) as (r & Er & Hr). rewrite plain_lbind, validate_mack_plain by (auto; apply (Hr message s); congruence).
  apply bind_ext. intros [m|] _; [apply process_mack_plain|reflexivity].
Qed.

Lemma process_tags_slow_plain st sk key g svn n : mack_good st -> key_ok key ->
  plain (process_tags_slow_log mx st sk key g svn n) = process_tags_slow st sk key g svn n.
Proof.
  intros Hm Hk. unfold process_tags_slow_log, process_tags_slow. destruct sk as [sk|]; [|reflexivity].
  rewrite plain_lbind, plain_quiet. apply bind_ext. intros [(message & s)|] E; [|reflexivity].
  destruct (Hm svn g) as (r & Er & Hr). rewrite plain_lbind, validate_mack_plain by (auto; apply (Hr message s); congruence).
  apply bind_ext. intros [m|] _; [apply process_mack_slowmac_plain|reflexivity].
Qed.

Lemma process_tags_plain o key : mack_good (o_mack o) -> key_ok key ->
  plain (process_tags_log mx o key) = process_tags o key.
Proof.
  intros Hm Hk. unfold process_tags_log, process_tags.
  do 4 (rewrite plain_lbind, plain_quiet; apply bind_ext; intros ? _).
  rewrite plain_lbind.
  erewrite fold_plain; [apply bind_ext; reflexivity|].
  intros n svn _. rewrite plain_lbind, process_tags_fast_plain by auto. apply bind_ext. intros n' _.
  now apply process_tags_slow_plain.
Qed.

Variables (root : option (list Z)) (user : option public_key) (slow : bool).
Notation new := (osnma_new root user slow).

(** The key disclosed in a subframe that is accepted. *)
Lemma accepted_facts h o svn g hk mk cur kb nk nv : Forall op_ok h -> rest_inv root user slow h o ->
  subframe_received h svn g hk mk -> current_key (o_keys o) = Some cur ->
  mack_key (mack_of_chain mk cur) = Ok kb -> key_from_bitslice kb g (k_chain cur) = Ok nk ->
  validate_key cur nk = Ok (ROk nv) ->
  nv = nk /\ key_ok nv /\ trusted_key root user h nv /\ k_gst nv = g /\ k_chain nv = k_chain cur /\ key_in_mack mk nv /\
  (exists n, time_of (k_gst nv) = time_of (k_gst cur) + 30 * Z.of_nat n /\
     key_before (k_chain cur) n (key_bytes nv) (time_of (k_gst nv)) (key_bytes cur)).
Proof.
  intros Hok Hinv Hsf Ec Ekb Enk Ev.
  destruct (subframe_received_bytes _ _ _ _ _ Hok Hsf) as (_ & (Hlen & _) & Hg & Hsub & Hsvn).
  destruct (ri_keys _ _ _ _ _ Hinv cur (current_key_in _ _ Ec)) as (Hcok & kr & n0 & Hroot & Haft).
  assert (Hsz : sizes_ok (ch_key_bytes (k_chain cur) * 8) (ch_tag_bits (k_chain cur))) by now apply key_sizes_ok.
  destruct (num_tags_bounds mk _ _ Hlen Hsz) as (_ & Hfit & _).
  unfold mack_of_chain in Ekb. rewrite mack_key_ok in Ekb by auto.
  set (nt := mack_num_tags (mack_new mk (ch_key_bytes (k_chain cur) * 8) (ch_tag_bits (k_chain cur)))) in *.
  destruct (key_from_bitslice_ok
    (sub ((ch_tag_bits (k_chain cur) + 16) * nt)
         ((ch_tag_bits (k_chain cur) + 16) * nt + ch_key_bytes (k_chain cur) * 8) (bits_of_bytes mk))
    g (k_chain cur) (ko_chain _ Hcok) Hg Hsub) as (new & En & Hnok & Hnch & Hng & Hnb).
  { rewrite length_sub by (rewrite length_bits_of_bytes; lia). lia. }
  assert (new = nk) as -> by congruence. clear Ekb En.
  destruct (validate_key_exact HC cur nk Hcok Hnok) as (r & Er & Hr1 & Hr2).
  assert (Er' : r = ROk nv) by congruence. subst r. subst nv.
  destruct (proj1 Hr2 ltac:(eauto)) as (_ & n1 & _ & Htime & Hbef).
  split; [reflexivity|]. split; [exact Hnok|]. split.
  { exists kr, (n1 + n0)%nat. split; [exact Hroot|]. destruct Haft as (A1 & A2 & A3).
    split; [congruence|]. split; [lia|]. apply key_before_app. exists (key_bytes cur).
    rewrite <- A1. split; [exact Hbef|]. rewrite A1.
    replace (time_of (k_gst nk) - 30 * Z.of_nat n1) with (time_of (k_gst cur)) by lia. exact A3. }
  split; [exact Hng|]. split; [exact Hnch|]. split.
  { unfold key_in_mack. rewrite Hnch, Hnb. unfold nt, mack_num_tags, mack_new. cbn [mk_data mk_key_size mk_tag_size].
    rewrite (Nat.mul_comm 8 (ch_key_bytes (k_chain cur))). reflexivity. }
  exists n1. split; [lia|exact Hbef].
Qed.

Lemma validate_key_plain h o svn g hk mk : Forall op_ok h -> rest_inv root user slow h o ->
  subframe_received h svn g hk mk ->
  plain (osnma_validate_key_log mx o mk g) = osnma_validate_key o mk g.
Proof.
  intros Hok Hinv Hsf. unfold osnma_validate_key_log, osnma_validate_key.
  destruct (current_key (o_keys o)) as [cur|] eqn:Ec; [|now rewrite plain_lbind, plain_log].
  rewrite plain_lbind, plain_quiet. apply bind_ext. intros kb Ekb.
  rewrite plain_lbind, plain_quiet. apply bind_ext. intros nk Enk.
  destruct (gst_cmp (k_gst cur) (k_gst nk)) eqn:Ecmp; [reflexivity| |now rewrite plain_lbind, plain_log].
  rewrite plain_lbind, plain_quiet. apply bind_ext. intros [nv|e] Ev; [|now rewrite plain_lbind, plain_log].
  rewrite plain_lbind, plain_log. cbn [bind]. rewrite plain_lbind, plain_quiet. apply bind_ext. intros ks Eks.
  apply process_tags_plain; [exact (rest_mack_good HS _ _ _ _ _ Hok Hinv)|].
  apply (accepted_facts h o svn g hk mk cur kb nk nv Hok Hinv Hsf Ec Ekb Enk Ev).
Qed.

(** The state in which the key is looked at. *)
Lemma process_dsm_rest h o m svn g hk mk o2 : Forall op_ok h -> rest_inv root user slow h o ->
  subframe_received h svn g hk mk -> dsm_received h (dm_id m) (dm_data m) ->
  dm_type m = (if dm_id m <? 12 then DsmKroot else DsmPkr) ->
  process_dsm o m (nth 0 hk 0) g = Ok o2 -> rest_inv root user slow h o2.
Proof.
  intros Hok Hinv Hsf Hd Ht H. unfold process_dsm in H. rewrite Ht in H. destruct (dm_id m <? 12) eqn:El.
  - eapply process_dsm_kroot_inv; [exact HC|exact Hok|exact Hinv| |exact Hd|exact Hsf|exact H]. lia.
  - eapply process_dsm_pkr_inv; [exact Hok|exact Hinv| |exact Hd|exact H]. lia.
Qed.

Lemma process_subframe_plain h o svn g hk mk : Forall op_ok h -> rest_inv root user slow h o ->
  subframe_received h svn g hk mk ->
  plain (process_subframe_log mx o hk mk svn g) = process_subframe o hk mk svn g.
Proof.
  intros Hok Hinv Hsf. destruct (subframe_received_bytes _ _ _ _ _ Hok Hsf) as ((Hlen & Hhk) & _).
  unfold process_subframe_log, process_subframe.
  assert (E0 : index hk 0 = Ok (nth 0 hk 0)) by (apply index_ok, nth_error_nth'; lia).
  assert (E1 : index hk 1 = Ok (nth 1 hk 0)) by (apply index_ok, nth_error_nth'; lia).
  rewrite plain_lbind, plain_quiet, E0. cbn [bind]. rewrite plain_lbind, mack_store_plain. apply bind_ext. intros ms Em.
  rewrite plain_lbind, plain_quiet, E1. cbn [bind]. rewrite plain_lbind. cbn [set_mack o_dsm]. rewrite dsm_feed_plain.
  apply bind_ext. intros (cd & d) Ed.
  destruct (subframe_stored HS _ _ _ _ _ _ _ _ _ _ _ _ Hok Hinv Hsf Em Ed) as (Hinv2 & Hm).
  rewrite plain_lbind. destruct d as [m|].
  - destruct (Hm m eq_refl) as (Hdr & Ht).
    rewrite process_dsm_plain.
    + apply bind_ext. intros o2 E2. apply (validate_key_plain h o2 svn g hk mk Hok); [|exact Hsf].
      exact (process_dsm_rest h _ m svn g hk mk o2 Hok Hinv2 Hsf Hdr Ht E2).
    + exact (dsm_received_bytes _ _ _ Hok Hdr).
    + intros Hp. pose proof (dsm_received_size _ _ _ Hok Hdr) as Hsz. rewrite Ht in Hp. destruct (dm_id m <? 12); [discriminate|exact Hsz].
  - cbn [bind]. exact (validate_key_plain h _ svn g hk mk Hok Hinv2 Hsf).
Qed.

(** The first part of [feed_osnma]. *)
Lemma subframe_fed h o data svn g sf r : Forall op_ok h -> op_ok (FeedOsnma data svn g) -> inv root user slow h o ->
  forallb (fun x => x =? 0) data = false -> subframe_feed (o_sub o) data svn g = Ok (sf, r) ->
  rest_inv root user slow (h ++ [FeedOsnma data svn g]) (set_sub sf o) /\
  (forall hk mk g', r = Some (hk, mk, g') ->
     subframe_received (h ++ [FeedOsnma data svn g]) svn g' hk mk /\ g' = subframe_of g).
Proof.
  intros Hok Hx (Hsub & Hrest) Hz H.
  assert (Hz' : forallb (Z.eqb 0) data = false).
  { rewrite <- Hz. clear. induction data as [|x l IH]; cbn [forallb]; [reflexivity|]. now rewrite IH, Z.eqb_sym. }
  set (w := mkWord data svn g) in *.
  assert (Hwok : word_ok w) by (destruct Hx as ((X1 & _) & X2 & X3); split; auto).
  pose proof (osnma_words_ok h Hok) as Hwords.
  destruct (subframe_feed_spec (current_run (osnma_words h)) (o_sub o) w) as (sf' & Esf & _); auto.
  { now apply Forall_current_run. }
  { intros; eapply current_run_same; eauto. }
  change (subframe_feed (o_sub o) data svn g = Ok (sf', expected_subframe (osnma_words h) w)) in Esf.
  assert (Er : expected_subframe (osnma_words h) w = r) by congruence. split.
  - destruct (rest_inv_mono root user slow h [FeedOsnma data svn g] o eq_refl Hrest) as [I1 I2 I3 I4 I5 I6 I7]. constructor; auto.
  - intros hk mk g' ->. split; [now apply completes_received|]. unfold expected_subframe in Er.
    destruct (_ && _); [|discriminate]. cbn [w w_gst] in Er. congruence.
Qed.

Lemma step_plain h o x : Forall op_ok h -> op_ok x -> inv root user slow h o ->
  plain (step_log mx o x) = step o x.
Proof.
  intros Hok Hx Hinv. destruct x as [word svn g b|data svn g]; cbn [step_log step]; [apply feed_inav_plain|].
  unfold feed_osnma_log, feed_osnma. destruct (forallb (fun x => x =? 0) data) eqn:Ez; [reflexivity|].
  rewrite plain_lbind, subframe_feed_plain. apply bind_ext. intros (sf & r) E.
  destruct (subframe_fed h o data svn g sf r Hok Hx Hinv Ez E) as (Hrest & Hrec).
  destruct r as [((hk & mk) & g')|]; [|reflexivity].
  apply (process_subframe_plain (h ++ [FeedOsnma data svn g])); [|exact Hrest|exact (proj1 (Hrec _ _ _ eq_refl))].
  apply Forall_app. split; [exact Hok|]. constructor; [exact Hx|constructor].
Qed.

Lemma run_log_app h1 h2 o : run_log mx o (h1 ++ h2) = lbind (run_log mx o h1) (fun o' => run_log mx o' h2).
Proof.
  unfold run_log. revert o. induction h1 as [|x h1 IH]; intros o; cbn [app fold_logging].
  - unfold lbind, done. cbn [bind]. destruct (fold_logging _ h2 o) as [(l & a)|]; reflexivity.
  - unfold lbind in *. destruct (step_log mx o x) as [(l & a)|]; [|reflexivity]. cbn [bind]. rewrite IH.
    destruct (fold_logging (step_log mx) h1 a) as [(l1 & a1)|]; [|reflexivity]. cbn [bind].
    destruct (fold_logging (step_log mx) h2 a1) as [(l2 & a2)|]; [|reflexivity]. cbn [bind]. now rewrite app_assoc.
Qed.

Lemma run_log_one x o : run_log mx o [x] = step_log mx o x.
Proof.
  unfold run_log. cbn [fold_logging]. unfold lbind, done. destruct (step_log mx o x) as [(l & a)|]; [|reflexivity].
  cbn [bind]. now rewrite app_nil_r.
Qed.

(** Logging is transparent. *)
Theorem run_plain h : Forall op_ok h -> plain (run_log mx new h) = run new h.
Proof.
  induction h as [|x h IH] using rev_ind; intros Hok; [reflexivity|].
  apply Forall_app in Hok. destruct Hok as (Hok & Hx). apply Forall_cons_iff in Hx. destruct Hx as (Hx & _).
  rewrite run_log_app, plain_lbind, IH, run_app by exact Hok. apply bind_ext. intros o Ho. rewrite run_log_one.
  rewrite (step_plain h o x Hok Hx (run_inv HC HS root user slow h Hok _ Ho)).
  unfold run. cbn [fold_outcome]. now destruct (step o x).
Qed.

End Crypto.

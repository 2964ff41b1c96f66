(** No warnings about the tags of a correct transmission. *)
From Coq Require Import ZArith List Bool Lia ZifyBool ZifyNat.
From Verif Require Import Model.Prelude Model.Params Model.Gst Model.Svn Model.Bitfields
  Model.Maclt Model.Tesla Model.Merkle Model.Subframe Model.Dsm Model.MackStore Model.Nav Model.Osnma
  Model.Logging
  Spec.TimeSpec Spec.CollectSpec Spec.StoreSpec Spec.NavSpec Spec.TeslaSpec Spec.KrootSpec
  Spec.MerkleSpec Spec.MacltSpec Spec.KeySpec Spec.SystemSpec Spec.StoredSpec Spec.CompleteSpec Spec.PanicSpec
  Spec.LogSpec Spec.HonestSpec Spec.CleanSpec
  Proofs.Base Proofs.Ring Proofs.Rows Proofs.GstProofs Proofs.LayoutProofs Proofs.SubframeProofs Proofs.DsmProofs
  Proofs.MackProofs Proofs.NavProofs Proofs.EntryProofs Proofs.NavInv Proofs.TeslaProofs
  Proofs.KrootProofs Proofs.MackValidProofs Proofs.MerkleProofs Proofs.TagProofs Proofs.NavHistory
  Proofs.SystemProofs Proofs.AlertProofs Proofs.GetterProofs Proofs.KeyStoreProofs Proofs.StepProofs Proofs.AuthProofs Proofs.PanicProofs
  Proofs.TotalProofs Proofs.LoggingProofs Proofs.LogRunProofs Proofs.LogTrueProofs Proofs.HonestKeys.
Import ListNotations.
Open Scope Z_scope.
Ltac Zify.zify_post_hook ::= Z.div_mod_to_equations.

(** ** Nothing is logged *)

Notation W := (Some LWarn).
Section Hushed.
Context {C : crypto} {B : build} {S : storage}.
Definition hushed {A} (x : logging A) : Prop := says (fun _ => False) x.

Lemma says_off P l x : enabled W l = false -> says P (log W l x).
Proof. intros E ls u H. unfold log in H. rewrite E in H. injection H as <- _. intros ? ? []. Qed.

Lemma hushed_nil {A} (x : logging A) ls a : hushed x -> x = Ok (ls, a) -> ls = [].
Proof. intros H E. destruct ls as [|(l, m) ls]; [reflexivity|]. elim (H _ _ E l m). now left. Qed.
End Hushed.

Ltac hush1 :=
  match goal with
  | |- says _ (lbind _ _) => apply says_lbind; [|intros ? ?]
  | |- says _ (done _) => apply says_done
  | |- says _ (quiet _) => apply says_quiet
  | |- says _ (log _ LTrace _) => apply says_off; reflexivity
  | |- says _ (log _ LDebug _) => apply says_off; reflexivity
  | |- says _ (log _ LInfo _) => apply says_off; reflexivity
  | |- says _ (match ?c with _ => _ end) => destruct c eqn:?
  | |- says _ (fold_logging _ _ _) => apply (says_fold _ (fun _ => True)); [exact I|intros ? ? _ _|intros; exact I]
  end.
Ltac hush := repeat (hush1; cbv beta).

(** ** The data *)

Lemma fields_determine k bits bits' : length bits = data_length k -> length bits' = data_length k ->
  (forall i, (i < length (icd_fields k))%nat -> field_bits k i bits = field_bits k i bits') -> bits = bits'.
Proof.
  intros H1 H2 H. destruct k; cbn [data_length] in H1, H2.
  - pose proof (H 0%nat ltac:(cbn; lia)) as F0. pose proof (H 1%nat ltac:(cbn; lia)) as F1. pose proof (H 2%nat ltac:(cbn; lia)) as F2.
    pose proof (H 3%nat ltac:(cbn; lia)) as F3. pose proof (H 4%nat ltac:(cbn; lia)) as F4. clear H.
    change (sub 0 120 bits = sub 0 120 bits') in F0.
    change (sub 120 240 bits = sub 120 240 bits') in F1.
    change (sub 240 362 bits = sub 240 362 bits') in F2.
    change (sub 362 482 bits = sub 362 482 bits') in F3.
    change (sub 482 549 bits = sub 482 549 bits') in F4.
    assert (E : forall l : list bool, length l = 549%nat -> l = sub 0 120 l ++ sub 120 240 l ++ sub 240 362 l ++ sub 362 482 l ++ sub 482 549 l).
    { intros l Hl. rewrite <- !sub_join by lia. unfold sub. cbn [skipn]. rewrite Nat.sub_0_r. rewrite firstn_all2; [reflexivity|lia]. }
    rewrite (E bits H1), (E bits' H2). now rewrite F0, F1, F2, F3, F4.
  - pose proof (H 0%nat ltac:(cbn; lia)) as F0. pose proof (H 1%nat ltac:(cbn; lia)) as F1. clear H.
    change (sub 0 99 bits = sub 0 99 bits') in F0.
    change (sub 99 141 bits = sub 99 141 bits') in F1.
    assert (E : forall l : list bool, length l = 141%nat -> l = sub 0 99 l ++ sub 99 141 l).
    { intros l Hl. rewrite <- !sub_join by lia. unfold sub. cbn [skipn]. rewrite Nat.sub_0_r. rewrite firstn_all2; [reflexivity|lia]. }
    rewrite (E bits H1), (E bits' H2). now rewrite F0, F1.
Qed.

Lemma stretch_times ws a g l : no_subframe_missed ws -> nth_error (nav_stretches ws) a = Some (g, l) ->
  forall n b g' l', (b + n = a)%nat -> nth_error (nav_stretches ws) b = Some (g', l') -> time_of g' = time_of g - 30 * Z.of_nat n.
Proof.
  intros Hm Ha n. induction n as [|n IH]; intros b g' l' Hb Hn.
  - replace b with a in Hn by lia. rewrite Ha in Hn. injection Hn as <- _. lia.
  - destruct (nth_error (nav_stretches ws) (b + 1)) as [(g1, l1)|] eqn:E.
    + pose proof (IH (b + 1)%nat g1 l1 ltac:(lia) E). pose proof (Hm b g' l' g1 l1 Hn E). lia.
    + apply nth_error_None in E. assert (a < length (nav_stretches ws))%nat by (apply nth_error_Some; congruence). lia.
Qed.

Lemma seen_data D ws k svn bits g cop : words_carry D ws -> no_subframe_missed ws -> length bits = data_length k ->
  nav_seen ws k svn bits g cop ->
  (forall i, 0 <= i < cop -> D k svn (time_of g - 30 * i) = D k svn (time_of g)) -> bits = D k svn (time_of g).
Proof.
  intros (HD1 & HD2) Hm Hlen (a & l & Ha & Hf) Hc. apply (fields_determine k); [exact Hlen|apply HD1|].
  intros i Hi. destruct (Hf i Hi) as (b & g' & l' & w & Hb & Hage & Hn & Hw & Hs & f & Ef & Ec & Eb).
  destruct (stretch_words _ _ _ _ Hn) as (_ & Hin). destruct (Hin w Hw) as (Hws & Hwg).
  rewrite <- Eb, (HD2 w k i f Hws Ef Ec), Hs, Hwg.
  rewrite (stretch_times ws a g l Hm Ha (a - b) b g' l' ltac:(lia) Hn). now rewrite Hc by lia.
Qed.

Section Crypto.
Context {C : crypto} {B : build} {S : storage}.
Hypothesis HC : crypto_ok C.
Hypothesis HS : storage_ok S.
Variables (t : transmission) (D : nav_source) (h : list op).
Hypothesis HD : words_carry D (inav_words h).
Hypothesis Hmiss : no_subframe_missed (inav_words h).

Lemma one_tag_hushed k key tag adkd cop gm gn prnd prna j s n : nav_any h n ->
  key_ok key -> gst_ok gm -> 604800 <= time_of gm -> is_byte prnd -> is_byte prna -> (length tag <= 128)%nat -> 0 <= cop < 16 ->
  seconds_after gn gm 30 ->
  (cop = 0 -> tag_matches (k_chain key) (key_bytes key) prna (time_of gm) s prnd (repeat false (data_length k)) tag j) ->
  (0 < cop -> (forall i, 0 <= i < cop -> D k prnd (time_of gm - 30 - 30 * i) = D k prnd (time_of gm - 30)) /\
     tag_matches (k_chain key) (key_bytes key) prna (time_of gm) s prnd (D k prnd (time_of gm - 30)) tag j) ->
  hushed (process_one_tag_log W k key tag adkd cop gm gn prnd prnd prna j s n).
Proof.
  intros (hs & Hr & Hok & Hi) Hk Hg Hwk Hp Ha Ht Hc Hgn H0 H1. unfold hushed, process_one_tag_log.
  destruct (cop =? 0) eqn:Ec.
  - assert (cop = 0) by lia. specialize (H0 ltac:(assumption)). subst cop. apply says_lbind; [|intros; apply says_done].
    unfold nav_validate_dummy_tag_log. apply says_lbind; [apply says_quiet|]. intros ctr Ectr. rewrite plain_quiet in Ectr.
    apply says_lbind; [apply says_quiet|]. intros r Er. rewrite plain_quiet in Er.
    rewrite validate_tag0_dummy_eq, validate_tag_dummy_eq in Er by apply kind_bits_bound.
    apply (tag_check HC) in Er; auto; [|rewrite repeat_length; apply kind_bits_bound].
    replace (kind_bits k) with (data_length k) in Er by (destruct k; reflexivity).
    apply says_lbind; [|intros; apply says_done]. apply Er in H0. subst r. hush.
  - apply says_lbind; [apply says_quiet|]. intros [e|] E; [|apply says_done]. rewrite plain_quiet in E.
    destruct (sat_add_u8 (max_age e) 1 <=? cop) eqn:Eage; [|apply says_done].
    assert (Hsub : is_subframe gn = true).
    { pose proof E as E'. unfold find_entry, find_gst in E'. bind_inv E'.
      match goal with H : bind _ _ = Ok _ |- _ => bind_inv H end.
      match goal with H : assert_ _ = Ok _ |- _ => now apply assert_ok' in H end. }
    destruct (find_entry_spec HS k hs n prnd gn Hr Hsub) as (r & Er & Hf).
    rewrite Er in E. injection E as ->.
    destruct Hf as (a & sn & Hn & Hsg & Hlen & Hfind).
    assert (Hrow : row_ok k (s_row k sn)).
    { apply nth_error_In in Hn. unfold nav_ok in Hok. rewrite Forall_forall in Hok. now apply Hok. }
    apply (find_svn_some k) in Hfind; auto. destruct Hfind as (Hin & Hsvn).
    pose proof (row_ok_in _ _ _ Hrow Hin) as Heok.
    pose proof (max_age_range _ _ Heok) as Hmax.
    assert (Hage : max_age e < cop < 16) by (unfold sat_add_u8 in Eage; lia).
    assert (Hseen : nav_seen (inav_words h) k prnd (message_bits k e) gn cop).
    { apply (tag_step_seen _ _ hs (map_snaps k (bump k prnd (message_bits k e) tag) hs) k prnd cop gn (message_bits k e) tag Hok Hi).
      exists a, sn, e. split; [exact Hn|]. split; [exact Hsg|]. split; [exact Hlen|]. split; [exact Hin|].
      split; [exact Hsvn|]. split; [reflexivity|]. split; [exact Hage|reflexivity]. }
    assert (Hmb : length (message_bits k e) = data_length k).
    { rewrite message_bits_length by auto. destruct k; reflexivity. }
    assert (Hgt : time_of gn = time_of gm - 30).
    { destruct Hgn as (G1 & _ & G3). pose proof (gst_time_bound gn G1). pose proof (gst_time_bound gm Hg). lia. }
    destruct (H1 ltac:(lia)) as (Hconst & Hmatch). rewrite <- Hgt in Hconst, Hmatch.
    rewrite <- (seen_data D (inav_words h) k prnd _ gn cop HD Hmiss Hmb Hseen Hconst) in Hmatch.
    apply says_lbind; [|intros (? & ?) _; apply says_done].
    unfold nav_validate_tag_log. apply says_lbind; [apply says_quiet|]. intros ctr Ectr. rewrite plain_quiet in Ectr.
    apply says_lbind; [apply says_quiet|]. intros r Er2. rewrite plain_quiet in Er2.
    apply (tag_check HC) in Er2; auto; [|rewrite message_bits_length by auto; apply kind_bits_bound].
    apply Er2 in Hmatch. subst r. hush.
Qed.

(** The key for tags of the transmission, disclosed at most at its end. *)
Definition right_key (key : tkey) : Prop :=
  key_ok key /\ k_chain key = tr_chain t /\ key_bytes key = tr_key t (time_of (k_gst key)) /\
  604830 <= time_of (k_gst key) <= tr_start t + 30 * Z.of_nat (tr_length t).

Section Mack.
Variables (data : list Z) (key : tkey) (prna : Z) (gm : gst) (hk : list Z).
Notation s := (status_of hk).
Hypothesis Hok : Forall op_ok h.
Hypothesis Hsf : subframe_received h prna gm hk data.
Hypothesis Hkey : right_key key.
Hypothesis Hright : mack_right D t hk data prna (time_of gm).
Hypothesis Hwk : 604800 <= time_of gm.
Notation ks := (ch_key_bytes (k_chain key) * 8)%nat.
Notation ts := (ch_tag_bits (k_chain key)).
Notation m := (mack_of_chain data key).

(** What the information of a tag says. *)
Lemma info_right j tag : (1 <= j < mack_num_tags m)%nat -> mack_tag_and_info m j = Ok tag ->
  exists svn adkd k delay, 1 <= svn <= 36 /\ adkd_means adkd k delay /\ tag_prnd tag = PrndSvid svn /\ kind_of_adkd tag k adkd delay.
Proof.
  intros Hj Et. destruct (mack_facts h data prna gm hk Hok Hsf) as (Hlen60 & _ & _).
  assert (Hsz : sizes_ok ks ts) by (apply announced_sizes_ok; apply Hkey).
  destruct (tag_at_spec data ks ts Hlen60 Hsz j Hj) as (t' & Et' & Hlen & Hinfo & Htag).
  unfold mack_of_chain in Et. rewrite Et in Et'. injection Et' as <-.
  destruct (info_fields data ks ts Hlen60 Hsz j) as (pr & ad & cop & Hpr & Had & Hcop & Hf).
  { unfold mack_of_chain in Hj. lia. }
  rewrite Hf in Hinfo.
  destruct (info_values data ks ts Hlen60 tag pr ad cop) as (V1 & V2 & V3); auto. lia.
  destruct Hkey as (Hkok & Hch & _ & _).
  assert (Hpl : tag_placed (tr_chain t) prna data pr ad cop (tag_tag tag) j).
  { rewrite <- Hch. split; [exact (num_tags_fit data key Hlen60 Hkok j (proj2 Hj))|]. split; [exact Htag|].
    destruct j as [|j]; [lia|]. exact Hf. }
  destruct Hright as (_ & Hr). destruct (Hr pr ad cop (tag_tag tag) j Hpr Had Hcop Hpl) as (R1 & k & delay & R2 & _).
  exists pr, ad, k, delay. split; [exact R1|]. split; [exact R2|]. split.
  - rewrite (prnd_of_value tag pr V1). replace ((1 <=? pr) && (pr <=? 36)) with true by lia. reflexivity.
  - unfold kind_of_adkd. rewrite (adkd_of_value tag ad V2). destruct R2 as [(-> & -> & ->)|[(-> & -> & ->)|(-> & -> & ->)]]; cbn; tauto.
Qed.

Lemma placed_hushed adkd v k delay gn tag cop prnd j n : nav_any h n -> seconds_after gn gm 30 -> seconds_after gm (k_gst key) delay ->
  0 < delay <= 330 -> 0 <= v < 16 -> is_byte prnd -> (length tag <= 128)%nat -> 0 <= cop < 16 -> adkd_means v k delay ->
  tag_placed (k_chain key) prna data prnd v cop tag j ->
  hushed (process_one_tag_log W k key tag adkd cop gm gn prnd prnd prna j s n).
Proof.
  intros Hn Hgn Hd Hdl Hv Hb Ht Hc Hm Hpl. destruct (mack_facts h data prna gm hk Hok Hsf) as (_ & Hgm & Hprna).
  destruct Hkey as (Hkok & Hch & Hkb & Hend). rewrite Hch in Hpl.
  assert (Htime : time_of (k_gst key) = time_of gm + delay).
  { destruct Hd as (_ & D2 & D3). pose proof (gst_time_bound gm Hgm). pose proof (gst_time_bound _ D2). clear - D3 H H0 Hdl Hend. lia. }
  destruct Hright as (_ & Hr). destruct (Hr prnd v cop tag j) as (R1 & k' & delay' & R2 & R3); auto.
  assert (k' = k /\ delay' = delay) as (-> & ->) by (unfold adkd_means in *; lia || (destruct Hm as [(?&?&?)|[(?&?&?)|(?&?&?)]], R2 as [(?&?&?)|[(?&?&?)|(?&?&?)]]; subst; try lia; auto)).
  destruct (R3 ltac:(lia)) as (R4 & R5). rewrite <- Htime, <- Hkb, <- Hch in R4, R5.
  apply one_tag_hushed; auto. unfold is_byte; lia.
Qed.

Lemma mack_tag_hushed gn n j : nav_any h n -> (1 <= j < mack_num_tags m)%nat -> seconds_after gn gm 30 ->
  seconds_after gm (k_gst key) 30 -> hushed (process_mack_tag_log W m key prna gm gn s n j).
Proof.
  intros Hn Hj Hgn Hd. pose proof (proj1 Hkey) as Hkok. unfold hushed, process_mack_tag_log.
  apply says_lbind; [apply says_quiet|]. intros tag Et. rewrite plain_quiet in Et.
  apply says_lbind; [hush|intros _ _].
  destruct (info_right j tag Hj Et) as (svn & adkd & k & delay & Hsvn & Hm & Ep & Hkind). rewrite Ep. cbn [prnd_to_u8].
  assert (Es : svn_try_from svn = Some svn).
  { unfold svn_try_from, num_svns. replace ((1 <=? svn) && (svn <=? Z.of_nat 36)) with true by lia. reflexivity. }
  assert (Ep' : prnd_to_u8 (tag_prnd tag) = Some svn) by now rewrite Ep.
  rewrite Es. destruct (tag_adkd tag) eqn:Ea; [| |apply says_done|].
  - destruct (other_tag_placed h data key prna gm hk Hok Hsf Hkok Ced tag 0 30 svn svn j Hj Et ltac:(unfold kind_of_adkd; tauto) Ep' Es) as (A1 & A2 & A3 & A4 & A5 & A6 & A7).
    apply (placed_hushed AdkdInavCed 0 Ced 30); auto; lia.
  - destruct (other_tag_placed h data key prna gm hk Hok Hsf Hkok Timing tag 4 30 svn svn j Hj Et ltac:(unfold kind_of_adkd; tauto) Ep' Es) as (A1 & A2 & A3 & A4 & A5 & A6 & A7).
    apply (placed_hushed AdkdInavTiming 4 Timing 30); auto; lia.
  - exfalso. unfold kind_of_adkd in Hkind. rewrite Ea in Hkind. destruct Hkind as [(A & _)|[(A & _)|(A & _)]]; discriminate A.
Qed.

Lemma slowmac_tag_hushed gn n j : nav_any h n -> (1 <= j < mack_num_tags m)%nat -> seconds_after gn gm 30 ->
  seconds_after gm (k_gst key) 330 -> hushed (process_slowmac_tag_log W m key prna gm gn s n j).
Proof.
  intros Hn Hj Hgn Hd. pose proof (proj1 Hkey) as Hkok. unfold hushed, process_slowmac_tag_log.
  apply says_lbind; [apply says_quiet|]. intros tag Et. rewrite plain_quiet in Et.
  destruct (tag_adkd tag) eqn:Ea; cbn [adkd_eqb negb]; [apply says_done|apply says_done| |apply says_done].
  destruct (info_right j tag Hj Et) as (svn & adkd & k & delay & Hsvn & Hm & Ep & Hkind). rewrite Ep. cbn [prnd_to_u8].
  assert (Es : svn_try_from svn = Some svn).
  { unfold svn_try_from, num_svns. replace ((1 <=? svn) && (svn <=? Z.of_nat 36)) with true by lia. reflexivity. }
  assert (Ep' : prnd_to_u8 (tag_prnd tag) = Some svn) by now rewrite Ep.
  rewrite Es.
  destruct (other_tag_placed h data key prna gm hk Hok Hsf Hkok Ced tag 12 330 svn svn j Hj Et ltac:(unfold kind_of_adkd; tauto) Ep' Es) as (A1 & A2 & A3 & A4 & A5 & A6 & A7).
  apply (placed_hushed AdkdSlowMac 12 Ced 330); auto; lia.
Qed.

Lemma mack_hushed n : nav_any h n -> seconds_after gm (k_gst key) 30 -> hushed (process_mack_log W n m key prna gm s).
Proof.
  intros Hn Hd. destruct (mack_facts h data prna gm hk Hok Hsf) as (Hlen60 & Hgm & Hprna). pose proof (proj1 Hkey) as Hkok.
  unfold hushed, process_mack_log.
  apply says_lbind; [hush|intros _ _].
  apply says_lbind; [apply says_quiet|]. intros gn Egn. rewrite plain_quiet in Egn.
  pose proof (seconds_before data key Hlen60 gm gn Hgm Egn) as Hgn.
  apply says_lbind; [apply says_quiet|]. intros cop Ec. rewrite plain_quiet in Ec.
  apply says_lbind; [apply says_quiet|]. intros tag0 Et. rewrite plain_quiet in Et.
  destruct (tag0_placed h data key prna gm hk Hok Hsf Hkok cop tag0 Ec Et) as (A1 & A2 & A3).
  assert (Hb : is_byte prna) by (unfold is_byte; lia).
  apply says_lbind.
  { apply (placed_hushed AdkdInavCed 0 Ced 30); auto; try lia. left; auto. }
  intros n1 E1. rewrite process_one_tag_plain in E1.
  assert (Hn1 : nav_any h n1) by (eapply (process_one_tag_any HC HS); [exact Hn| | | | | | |exact E1]; auto).
  apply (says_fold _ (nav_any h)); [exact Hn1| |].
  - intros n2 j Hj Hn2. apply (in_tag_numbers data key Hlen60) in Hj. now apply mack_tag_hushed.
  - intros n2 j n3 Hj Hn2 E. apply (in_tag_numbers data key Hlen60) in Hj. rewrite process_mack_tag_plain in E.
    eapply (process_mack_tag_any HC HS); eauto.
Qed.

Lemma mack_slowmac_hushed n : nav_any h n -> seconds_after gm (k_gst key) 330 ->
  hushed (process_mack_slowmac_log W n m key prna gm s).
Proof.
  intros Hn Hd. destruct (mack_facts h data prna gm hk Hok Hsf) as (Hlen60 & Hgm & Hprna). pose proof (proj1 Hkey) as Hkok.
  unfold hushed, process_mack_slowmac_log.
  apply says_lbind; [apply says_quiet|]. intros gn Egn. rewrite plain_quiet in Egn.
  pose proof (seconds_before data key Hlen60 gm gn Hgm Egn) as Hgn.
  apply (says_fold _ (nav_any h)); [exact Hn| |].
  - intros n2 j Hj Hn2. apply (in_tag_numbers data key Hlen60) in Hj. now apply slowmac_tag_hushed.
  - intros n2 j n3 Hj Hn2 E. apply (in_tag_numbers data key Hlen60) in Hj. rewrite process_slowmac_tag_plain in E.
    eapply (process_slowmac_tag_any HC HS); eauto.
Qed.

(** The MACSEQ and the sequence of ADKDs, with the key of the next subframe. *)
Lemma validate_mack_hushed mkey : right_key mkey -> seconds_after gm (k_gst mkey) 30 ->
  hushed (validate_mack_log W m mkey prna gm).
Proof.
  intros (M1 & M2 & M3 & M4) Hd.
  destruct (subframe_received_bytes _ _ _ _ _ Hok Hsf) as (_ & (Hlen & _) & Hg & _ & Hprna).
  assert (Htime : time_of (k_gst mkey) = time_of gm + 30).
  { destruct Hd as (_ & D2 & D3). pose proof (gst_time_bound gm Hg). pose proof (gst_time_bound _ D2). clear - D3 H H0 M4. lia. }
  unfold hushed, validate_mack_log. apply says_lbind; [apply says_quiet|]. intros [m'|e] E; [apply says_done|]. rewrite plain_quiet in E.
  exfalso. destruct Hright as (Hv & _). specialize (Hv ltac:(lia)). destruct Hkey as (Hkok & Hkch & _).
  unfold mack_of_chain in E. rewrite (Nat.mul_comm 8) in Hv. rewrite <- Htime, <- M3, <- M2 in Hv.
  assert (Hch : k_chain key = k_chain mkey) by congruence. rewrite Hch in E.
  assert (Hsz : sizes_ok (ch_key_bytes (k_chain mkey) * 8) (ch_tag_bits (k_chain mkey))) by (apply announced_sizes_ok; apply M1).
  assert (Hp : is_byte prna) by (unfold is_byte; lia).
  assert (Hnp : ~ (~ mac_usable mkey \/ ~ flx_in_range data (ch_key_bytes (k_chain mkey) * 8) (ch_tag_bits (k_chain mkey)) (k_chain mkey) gm)).
  { intros Hc. apply (mack_validate_panic HC data _ _ Hlen Hsz mkey prna gm M1 Hg Hp) in Hc. congruence. }
  destruct (mac_usable_dec mkey) as [Hu|Hu]; [|exfalso; apply Hnp; auto].
  destruct (flx_in_range_dec data (ch_key_bytes (k_chain mkey) * 8) (ch_tag_bits (k_chain mkey)) (k_chain mkey) gm) as [Hf|Hf]; [|exfalso; apply Hnp; auto].
  destruct (mack_validate_exact HC data _ _ Hlen Hsz mkey prna gm M1 Hu Hg Hp Hf) as (r & Er & Hr1 & Hr2).
  rewrite Er in E. injection E as ->. apply Hr2 in Hv. destruct Hv as (m' & Hv). discriminate.
Qed.
End Mack.

(** ** All tags *)

Section Tags.
Variables (root : option (list Z)) (user : option public_key) (slow : bool).
Variable key : tkey.
Hypothesis Hok : Forall op_ok h.
Hypothesis Hkey : right_key key.
Hypothesis Htrust : trusted_key root user h key.
Hypothesis Hstart : 604800 <= tr_start t.
Variables (its : list item) (st : mack_storage).
Hypothesis Hms : represents_ms (stretches its) st.

(** A MACK message of the transmission. *)
Definition item_fine (it : item) : Prop :=
  exists hk, subframe_received h (it_svn it) (it_gst it) hk (it_message it) /\ it_status it = status_of hk /\
    tr_start t + 30 <= time_of (it_gst it) /\ mack_right D t hk (it_message it) (it_svn it) (time_of (it_gst it)).
Hypothesis Hits : Forall item_fine its.

Lemma items_fine_received : Forall (item_received h) its.
Proof.
  eapply Forall_impl; [|exact Hits]. intros it (hk & H1 & H2 & _). exists hk. split; [exact H1|exact H2].
Qed.

Lemma fine_found svn g message s : mack_get st svn g = Ok (Some (message, s)) ->
  exists hk, subframe_received h svn g hk message /\ s = status_of hk /\ tr_start t + 30 <= time_of g /\ mack_right D t hk message svn (time_of g).
Proof.
  intros H. destruct (mack_get_total HS _ _ svn g Hms) as (r & Er & Hr).
  rewrite Er in H. injection H as ->. destruct Hr as (a & l & Ha & _ & Hf); [discriminate|].
  unfold find_item in Hf. destruct (find (fun x => it_svn x =? svn) (firstn num_sats l)) as [x|] eqn:Ex; [|discriminate].
  cbn in Hf. injection Hf as <- <-. apply find_some in Ex. destruct Ex as (Hx & Hsvn). apply Z.eqb_eq in Hsvn.
  apply In_firstn in Hx. destruct (stretches_in its g l x) as (Hin & Hg); auto.
  { eapply nth_error_In; eauto. }
  rewrite Forall_forall in Hits. destruct (Hits x Hin) as (hk & H1 & H2 & H3 & H4). exists hk. subst. auto.
Qed.

Lemma tags_fast_hushed only g svn n : seconds_after g (k_gst key) 30 -> nav_any h n ->
  hushed (process_tags_fast_log W st only key g svn n).
Proof.
  intros Hg Hn. unfold hushed, process_tags_fast_log. destruct only; [apply says_done|].
  apply says_lbind; [apply says_quiet|]. intros [(message, s)|] E; [|apply says_done]. rewrite plain_quiet in E.
  destruct (fine_found _ _ _ _ E) as (hk & Hsf & -> & Hwk & Hr).
  destruct (subframe_received_bytes _ _ _ _ _ Hok Hsf) as (_ & (Hlen & _) & Hgok & _ & Hsvn).
  apply says_lbind; [exact (validate_mack_hushed message key svn g hk Hok Hsf Hkey Hr key Hkey Hg)|].
  intros [m|] E2; [|apply says_done]. rewrite validate_mack_plain in E2 by (auto; apply Hkey).
  destruct (checked_facts HC root user h key Hok (proj1 Hkey) message hk key key 0 svn g m Hsf) as (-> & _);
    [exact (fast_key_facts root user h key (proj1 Hkey) Htrust g Hg)|exact E2|].
  exact (mack_hushed message key svn g hk Hok Hsf Hkey Hr ltac:(lia) n Hn Hg).
Qed.

Lemma tags_slow_hushed mkey held nd g svn n : seconds_after g (k_gst key) 330 ->
  (forall k, mkey = Some k -> mack_key_facts root user h g k held nd /\ (tr_start t + 30 <= time_of g -> right_key k)) -> nav_any h n ->
  hushed (process_tags_slow_log W st mkey key g svn n).
Proof.
  intros Hg Hmk Hn. unfold hushed, process_tags_slow_log. destruct mkey as [mkey|]; [|apply says_done].
  apply says_lbind; [apply says_quiet|]. intros [(message, s)|] E; [|apply says_done]. rewrite plain_quiet in E.
  destruct (fine_found _ _ _ _ E) as (hk & Hsf & -> & Hwk & Hr).
  destruct (subframe_received_bytes _ _ _ _ _ Hok Hsf) as (_ & (Hlen & _) & Hgok & _ & Hsvn).
  destruct (Hmk mkey eq_refl) as (Hmf & Hrk). specialize (Hrk Hwk).
  apply says_lbind; [exact (validate_mack_hushed message key svn g hk Hok Hsf Hkey Hr mkey Hrk (proj1 (proj2 Hmf)))|].
  intros [m|] E2; [|apply says_done]. rewrite validate_mack_plain in E2 by (auto; apply Hkey).
  destruct (checked_facts HC root user h key Hok (proj1 Hkey) message hk mkey held nd svn g m Hsf Hmf E2) as (-> & _).
  exact (mack_slowmac_hushed message key svn g hk Hok Hsf Hkey Hr ltac:(lia) n Hn Hg).
Qed.
End Tags.

Section All.
Variables (root : option (list Z)) (user : option public_key) (slow : bool) (pk : public_key).
Hypothesis Ht : transmission_ok pk t.
Hypothesis Hok : Forall op_ok h.

(** The key of the slow MAC. *)
Lemma slow_key key gk mkey : key_ok key -> gst_ok gk -> is_subframe gk = true ->
  slowmac_key_of (with_key t key) gk = Ok mkey ->
  exists nd, forall k, mkey = Some k -> key_ok k /\ k_gst k = gk /\ k_chain k = k_chain key /\
     time_of (k_gst key) = time_of (k_gst k) + 30 * Z.of_nat nd /\
     key_before (k_chain key) nd (key_bytes key) (time_of (k_gst key)) (key_bytes k).
Proof.
  intros Hhok Hgk Hsub H. unfold slowmac_key_of in H.
  destruct (key_past_chain (with_key t key) gk) as [held|] eqn:Eh.
  2: { injection H as <-. exists 0%nat. discriminate. }
  assert (held = key) as -> by exact (with_key_held t key held (key_past_chain_in _ _ _ Eh)).
  destruct (0 <=? subframes_difference (k_gst key) gk) eqn:E0.
  2: { injection H as <-. exists 0%nat. discriminate. }
  pose proof (subframes_difference_exact (k_gst key) gk (ko_gst _ Hhok) Hgk (ko_sub _ Hhok) Hsub) as Hd.
  set (nd := Z.to_nat (subframes_difference (k_gst key) gk)) in *.
  assert (Hge : 0 <= time_of gk) by (destruct gk as [wg tg], Hgk; unfold time_of; cbn [g_wn g_tow] in *; lia).
  destruct (derive_spec HC nd key Hhok ltac:(lia)) as (k' & Ek & K1 & K2 & K3 & K4).
  bind_inv H. rewrite Ek in E. injection E as <-. injection H as <-.
  exists nd. intros k E. injection E as <-.
  split; [exact K1|]. split.
  { apply time_of_inj; [apply K1|exact Hgk|]. lia. }
  split; [exact K2|]. split; [lia|exact K4].
Qed.

Lemma process_tags_hushed o key its : rest_inv root user slow h o ->
  represents_ms (stretches its) (o_mack o) -> Forall item_fine its ->
  o_keys o = with_key t key -> trusted_key root user h key -> chain_key t key -> tr_start t + 30 <= time_of (k_gst key) ->
  hushed (process_tags_log W o key).
Proof.
  intros Hinv Hms Hits Hks Htrust (Hkok & Hkch & n0 & Hn0 & Hkt & Hkb) Hfirst. unfold hushed, process_tags_log.
  assert (Hstart : 604800 <= tr_start t) by apply Ht.
  assert (Hrk : right_key key).
  { split; [exact Hkok|]. split; [exact Hkch|]. split; [exact Hkb|]. lia. }
  assert (Hnav : nav_any h (o_nav o)).
  { destruct (ri_nav _ _ _ _ _ Hinv) as (hs & N1 & N2 & N3). exists hs. split; [exact N1|]. split; [exact N2|].
    eapply nav_inv_weaken; [|exact N3]. auto. }
  pose proof (ko_gst _ Hkok) as Hgok.
  apply says_lbind; [apply says_quiet|]. intros gm E. rewrite plain_quiet in E.
  apply says_lbind; [apply says_quiet|]. intros gs E0. rewrite plain_quiet in E0.
  apply says_lbind; [apply says_quiet|]. intros gk E1. rewrite plain_quiet in E1.
  apply says_lbind; [apply says_quiet|]. intros mkey E2. rewrite plain_quiet in E2.
  apply (seconds_before_n _ _ 30) in E; [|auto|lia].
  apply (seconds_before_n _ _ 300) in E0; [|apply E|lia].
  pose proof E1 as E1'. apply add_seconds_exact in E1'; [|auto|lia]. destruct E1' as (Hgk & Hgkt & _).
  apply (seconds_before_n _ _ 300) in E1; [|auto|lia].
  assert (Hsub : is_subframe gk = true).
  { apply is_subframe_start. pose proof (ko_sub _ Hkok) as Hsubk. apply is_subframe_start in Hsubk.
    destruct Hsubk as (nk & Hnk). rewrite Hgkt, Hnk.
    exists (nk - 10 - 65536 * 20160 * ((30 * nk + -300) / (65536 * 604800))).
    pose proof (Z.div_mod (30 * nk + -300) (65536 * 604800) ltac:(lia)). lia. }
  rewrite Hks in E2.
  destruct (slow_key key gk mkey Hkok Hgk Hsub E2) as (nd & Hmk).
  assert (Hslow : seconds_after gs (k_gst key) 330).
  { apply (seconds_after_trans gs gm (k_gst key) 300 30); auto. }
  assert (Hslow30 : seconds_after gs gk 30).
  { destruct Hslow as (S1 & S2 & S3), E1 as (T1 & _ & T3). split; auto. split; auto.
    apply Z.mod_divide in S3; [|lia]. apply Z.mod_divide in T3; [|lia]. apply (proj2 (Z.mod_divide _ (65536 * 604800) ltac:(lia))).
    replace (time_of gs + 30 - time_of gk)
      with ((time_of gs + 330 - time_of (k_gst key)) - (time_of gk + 300 - time_of (k_gst key))) by lia.
    now apply Z.divide_sub_r. }
  assert (Hmk2 : forall k, mkey = Some k -> mack_key_facts root user h gs k key nd).
  { intros k Ek. destruct (Hmk k Ek) as (M1 & M2 & M4 & M5 & M6). split; [exact M1|]. split; [rewrite M2; exact Hslow30|].
    split; [exact Htrust|]. split; [exact M4|]. split; [exact M5|exact M6]. }
  assert (Hmk3 : forall k, mkey = Some k -> mack_key_facts root user h gs k key nd /\ (tr_start t + 30 <= time_of gs -> right_key k)).
  { intros k Ek. split; [exact (Hmk2 k Ek)|]. intros Hgs. destruct (Hmk k Ek) as (M1 & M2 & M4 & M5 & M6).
    assert (Hkgs : time_of (k_gst key) = time_of gs + 330).
    { destruct Hslow as (S1 & _ & S3). pose proof (gst_time_bound gs S1). pose proof (gst_time_bound _ Hgok). clear - S3 H H0 Hfirst Hstart. lia. }
    assert (Hkgk : time_of gk = time_of gs + 30).
    { destruct Hslow30 as (S1 & _ & S3). pose proof (gst_time_bound gs S1). pose proof (gst_time_bound _ Hgk). clear - S3 H H0 Hkgs Hgkt Hfirst Hstart Hgok.
      pose proof (gst_time_bound _ Hgok). lia. }
    rewrite M2 in M5.
    assert (nd = 10%nat) as -> by lia.
    split; [exact M1|]. split; [congruence|]. split; [|rewrite M2; lia].
    rewrite M2. pose proof (keys_lead_back pk t Ht (n0 - 10) 10 ltac:(lia)) as Hlb.
    replace (n0 - 10 + 10)%nat with n0 in Hlb by lia. rewrite <- Hkt, <- Hkb, <- Hkch in Hlb.
    replace (tr_start t + 30 * Z.of_nat (n0 - 10)) with (time_of gk) in Hlb by lia.
    exact (key_before_fun _ _ _ _ _ _ M6 Hlb). }
  pose proof (items_fine_received its Hits) as Hrec.
  apply says_lbind; [|intros; apply says_done].
  apply (says_fold _ (nav_any h)); [exact Hnav| |].
  - intros n svn _ Hn. apply says_lbind; [exact (tags_fast_hushed root user key Hok Hrk Htrust Hstart its _ Hms Hits _ gm svn n E Hn)|].
    intros n1 E3. rewrite process_tags_fast_plain in E3;
      [|exact (rest_mack_good HS _ _ _ _ _ Hok Hinv)|exact Hkok].
    apply (tags_slow_hushed root user key Hok Hrk Hstart its _ Hms Hits mkey key nd gs svn n1 Hslow Hmk3).
    exact (process_tags_fast_any HC HS root user h key Hok Hkok Htrust its _ Hms Hrec _ gm svn n n1 E Hn E3).
  - intros n svn n' _ Hn E3. rewrite plain_lbind in E3.
    rewrite process_tags_fast_plain in E3;
      [|exact (rest_mack_good HS _ _ _ _ _ Hok Hinv)|exact Hkok]. bind_inv E3.
    rewrite process_tags_slow_plain in E3;
      [|exact (rest_mack_good HS _ _ _ _ _ Hok Hinv)|exact Hkok].
    apply (process_tags_slow_any HC HS root user h key Hok Hkok its _ Hms Hrec mkey key nd gs svn x n' Hslow Hmk2); [|exact E3].
    exact (process_tags_fast_any HC HS root user h key Hok Hkok Htrust its _ Hms Hrec _ gm svn n x E Hn E4).
Qed.
End All.
End Crypto.

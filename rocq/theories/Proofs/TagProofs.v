(** What processing a MACK message does to the navigation data storage. *)
From Coq Require Import ZArith List Bool Lia ZifyBool ZifyNat.
From Verif Require Import Model.Prelude Model.Params Model.Gst Model.Svn Model.Bitfields
  Model.Maclt Model.Tesla Model.Merkle Model.Nav Model.Osnma
  Spec.TimeSpec Spec.NavSpec Spec.TeslaSpec Spec.KrootSpec Spec.SystemSpec
  Proofs.Base Proofs.GstProofs Proofs.LayoutProofs Proofs.MackProofs Proofs.NavProofs Proofs.EntryProofs
  Proofs.NavInv Proofs.TeslaProofs Proofs.KrootProofs Proofs.MackValidProofs.
Import ListNotations.
Open Scope Z_scope.

Section Crypto.
Context {C : crypto} {B : build} {S : storage}.
Hypothesis HC : crypto_ok C.
Hypothesis HS : storage_ok S.

(** A verified tag: the data is the one of the satellite in a recorded subframe of time [gn],
    with no word older than the COP allows, and all the copies of the data get the bits. *)
Definition tag_step (k : nav_kind) (svn cop : Z) (gn : gst) (bits tag : list bool)
    (hs hs' : list snap) : Prop :=
  exists a s e, nth_error hs a = Some s /\ s_gst s = gn /\ (length hs <= a + nav_depth)%nat /\
    In e (s_row k s) /\ e_svn e = Some svn /\ bits = message_bits k e /\ max_age e < cop < 16 /\
    hs' = map_snaps k (bump k svn bits tag) hs.

Inductive tag_steps (Q : nav_kind -> Z -> Z -> Z -> gst -> list bool -> list bool -> Prop)
  : list snap -> list snap -> Prop :=
| steps_none : forall hs, tag_steps Q hs hs
| steps_more : forall k svn adkd cop gn bits tag hs hs1 hs2,
    tag_steps Q hs hs1 -> Q k svn adkd cop gn bits tag -> tag_step k svn cop gn bits tag hs1 hs2 ->
    tag_steps Q hs hs2.

Lemma tag_steps_trans Q hs1 hs2 hs3 : tag_steps Q hs1 hs2 -> tag_steps Q hs2 hs3 -> tag_steps Q hs1 hs3.
Proof.
  intros H1 H2. revert H1. induction H2 as [|k svn adkd cop gn bits tag hs h1 h2 H IH HQ Hs]; intros H1; auto.
  eapply steps_more; [exact (IH H1)|exact HQ|exact Hs].
Qed.

Lemma tag_steps_weaken (Q Q' : nav_kind -> Z -> Z -> Z -> gst -> list bool -> list bool -> Prop) hs hs' :
  (forall k svn adkd cop gn bits tag, Q k svn adkd cop gn bits tag -> Q' k svn adkd cop gn bits tag) ->
  tag_steps Q hs hs' -> tag_steps Q' hs hs'.
Proof.
  intros HQ H. induction H; [constructor|]. eapply steps_more; eauto.
Qed.

(** The same with the numbers of the tags. *)
Inductive tag_run (Q : nat -> nav_kind -> Z -> Z -> Z -> gst -> list bool -> list bool -> Prop)
  : list nat -> list snap -> list snap -> Prop :=
| run_none : forall hs, tag_run Q [] hs hs
| run_more : forall j js k svn adkd cop gn bits tag hs hs1 hs2,
    tag_run Q js hs hs1 -> Q j k svn adkd cop gn bits tag -> tag_step k svn cop gn bits tag hs1 hs2 ->
    tag_run Q (js ++ [j]) hs hs2.

Lemma tag_run_trans Q js1 js2 hs1 hs2 hs3 : tag_run Q js1 hs1 hs2 -> tag_run Q js2 hs2 hs3 ->
  tag_run Q (js1 ++ js2) hs1 hs3.
Proof.
  intros H1 H2. revert H1. induction H2 as [|j js k svn adkd cop gn bits tag hs h1 h2 H IH HQ Hs]; intros H1.
  - now rewrite app_nil_r.
  - rewrite app_assoc. eapply run_more; [exact (IH H1)|exact HQ|exact Hs].
Qed.

Lemma tag_run_one (Q : nat -> nav_kind -> Z -> Z -> Z -> gst -> list bool -> list bool -> Prop)
    j k svn adkd cop gn bits tag hs hs' :
  Q j k svn adkd cop gn bits tag -> tag_step k svn cop gn bits tag hs hs' -> tag_run Q [j] hs hs'.
Proof. intros HQ Hs. apply (run_more Q j [] k svn adkd cop gn bits tag hs hs hs'); [constructor|exact HQ|exact Hs]. Qed.

Lemma tag_run_steps (Q : nat -> nav_kind -> Z -> Z -> Z -> gst -> list bool -> list bool -> Prop)
    (Q' : nav_kind -> Z -> Z -> Z -> gst -> list bool -> list bool -> Prop) js hs hs' :
  (forall j k svn adkd cop gn bits tag, Q j k svn adkd cop gn bits tag -> Q' k svn adkd cop gn bits tag) ->
  tag_run Q js hs hs' -> tag_steps Q' hs hs'.
Proof. intros HQ H. induction H; [constructor|]. eapply steps_more; eauto. Qed.

Lemma tag_step_length k svn cop gn bits tag hs hs' :
  tag_step k svn cop gn bits tag hs hs' -> length hs' = length hs.
Proof. intros (a & s & e & _ & _ & _ & _ & _ & _ & _ & ->). unfold map_snaps. now rewrite map_length. Qed.

Lemma bump_new k svn bits tag : bump k svn bits tag (entry_new k) = entry_new k.
Proof. reflexivity. Qed.

Lemma message_bits_length k e : entry_ok k e -> length (message_bits k e) = kind_bits k.
Proof.
  intros H. unfold message_bits. rewrite length_sub. lia. rewrite (eo_data _ _ H).
  pose proof (kind_bits_bytes k). lia.
Qed.

Lemma kind_bits_bound k : (kind_bits k <= 550)%nat.
Proof. destruct k; cbn; lia. Qed.

(** The message that tag number [j] is computed over. *)
Definition tag_message (j : nat) (prnd prna t : Z) (s : nma_status_t) (bits : list bool) : list bool :=
  match j with
  | O => tag_bits None prna t 1 s bits
  | _ => tag_bits (Some prnd) prna t (Z.of_nat j + 1) s bits
  end.

Lemma nav_validate_tag_spec key tag gm prnd prna j s k e l r l' :
  key_ok key -> gst_ok gm -> is_byte prnd -> is_byte prna -> (length tag <= 128)%nat ->
  (length (message_bits k e) <= 550)%nat ->
  nav_validate_tag key tag gm prnd prna j s k e l = Ok (r, l') ->
  (r = true <-> tag_of (ch_mac (k_chain key)) (key_bytes key)
                       (tag_message j prnd prna (time_of gm) s (message_bits k e)) tag) /\
  l' = if r then match s with NmaOperational | NmaTest => add_authbits_all k tag e l | _ => l end else l.
Proof.
  intros Hk Hg Hp Ha Ht Hm H. unfold nav_validate_tag in H.
  bind_inv H. bind_inv H. injection H as <- <-. split; [|reflexivity].
  unfold tag_ctr in E. destruct (Z.of_nat j + 1 <? 256) eqn:Ej; [|discriminate]. injection E as <-.
  assert (Hu : mac_usable key).
  { destruct j; unfold validate_tag0, validate_tag in E0; bind_inv E0;
      eapply mac_digest_ok_iff; eauto. }
  destruct j as [|j].
  - destruct (validate_tag0_spec HC key tag gm prna s (message_bits k e)) as (r & Er & Hr); auto.
    rewrite E0 in Er. injection Er as <-. exact Hr.
  - destruct (validate_tag_spec HC key tag gm prnd prna (Z.of_nat (Datatypes.S j) + 1) s (message_bits k e))
      as (r & Er & Hr); auto. unfold is_byte; lia.
    rewrite E0 in Er. injection Er as <-. exact Hr.
Qed.

Lemma process_one_tag_steps k key tag cop gm gn prnd svn prna j s n n' hs :
  represents_nav hs n -> nav_ok hs -> key_ok key -> gst_ok gm -> is_byte prnd -> is_byte prna ->
  (length tag <= 128)%nat -> 0 <= cop < 16 ->
  process_one_tag k key tag cop gm gn prnd svn prna j s n = Ok n' ->
  exists hs', represents_nav hs' n' /\ nav_ok hs' /\
    (hs' = hs \/
     (0 < cop /\ (s = NmaTest \/ s = NmaOperational) /\ exists bits,
        tag_step k svn cop gn bits tag hs hs' /\
        tag_of (ch_mac (k_chain key)) (key_bytes key) (tag_message j prnd prna (time_of gm) s bits) tag)).
Proof.
  intros Hr Hok Hk Hg Hp Ha Ht Hc H. unfold process_one_tag in H.
  destruct (cop =? 0) eqn:Ec.
  { bind_inv H. injection H as <-. exists hs. auto. }
  bind_inv H.
  assert (Hsub : is_subframe gn = true).
  { unfold find_entry, find_gst in E. bind_inv E. bind_inv E0. now apply assert_ok' in E1. }
  destruct (find_entry_spec HS k hs n svn gn Hr Hsub) as (r & Er & Hf).
  rewrite Er in E. injection E as <-. destruct r as [e|]; [|injection H as <-; exists hs; auto].
  destruct Hf as (a & sn & Hn & Hsg & Hlen & Hfind).
  assert (Hrow : row_ok k (s_row k sn)).
  { apply nth_error_In in Hn. unfold nav_ok in Hok. rewrite Forall_forall in Hok. now apply Hok. }
  apply (find_svn_some k) in Hfind; auto. destruct Hfind as (Hin & Hsvn).
  pose proof (row_ok_in _ _ _ Hrow Hin) as Heok.
  destruct (sat_add_u8 (max_age e) 1 <=? cop) eqn:Eage; [|injection H as <-; exists hs; auto].
  bind_inv H. destruct x as [r l]. injection H as <-.
  assert (Hml : (length (message_bits k e) <= 550)%nat).
  { rewrite message_bits_length by auto. apply kind_bits_bound. }
  destruct (nav_validate_tag_spec _ _ _ _ _ _ _ _ _ _ _ _ Hk Hg Hp Ha Ht Hml E) as (Hv & ->).
  pose proof (max_age_range _ _ Heok) as Hmax.
  assert (Hage : max_age e < cop < 16). { unfold sat_add_u8 in Eage. lia. }
  assert (Hsame : set_nv_arr k (nv_arr k n) n = n) by (destruct k, n; reflexivity).
  assert (Hstep : r = true -> (s = NmaTest \/ s = NmaOperational) ->
    exists hs', represents_nav hs' (set_nv_arr k (add_authbits_all k tag e (nv_arr k n)) n) /\ nav_ok hs' /\
    (hs' = hs \/
     (0 < cop /\ (s = NmaTest \/ s = NmaOperational) /\ exists bits,
        tag_step k svn cop gn bits tag hs hs' /\
        tag_of (ch_mac (k_chain key)) (key_bytes key) (tag_message j prnd prna (time_of gm) s bits) tag))).
  { intros -> Hs. exists (map_snaps k (bump k svn (message_bits k e) tag) hs). split; [|split].
    - assert (He : add_authbits_all k tag e (nv_arr k n) = map (bump k svn (message_bits k e) tag) (nv_arr k n)).
      { unfold add_authbits_all, bump. rewrite Hsvn. reflexivity. }
      rewrite He. apply map_entries_spec; auto.
    - apply map_snaps_ok; auto. apply bump_neutral.
    - right. split; [lia|]. split; auto. exists (message_bits k e). split.
      + exists a, sn, e. repeat split; auto; lia.
      + now apply Hv. }
  destruct r; [|rewrite Hsame; exists hs; auto].
  destruct s; [rewrite Hsame; exists hs; auto| | |rewrite Hsame; exists hs; auto]; apply Hstep; auto.
Qed.

(** ** The tags of a MACK message *)

Section Mack.
Variables (data : list Z) (key : tkey) (prna : Z) (gm : gst) (s : nma_status_t).
Hypothesis Hdata : length data = 60%nat.
Hypothesis Hkey : key_ok key.
Hypothesis Hgm : gst_ok gm.
Hypothesis Hprna : 1 <= prna <= 36.
Let ks := (ch_key_bytes (k_chain key) * 8)%nat.
Let ts := ch_tag_bits (k_chain key).
Let m := mack_new data ks ts.

Lemma mack_sizes : sizes_ok ks ts.
Proof. apply announced_sizes_ok; apply Hkey. Qed.

(** What is known of a tag that added authentication bits. *)
Definition tag_facts (delay : Z) (k : nav_kind) (svn adkd cop : Z) (gn : gst) (bits tag : list bool) : Prop :=
  (s = NmaTest \/ s = NmaOperational) /\ adkd_means adkd k delay /\ 0 < cop < 16 /\
  seconds_after gn gm 30 /\
  tag_in_mack (k_chain key) (key_bytes key) prna (time_of gm) s data svn adkd cop bits tag.

(** The same for tag number [j]. *)
Definition tag_facts_at (delay : Z) (j : nat) (k : nav_kind) (svn adkd cop : Z) (gn : gst)
    (bits tag : list bool) : Prop :=
  (s = NmaTest \/ s = NmaOperational) /\ adkd_means adkd k delay /\ 0 < cop < 16 /\
  seconds_after gn gm 30 /\
  tag_at (k_chain key) (key_bytes key) prna (time_of gm) s data svn adkd cop bits tag j.

Lemma tag_facts_forget delay j k svn adkd cop gn bits tag :
  tag_facts_at delay j k svn adkd cop gn bits tag -> tag_facts delay k svn adkd cop gn bits tag.
Proof.
  intros (H1 & H2 & H3 & H4 & H5). split; [exact H1|]. split; [exact H2|]. split; [exact H3|].
  split; [exact H4|]. exists j. exact H5.
Qed.

(** Nothing was counted, or tag number [j]. *)
Definition tag_maybe (delay : Z) (j : nat) (hs hs' : list snap) : Prop :=
  hs' = hs \/ tag_run (tag_facts_at delay) [j] hs hs'.

Lemma num_tags_fit j : (j < mack_num_tags m)%nat ->
  ((ts + 16) * (j + 1) + 8 * ch_key_bytes (k_chain key) <= 480)%nat.
Proof.
  pose proof mack_sizes as (H1 & H2). unfold mack_num_tags, m, mack_new. cbn [mk_key_size mk_tag_size].
  intros Hj. assert (((ts + 16) * ((480 - ks) / (ts + 16)) <= 480 - ks)%nat).
  { apply Nat.mul_div_le. lia. }
  assert ((ts + 16) * (j + 1) <= (ts + 16) * ((480 - ks) / (ts + 16)))%nat.
  { apply Nat.mul_le_mono_l. lia. }
  unfold ks in *. lia.
Qed.

Lemma num_tags_pos : (0 < mack_num_tags m)%nat.
Proof.
  pose proof mack_sizes as (H1 & H2). unfold mack_num_tags, m, mack_new. cbn [mk_key_size mk_tag_size].
  apply Nat.div_str_pos. lia.
Qed.

Lemma seconds_before g g' : gst_ok g -> add_seconds g (-30) = Ok g' -> seconds_after g' g 30.
Proof.
  intros Hg E. destruct (add_seconds_exact g (-30) g' Hg ltac:(lia) E) as (H1 & H2 & _).
  unfold seconds_after. repeat split; try apply H1; try apply Hg.
  rewrite H2. rewrite <- Zminus_mod_idemp_l. rewrite Z.add_mod_idemp_l by lia.
  rewrite Zminus_mod_idemp_l. replace (time_of g + -30 + 30 - time_of g) with 0 by lia. reflexivity.
Qed.

Lemma be_load4 l : length l = 4%nat -> l = be 4 (load_be l).
Proof. intros H. rewrite <- H. symmetry. apply be_load_be. Qed.

Lemma load_be_lt l : 0 <= load_be l < 2 ^ Z.of_nat (length l).
Proof. apply load_be_range. Qed.

Lemma tag_size_le : (ts <= 40)%nat.
Proof. pose proof mack_sizes as (_ & H). lia. Qed.

Definition kind_of_adkd (t : list bool) (k : nav_kind) (v delay : Z) : Prop :=
  tag_adkd t = AdkdInavCed /\ k = Ced /\ v = 0 /\ delay = 30 \/
  tag_adkd t = AdkdInavTiming /\ k = Timing /\ v = 4 /\ delay = 30 \/
  tag_adkd t = AdkdSlowMac /\ k = Ced /\ v = 12 /\ delay = 330.

(** One tag other than tag 0. *)
Lemma other_tag_steps k t v delay gn prnd svn n n' hs j :
  represents_nav hs n -> nav_ok hs -> (1 <= j < mack_num_tags m)%nat -> seconds_after gn gm 30 ->
  mack_tag_and_info m j = Ok t -> kind_of_adkd t k v delay ->
  prnd_to_u8 (tag_prnd t) = Some prnd -> svn_try_from prnd = Some svn ->
  process_one_tag k key (tag_tag t) (tag_cop t) gm gn prnd svn prna j s n = Ok n' ->
  exists hs', represents_nav hs' n' /\ nav_ok hs' /\ tag_maybe delay j hs hs'.
Proof.
  intros Hr Hok Hj Hgn Et Hkind Hprnd Hsvn H.
  destruct (tag_at_spec data ks ts Hdata mack_sizes j Hj) as (t' & Et' & Hlen & Hinfo & Htag).
  fold m in Et'. rewrite Et in Et'. injection Et' as <-.
  destruct (info_fields data ks ts Hdata mack_sizes j) as (pr & ad & cop & Hpr & Had & Hcop & Hf).
  { fold m. lia. }
  rewrite Hf in Hinfo.
  destruct (info_values data ks ts Hdata t pr ad cop) as (V1 & V2 & V3); auto. lia.
  rewrite (prnd_of_value t pr V1) in Hprnd. rewrite V3 in H.
  assert (Hsv : prnd = pr /\ svn = pr /\ 1 <= pr <= 36).
  { destruct ((1 <=? pr) && (pr <=? 36)) eqn:E1; cbn [prnd_to_u8] in Hprnd.
    - injection Hprnd as <-. unfold svn_try_from, num_svns in Hsvn.
      destruct ((1 <=? pr) && (pr <=? Z.of_nat 36)) eqn:E2; [|discriminate]. injection Hsvn as <-.
      repeat split; lia.
    - destruct (pr =? 255) eqn:E3; cbn [prnd_to_u8] in Hprnd; [|discriminate]. injection Hprnd as <-.
      unfold svn_try_from, num_svns in Hsvn. cbn in Hsvn. discriminate. }
  destruct Hsv as (-> & -> & Hpr2).
  pose proof tag_size_le as Hts.
  destruct (process_one_tag_steps k key (tag_tag t) cop gm gn pr pr prna j s n n' hs) as (hs' & H1 & H2 & H3);
    auto; try (unfold is_byte; lia).
  { unfold tag_tag. rewrite length_sub; lia. }
  exists hs'. split; [assumption|]. split; [assumption|]. destruct H3 as [->|(Hc & Hs & bits & Hstep & Hmac)]; [now left|right].
  apply (tag_run_one (tag_facts_at delay) j k pr v cop gn bits (tag_tag t)); [|exact Hstep].
  assert (ad = v /\ adkd_means v k delay) as (-> & Hm).
  { unfold kind_of_adkd in Hkind. rewrite (adkd_of_value t ad V2) in Hkind. unfold adkd_means.
    destruct (ad =? 0) eqn:A0; destruct (ad =? 4) eqn:A4; destruct (ad =? 12) eqn:A12;
    destruct Hkind as [(A & -> & -> & ->)|[(A & -> & -> & ->)|(A & -> & -> & ->)]]; try discriminate A; (split; [lia|tauto]). }
  split; [exact Hs|]. split; [exact Hm|]. split; [lia|]. split; [exact Hgn|].
  split; [apply num_tags_fit; lia|]. split; [exact Htag|].
  destruct j as [|j]; [lia|]. split; [exact Hf|exact Hmac].
Qed.

Lemma tag_zero_steps gn cop tag0 n n' hs :
  represents_nav hs n -> nav_ok hs -> seconds_after gn gm 30 ->
  mack_cop m = Ok cop -> mack_tag0 m = Ok tag0 ->
  process_one_tag Ced key tag0 cop gm gn prna prna prna 0 s n = Ok n' ->
  exists hs', represents_nav hs' n' /\ nav_ok hs' /\ tag_maybe 30 0 hs hs'.
Proof.
  intros Hr Hok Hgn Ec Et H. pose proof mack_sizes as (Hks & Hts).
  unfold mack_cop, mack_tag0, m, mack_new in Ec, Et. cbn [mk_data mk_tag_size] in Ec, Et.
  pose proof (length_bits_of_bytes data) as Hlb. rewrite Hdata in Hlb.
  rewrite slice_in in Et by lia. injection Et as <-.
  rewrite slice_in in Ec by lia. cbn [bind] in Ec. injection Ec as <-.
  set (cop := load_be (sub (ts + 12) (ts + 12 + 4) (bits_of_bytes data))) in *.
  assert (Hcl : length (sub (ts + 12) (ts + 12 + 4) (bits_of_bytes data)) = 4%nat) by (rewrite length_sub; lia).
  assert (Hcop : 0 <= cop < 16).
  { pose proof (load_be_lt (sub (ts + 12) (ts + 12 + 4) (bits_of_bytes data))) as R.
    rewrite Hcl in R. unfold cop. lia. }
  destruct (process_one_tag_steps Ced key (sub 0 ts (bits_of_bytes data)) cop gm gn prna prna prna 0 s n n' hs)
    as (hs' & H1 & H2 & H3); auto; try (unfold is_byte; lia).
  { rewrite length_sub; lia. }
  exists hs'. split; [assumption|]. split; [assumption|]. destruct H3 as [->|(Hc & Hs & bits & Hstep & Hmac)]; [now left|right].
  apply (tag_run_one (tag_facts_at 30) 0 Ced prna 0 cop gn bits (sub 0 ts (bits_of_bytes data))); [|exact Hstep].
  split; [exact Hs|]. split. { left. auto. } split; [lia|]. split; [exact Hgn|].
  split; [apply num_tags_fit; apply num_tags_pos|].
  split. { fold ts. replace (((ts + 16) * 0)%nat) with 0%nat by lia. reflexivity. }
  split; [reflexivity|]. split; [reflexivity|]. split; [|exact Hmac].
  exists (load_be (sub ts (ts + 12) (bits_of_bytes data))).
  fold ts. unfold info_at. replace ((ts + 16) * 0 + ts)%nat with ts by lia.
  replace ((ts + 16) * (0 + 1))%nat with (ts + 12 + 4)%nat by lia.
  rewrite (sub_join ts (ts + 12)) by lia. f_equal.
  - symmetry. apply be_load_sub; lia.
  - unfold cop. symmetry. apply be_load_sub; lia.
Qed.

Lemma process_mack_tag_steps gn n n' hs j :
  represents_nav hs n -> nav_ok hs -> (1 <= j < mack_num_tags m)%nat -> seconds_after gn gm 30 ->
  process_mack_tag m key prna gm gn s n j = Ok n' ->
  exists hs', represents_nav hs' n' /\ nav_ok hs' /\ tag_maybe 30 j hs hs'.
Proof.
  intros Hr Hok Hj Hgn H. unfold process_mack_tag in H. bind_inv H. rename x into t.
  assert (Hnone : Ok n = Ok n' ->
    exists hs', represents_nav hs' n' /\ nav_ok hs' /\ tag_maybe 30 j hs hs').
  { intros Hn. injection Hn as <-. exists hs. split; [assumption|]. split; [assumption|]. now left. }
  destruct (prnd_to_u8 (tag_prnd t)) as [prnd|] eqn:Ep; [|auto].
  destruct (tag_adkd t) eqn:Ea; [| |auto|auto];
    (destruct (svn_try_from prnd) as [svn|] eqn:Es; [|auto]).
  - apply (other_tag_steps Ced t 0 30 gn prnd svn n n' hs j); auto. unfold kind_of_adkd; tauto.
  - apply (other_tag_steps Timing t 4 30 gn prnd svn n n' hs j); auto. unfold kind_of_adkd; tauto.
Qed.

Lemma process_slowmac_tag_steps gn n n' hs j :
  represents_nav hs n -> nav_ok hs -> (1 <= j < mack_num_tags m)%nat -> seconds_after gn gm 30 ->
  process_slowmac_tag m key prna gm gn s n j = Ok n' ->
  exists hs', represents_nav hs' n' /\ nav_ok hs' /\ tag_maybe 330 j hs hs'.
Proof.
  intros Hr Hok Hj Hgn H. unfold process_slowmac_tag in H. bind_inv H. rename x into t.
  assert (Hnone : Ok n = Ok n' ->
    exists hs', represents_nav hs' n' /\ nav_ok hs' /\ tag_maybe 330 j hs hs').
  { intros Hn. injection Hn as <-. exists hs. split; [assumption|]. split; [assumption|]. now left. }
  destruct (tag_adkd t) eqn:Ea; cbn [adkd_eqb negb] in H; [auto|auto| |auto].
  destruct (prnd_to_u8 (tag_prnd t)) as [prnd|] eqn:Ep; [|auto].
  destruct (svn_try_from prnd) as [svn|] eqn:Es; [|auto].
  apply (other_tag_steps Ced t 12 330 gn prnd svn n n' hs j); auto. unfold kind_of_adkd; tauto.
Qed.

Lemma fold_steps (f : nav -> nat -> outcome nav) delay js : forall n n' hs, NoDup js ->
  (forall j n n' hs, In j js -> represents_nav hs n -> nav_ok hs -> f n j = Ok n' ->
     exists hs', represents_nav hs' n' /\ nav_ok hs' /\ tag_maybe delay j hs hs') ->
  represents_nav hs n -> nav_ok hs -> fold_outcome f js n = Ok n' ->
  exists hs' js', represents_nav hs' n' /\ nav_ok hs' /\ tag_run (tag_facts_at delay) js' hs hs' /\
    NoDup js' /\ incl js' js.
Proof.
  induction js as [|j js IH]; intros n n' hs Hd Hf Hr Hok H.
  - injection H as <-. exists hs, []. split; [assumption|]. split; [assumption|]. split; [constructor|].
    split; [constructor|]. intros x [].
  - cbn [fold_outcome] in H. bind_inv H. apply NoDup_cons_iff in Hd. destruct Hd as (Hj & Hd).
    destruct (Hf j n x hs) as (h1 & R1 & O1 & S1); auto. left; auto.
    destruct (IH x n' h1) as (h2 & js' & R2 & O2 & S2 & D2 & I2); auto.
    { intros i a b c Hi. apply Hf. right; auto. }
    destruct S1 as [->|S1].
    + exists h2, js'. split; [assumption|]. split; [assumption|]. split; [exact S2|]. split; [exact D2|].
      intros i Hi. right. now apply I2.
    + exists h2, ([j] ++ js'). split; [assumption|]. split; [assumption|].
      split; [eapply tag_run_trans; eauto|]. split.
      * constructor; [|exact D2]. intros Hin. now apply Hj, I2.
      * intros i [->|Hi]; [now left|right; now apply I2].
Qed.

Lemma in_tag_numbers j : In j (seq 1 (mack_num_tags m - 1)) -> (1 <= j < mack_num_tags m)%nat.
Proof. intros H. apply in_seq in H. lia. Qed.

Lemma process_mack_run n n' hs :
  represents_nav hs n -> nav_ok hs -> process_mack n m key prna gm s = Ok n' ->
  exists hs' js, represents_nav hs' n' /\ nav_ok hs' /\ tag_run (tag_facts_at 30) js hs hs' /\ NoDup js.
Proof.
  intros Hr Hok H. unfold process_mack in H.
  bind_inv H. bind_inv H. bind_inv H. bind_inv H.
  pose proof (seconds_before _ _ Hgm E) as Hgn.
  destruct (tag_zero_steps _ _ _ _ _ _ Hr Hok Hgn E0 E1 E2) as (h1 & R1 & O1 & S1).
  destruct (fold_steps (process_mack_tag m key prna gm x s) 30 (seq 1 (mack_num_tags m - 1)) x2 n' h1)
    as (h2 & js & R2 & O2 & S2 & D2 & I2); auto.
  { apply seq_NoDup. }
  { intros j a b c Hj Ra Oa Hf. apply in_tag_numbers in Hj.
    eapply process_mack_tag_steps; eauto. }
  destruct S1 as [->|S1].
  - exists h2, js. auto.
  - exists h2, ([0%nat] ++ js). split; [assumption|]. split; [assumption|]. split; [eapply tag_run_trans; eauto|].
    constructor; [|exact D2]. intros Hin. apply I2, in_tag_numbers in Hin. lia.
Qed.

Lemma process_mack_slowmac_run n n' hs :
  represents_nav hs n -> nav_ok hs -> process_mack_slowmac n m key prna gm s = Ok n' ->
  exists hs' js, represents_nav hs' n' /\ nav_ok hs' /\ tag_run (tag_facts_at 330) js hs hs' /\ NoDup js.
Proof.
  intros Hr Hok H. unfold process_mack_slowmac in H. bind_inv H.
  pose proof (seconds_before _ _ Hgm E) as Hgn.
  destruct (fold_steps (process_slowmac_tag m key prna gm x s) 330 (seq 1 (mack_num_tags m - 1)) n n' hs)
    as (h2 & js & R2 & O2 & S2 & D2 & I2); auto.
  { apply seq_NoDup. }
  { intros j a b c Hj Ra Oa Hf. apply in_tag_numbers in Hj. eapply process_slowmac_tag_steps; eauto. }
  exists h2, js. auto.
Qed.

Lemma process_mack_steps n n' hs :
  represents_nav hs n -> nav_ok hs -> process_mack n m key prna gm s = Ok n' ->
  exists hs', represents_nav hs' n' /\ nav_ok hs' /\ tag_steps (tag_facts 30) hs hs'.
Proof.
  intros Hr Hok H. destruct (process_mack_run n n' hs Hr Hok H) as (hs' & js & H1 & H2 & H3 & _).
  exists hs'. split; [exact H1|]. split; [exact H2|]. revert H3. apply tag_run_steps. exact (tag_facts_forget 30).
Qed.

Lemma process_mack_slowmac_steps n n' hs :
  represents_nav hs n -> nav_ok hs -> process_mack_slowmac n m key prna gm s = Ok n' ->
  exists hs', represents_nav hs' n' /\ nav_ok hs' /\ tag_steps (tag_facts 330) hs hs'.
Proof.
  intros Hr Hok H. destruct (process_mack_slowmac_run n n' hs Hr Hok H) as (hs' & js & H1 & H2 & H3 & _).
  exists hs'. split; [exact H1|]. split; [exact H2|]. revert H3. apply tag_run_steps. exact (tag_facts_forget 330).
Qed.

End Mack.
End Crypto.

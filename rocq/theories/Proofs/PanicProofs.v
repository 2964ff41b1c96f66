(** Which calls panic. *)
From Coq Require Import ZArith List Bool Lia ZifyBool ZifyNat.
From Verif Require Import Model.Prelude Model.Params Model.Gst Model.Svn Model.Bitfields
  Model.Maclt Model.Tesla Model.Merkle Model.Subframe Model.Dsm Model.MackStore Model.Nav Model.Osnma
  Spec.TimeSpec Spec.CollectSpec Spec.StoreSpec Spec.NavSpec Spec.TeslaSpec Spec.KrootSpec
  Spec.MerkleSpec Spec.MacltSpec Spec.KeySpec Spec.SystemSpec Spec.StoredSpec Spec.CompleteSpec Spec.PanicSpec
  Proofs.Base Proofs.Ring Proofs.Rows Proofs.GstProofs Proofs.LayoutProofs Proofs.SubframeProofs Proofs.DsmProofs
  Proofs.MackProofs Proofs.NavProofs Proofs.EntryProofs Proofs.NavInv Proofs.TeslaProofs
  Proofs.KrootProofs Proofs.MackValidProofs Proofs.MerkleProofs Proofs.TagProofs Proofs.NavHistory
  Proofs.SystemProofs Proofs.GetterProofs Proofs.KeyStoreProofs Proofs.StepProofs.
Import ListNotations.
Open Scope Z_scope.

Ltac Zify.zify_post_hook ::= Z.div_mod_to_equations.

Section Crypto.
Context {C : crypto} {B : build} {S : storage}.
Hypothesis HC : crypto_ok C.
Hypothesis HS : storage_ok S.

(** ** Times *)

Lemma sub_seconds_total g n : gst_ok g -> is_subframe g = true -> 0 <= n <= 100 ->
  (overflow_checks = true -> 30 * n <= time_of g) ->
  exists g', add_seconds g (- (30 * n)) = Ok g' /\ gst_ok g' /\ is_subframe g' = true /\
    (30 * n <= time_of g -> time_of g' = time_of g - 30 * n).
Proof.
  intros Hg Hs Hn Hov. destruct (add_seconds g (- (30 * n))) as [g'|] eqn:E.
  - exists g'. split; [reflexivity|]. apply add_seconds_exact in E; [|auto|lia]. destruct E as (H1 & H2 & H3 & _).
    split; [exact H1|]. split.
    + apply is_subframe_start. apply is_subframe_start in Hs. destruct Hs as (q & Hq). rewrite H2, Hq.
      exists ((q - n) mod (65536 * 20160)).
      replace (30 * q + - (30 * n)) with (30 * (q - n)) by lia.
      change (65536 * 604800) with (30 * (65536 * 20160)). rewrite Z.mul_mod_distr_l by lia. reflexivity.
    + intros Hle. rewrite H3; [lia|]. unfold representable. pose proof (conj Hg Hle) as (Hgg & _).
      destruct g as [w t]. unfold gst_ok, time_of in *. cbn [g_wn g_tow] in *. lia.
  - exfalso. apply add_seconds_panic in E; [|auto|lia]. destruct E as [E|(Eo & E)]; [lia|]. apply E.
    specialize (Hov Eo). destruct g as [w t]. unfold representable, gst_ok, time_of in *. cbn [g_wn g_tow] in *. lia.
Qed.

(** ** Tags *)

Definition nav_good (n : nav) : Prop := exists hs, represents_nav hs n /\ nav_ok hs.

Lemma process_one_tag_total k key tag cop gm gn prnd svn prna j s n :
  nav_good n -> key_ok key -> mac_usable key -> gst_ok gm -> is_subframe gn = true ->
  is_byte prnd -> is_byte prna -> (length tag <= 128)%nat -> (j < 255)%nat -> 0 <= cop < 16 ->
  exists n', process_one_tag k key tag cop gm gn prnd svn prna j s n = Ok n' /\ nav_good n'.
Proof.
  intros (hs & Hn & Hok) Hk Hu Hgm Hgn Hd Ha Ht Hj Hcop.
  assert (Hval : forall l, (length l <= 550)%nat -> exists r,
            (match j with
             | O => validate_tag0 key tag gm prna s l
             | _ => validate_tag key tag gm prnd prna (Z.of_nat j + 1) s l
             end) = Ok r).
  { intros l Hl. destruct j as [|j'].
    - destruct (validate_tag0_spec HC key tag gm prna s l Hk Hu Hgm Ha Hl Ht) as (r & Er & _). eauto.
    - destruct (validate_tag_spec HC key tag gm prnd prna (Z.of_nat (Datatypes.S j') + 1) s l Hk Hu Hgm Hd Ha)
        as (r & Er & _); [unfold is_byte; lia|auto|auto|]. eauto. }
  assert (Ectr : tag_ctr j = Ok (Z.of_nat j + 1)).
  { unfold tag_ctr. replace (Z.of_nat j + 1 <? 256) with true by lia. reflexivity. }
  assert (Htot : exists n', process_one_tag k key tag cop gm gn prnd svn prna j s n = Ok n').
  { unfold process_one_tag. destruct (cop =? 0).
    - unfold nav_validate_dummy_tag. rewrite Ectr. cbn [bind].
      pose proof (kind_bits_bound k) as Hkb.
      destruct (Hval (repeat false (kind_bits k))) as (r & Er); [rewrite repeat_length; exact Hkb|].
      destruct j as [|j'].
      + rewrite validate_tag0_dummy_eq by exact Hkb. rewrite Er. cbn [bind]. eauto.
      + rewrite validate_tag_dummy_eq by exact Hkb. rewrite Er. cbn [bind]. eauto.
    - destruct (find_entry_spec HS k hs n svn gn Hn Hgn) as (r & Er & Hr). rewrite Er. cbn [bind].
      destruct r as [e|]; [|eauto]. destruct (sat_add_u8 (max_age e) 1 <=? cop); [|eauto].
      unfold nav_validate_tag. rewrite Ectr. cbn [bind].
      destruct (Hval (message_bits k e)) as (v & Ev).
      + destruct Hr as (a & sn & H1 & _ & _ & H4). apply find_some in H4. destruct H4 as (H4 & _).
        rewrite message_bits_length; [apply kind_bits_bound|].
        unfold nav_ok in Hok. rewrite Forall_forall in Hok. apply nth_error_In in H1.
        destruct (Hok sn H1 k) as (Hrow & _). rewrite Forall_forall in Hrow. apply Hrow. exact H4.
      + destruct j as [|j']; rewrite Ev; cbn [bind]; eauto. }
  destruct Htot as (n' & E). exists n'. split; [exact E|].
  destruct (process_one_tag_steps HC HS k key tag cop gm gn prnd svn prna j s n n' hs Hn Hok Hk Hgm Hd Ha Ht Hcop E)
    as (hs' & H1 & H2 & _). exists hs'. auto.
Qed.

Section Mack.
Variables (data : list Z) (key : tkey) (prna : Z) (gm : gst) (s : nma_status_t).
Hypothesis Hdata : length data = 60%nat.
Hypothesis Hkey : key_ok key.
Hypothesis Husable : mac_usable key.
Hypothesis Hgm : gst_ok gm.
Hypothesis Hgms : is_subframe gm = true.
Hypothesis Hgmt : overflow_checks = true -> 30 <= time_of gm.
Hypothesis Hprna : 1 <= prna <= 36.
Let ks := (ch_key_bytes (k_chain key) * 8)%nat.
Let ts := ch_tag_bits (k_chain key).
Let m := mack_new data ks ts.

Lemma mack_sizes_ok : sizes_ok ks ts.
Proof. apply announced_sizes_ok; apply Hkey. Qed.

Lemma tags_number j : In j (seq 1 (mack_num_tags m - 1)) -> (1 <= j < mack_num_tags m)%nat /\ (j < 255)%nat.
Proof.
  intros Hj. apply in_seq in Hj. destruct (num_tags_bounds data ks ts Hdata mack_sizes_ok) as (Hb & _).
  fold m in Hb. lia.
Qed.

Lemma tag_cop_range t : 0 <= tag_cop t < 16.
Proof.
  unfold tag_cop. pose proof (load_be_lt (sub (length t - 4) (length t) t)) as H.
  assert (Hl : (length (sub (length t - 4) (length t) t) <= 4)%nat).
  { unfold sub. rewrite firstn_length. lia. }
  assert (2 ^ Z.of_nat (length (sub (length t - 4) (length t) t)) <= 2 ^ 4) by (apply Z.pow_le_mono_r; lia).
  change (2 ^ 4) with 16 in *. lia.
Qed.

Lemma tag_size_small : (ts <= 40)%nat.
Proof. apply tag_bits_bound. apply Hkey. Qed.

Lemma tag_len j t : (1 <= j < mack_num_tags m)%nat -> mack_tag_and_info m j = Ok t -> (length (tag_tag t) <= 128)%nat.
Proof.
  intros Hj Et. destruct (tag_at_spec data ks ts Hdata mack_sizes_ok j Hj) as (t' & Et' & Hl & _).
  fold m in Et'. assert (t' = t) as -> by congruence. unfold tag_tag, sub.
  rewrite firstn_length. pose proof tag_size_small. lia.
Qed.

Lemma svn_byte v x : svn_try_from v = Some x -> is_byte v.
Proof. intros H. apply svn_try_from_iff in H. unfold is_byte. lia. Qed.

Lemma process_mack_total n : nav_good n ->
  exists n', process_mack n m key prna gm s = Ok n' /\ nav_good n'.
Proof.
  intros Hn. unfold process_mack.
  destruct (sub_seconds_total gm 1 Hgm Hgms ltac:(lia) ltac:(intros; specialize (Hgmt H); lia)) as (gn & Egn & _ & Hgn & _).
  change (-30) with (- (30 * 1)). rewrite Egn. cbn [bind].
  unfold m. rewrite mack_cop_ok, mack_tag0_ok by (auto using mack_sizes_ok). cbn [bind]. fold m.
  set (cop := load_be _). set (tag0 := sub 0 ts _).
  assert (Hcop : 0 <= cop < 16).
  { unfold cop. pose proof (load_be_lt (sub (ts + 12) (ts + 16) (bits_of_bytes data))) as H.
    rewrite length_sub in H by (rewrite length_bits_of_bytes; pose proof tag_size_small; lia).
    replace (ts + 16 - (ts + 12))%nat with 4%nat in H by lia. change (2 ^ Z.of_nat 4) with 16 in H. lia. }
  assert (Ht0 : (length tag0 <= 128)%nat).
  { unfold tag0, sub. rewrite firstn_length. pose proof tag_size_small. lia. }
  assert (Hbyte : is_byte prna) by (unfold is_byte; lia).
  destruct (process_one_tag_total Ced key tag0 cop gm gn prna prna prna 0 s n Hn Hkey Husable Hgm Hgn Hbyte Hbyte Ht0
              ltac:(lia) Hcop) as (n1 & E1 & Hn1).
  rewrite E1. cbn [bind]. apply fold_outcome_total; [|exact Hn1].
  intros n2 j Hj Hn2. apply tags_number in Hj. destruct Hj as (Hj & Hj').
  unfold process_mack_tag. destruct (tag_at_spec data ks ts Hdata mack_sizes_ok j Hj) as (t & Et & _).
  fold m in Et. pose proof (tag_len j t Hj Et) as Htl. rewrite Et. cbn [bind].
  destruct (prnd_to_u8 (tag_prnd t)) as [prnd|]; [|eauto].
  destruct (tag_adkd t); try (exists n2; split; [reflexivity|exact Hn2]);
    (destruct (svn_try_from prnd) as [sv|] eqn:Es; [|eauto]);
    apply process_one_tag_total; auto using tag_cop_range; eapply svn_byte; eauto.
Qed.

Lemma process_slowmac_total n : nav_good n ->
  exists n', process_mack_slowmac n m key prna gm s = Ok n' /\ nav_good n'.
Proof.
  intros Hn. unfold process_mack_slowmac.
  destruct (sub_seconds_total gm 1 Hgm Hgms ltac:(lia) ltac:(intros; specialize (Hgmt H); lia)) as (gn & Egn & _ & Hgn & _).
  change (-30) with (- (30 * 1)). rewrite Egn. cbn [bind].
  assert (Hbyte : is_byte prna) by (unfold is_byte; lia).
  apply fold_outcome_total; [|exact Hn].
  intros n2 j Hj Hn2. apply tags_number in Hj. destruct Hj as (Hj & Hj').
  unfold process_slowmac_tag. destruct (tag_at_spec data ks ts Hdata mack_sizes_ok j Hj) as (t & Et & _).
  fold m in Et. pose proof (tag_len j t Hj Et) as Htl. rewrite Et. cbn [bind].
  destruct (negb _); [eauto|]. destruct (prnd_to_u8 (tag_prnd t)) as [prnd|]; [|eauto].
  destruct (svn_try_from prnd) as [sv|] eqn:Es; [|eauto].
  apply process_one_tag_total; auto using tag_cop_range; eapply svn_byte; eauto.
Qed.

End Mack.

(** ** The tags for a new key *)

Lemma validate_mack_total message key mkey prna g : length message = 60%nat ->
  key_ok key -> key_ok mkey -> gst_ok g -> 1 <= prna <= 36 ->
  mac_fits (k_chain mkey) -> flx_fits (k_chain mkey) (k_chain key) ->
  exists r, validate_mack (mack_of_chain message key) mkey prna g = Ok r /\
    forall m, r = Some m -> m = mack_of_chain message key.
Proof.
  intros Hm Hk Hmk Hg Hp Hfit Hflx.
  assert (Hsz : sizes_ok (ch_key_bytes (k_chain key) * 8) (ch_tag_bits (k_chain key))).
  { apply announced_sizes_ok; apply Hk. }
  destruct (mack_validate_exact HC message _ _ Hm Hsz mkey prna g Hmk Hfit Hg ltac:(unfold is_byte; lia)) as (r & Er & Hr & _).
  { intros codes Hc. specialize (Hflx _ _ Hc). unfold mack_num_tags, mack_new. cbn [mk_key_size mk_tag_size].
    rewrite (Nat.mul_comm (ch_key_bytes (k_chain key)) 8). exact Hflx. }
  unfold validate_mack, mack_of_chain. rewrite Er. cbn [bind]. eexists. split; [reflexivity|].
  intros m Em. destruct r as [m'|]; [|discriminate]. congruence.
Qed.

Definition mack_good (st : mack_storage) : Prop := forall svn g, exists r, mack_get st svn g = Ok r /\
  forall message s, r = Some (message, s) -> length message = 60%nat.

Lemma tags_fast_total st sl key gm svn n : mack_good st -> nav_good n -> key_ok key ->
  gst_ok gm -> is_subframe gm = true -> (overflow_checks = true -> 30 <= time_of gm) -> 1 <= svn <= 36 ->
  mac_fits (k_chain key) -> flx_fits (k_chain key) (k_chain key) ->
  exists n', process_tags_fast st sl key gm svn n = Ok n' /\ nav_good n'.
Proof.
  intros Hst Hn Hk Hg Hgs Hgt Hsvn Hm Hf. unfold process_tags_fast. destruct sl; [eauto|].
  destruct (Hst svn gm) as (r & Er & Hr). rewrite Er. cbn [bind].
  destruct r as [(message, s)|]; [|eauto]. specialize (Hr _ _ eq_refl).
  destruct (validate_mack_total message key key svn gm Hr Hk Hk Hg Hsvn Hm Hf) as (v & Ev & Hv).
  rewrite Ev. cbn [bind]. destruct v as [m|]; [|eauto]. rewrite (Hv m eq_refl).
  apply process_mack_total; auto.
Qed.

Lemma tags_slow_total st mkey key gm svn n : mack_good st -> nav_good n -> key_ok key ->
  gst_ok gm -> is_subframe gm = true -> (overflow_checks = true -> 30 <= time_of gm) -> 1 <= svn <= 36 ->
  mac_fits (k_chain key) ->
  (forall k, mkey = Some k -> key_ok k /\ mac_fits (k_chain k) /\ flx_fits (k_chain k) (k_chain key)) ->
  exists n', process_tags_slow st mkey key gm svn n = Ok n' /\ nav_good n'.
Proof.
  intros Hst Hn Hk Hg Hgs Hgt Hsvn Hm Hmk. unfold process_tags_slow. destruct mkey as [mkey|]; [|eauto].
  destruct (Hmk mkey eq_refl) as (Hmok & Hmf & Hmx).
  destruct (Hst svn gm) as (r & Er & Hr). rewrite Er. cbn [bind].
  destruct r as [(message, s)|]; [|eauto]. specialize (Hr _ _ eq_refl).
  destruct (validate_mack_total message key mkey svn gm Hr Hk Hmok Hg Hsvn Hmf Hmx) as (v & Ev & Hv).
  rewrite Ev. cbn [bind]. destruct v as [m|]; [|eauto]. rewrite (Hv m eq_refl).
  apply process_slowmac_total; auto.
Qed.

(** The chains of the keys can be used. *)
Definition chains_fit (ks : key_store) : Prop :=
  forall k k', held ks k -> held ks k' -> mac_fits (k_chain k) /\ flx_fits (k_chain k) (k_chain k').

Lemma slowmac_key_total ks gk : (forall k, held ks k -> key_ok k) -> gst_ok gk -> is_subframe gk = true ->
  exists r, slowmac_key_of ks gk = Ok r /\
    forall k, r = Some k -> key_ok k /\ exists k0, held ks k0 /\ k_chain k = k_chain k0.
Proof.
  intros Hks Hgk Hsub. unfold slowmac_key_of.
  destruct (key_past_chain ks gk) as [hk|] eqn:Eh.
  2: { exists None. split; [reflexivity|discriminate]. }
  apply key_past_chain_in in Eh. pose proof (Hks hk Eh) as Hhok.
  destruct (0 <=? subframes_difference (k_gst hk) gk) eqn:E0.
  2: { exists None. split; [reflexivity|discriminate]. }
  pose proof (subframes_difference_exact (k_gst hk) gk (ko_gst _ Hhok) Hgk (ko_sub _ Hhok) Hsub) as Hd.
  assert (Hge : 0 <= time_of gk) by (destruct gk as [wg tg], Hgk; unfold time_of; cbn [g_wn g_tow] in *; lia).
  destruct (derive_spec HC (Z.to_nat (subframes_difference (k_gst hk) gk)) hk Hhok ltac:(lia)) as (k' & Ek & K1 & K2 & _).
  rewrite Ek. cbn [bind]. exists (Some k'). split; [reflexivity|]. intros k E. injection E as <-. eauto.
Qed.

Lemma process_tags_total o key : mack_good (o_mack o) -> nav_good (o_nav o) ->
  (forall k, held (o_keys o) k -> key_ok k) -> held (o_keys o) key -> chains_fit (o_keys o) ->
  (overflow_checks = true -> 360 <= time_of (k_gst key)) ->
  exists o', process_tags o key = Ok o'.
Proof.
  intros Hst Hn Hks Hkey Hfit Ht. pose proof (Hks key Hkey) as Hk.
  pose proof (ko_gst _ Hk) as Hg. pose proof (ko_sub _ Hk) as Hs. unfold process_tags.
  destruct (sub_seconds_total (k_gst key) 1 Hg Hs ltac:(lia) ltac:(intros E; specialize (Ht E); lia))
    as (gm & Egm & Hgm & Hgms & Hgmt).
  change (-30) with (- (30 * 1)). rewrite Egm. cbn [bind].
  destruct (sub_seconds_total gm 10 Hgm Hgms ltac:(lia)) as (gs & Egs & Hgs & Hgss & Hgst).
  { intros E; specialize (Ht E). rewrite Hgmt; lia. }
  change (-300) with (- (30 * 10)). rewrite Egs. cbn [bind].
  destruct (sub_seconds_total (k_gst key) 10 Hg Hs ltac:(lia) ltac:(intros E; specialize (Ht E); lia))
    as (gk & Egk & Hgk & Hgks & _).
  rewrite Egk. cbn [bind].
  destruct (slowmac_key_total (o_keys o) gk Hks Hgk Hgks) as (mkey & Em & Hmk). rewrite Em. cbn [bind].
  destruct (fold_outcome_total (fun n svn =>
            n <- process_tags_fast (o_mack o) (o_slow o) key gm svn n ;;
            process_tags_slow (o_mack o) mkey key gs svn n) nav_good svn_iter (o_nav o)) as (n' & En & _).
  - intros n svn Hsvn Hn1. apply svn_iter_in in Hsvn.
    destruct (tags_fast_total (o_mack o) (o_slow o) key gm svn n Hst Hn1 Hk Hgm Hgms) as (n2 & E2 & Hn2); auto.
    { intros E; specialize (Ht E). rewrite Hgmt; lia. }
    { apply (Hfit key key); auto. }
    { apply (Hfit key key); auto. }
    rewrite E2. cbn [bind]. apply tags_slow_total; auto.
    { intros E; specialize (Ht E). rewrite Hgst; rewrite Hgmt; lia. }
    { apply (Hfit key key); auto. }
    intros k Ek. destruct (Hmk k Ek) as (M1 & k0 & M2 & M3). split; [exact M1|]. rewrite M3. apply (Hfit k0 key); auto.
  - exact Hn.
  - rewrite En. cbn [bind]. eauto.
Qed.

Lemma osnma_validate_key_total o mk g : length mk = 60%nat -> gst_ok g -> is_subframe g = true ->
  mack_good (o_mack o) -> nav_good (o_nav o) -> (forall k, held (o_keys o) k -> key_ok k) -> keys_distinct (o_keys o) ->
  chains_fit (o_keys o) -> (overflow_checks = true -> 360 <= time_of g) ->
  exists o', osnma_validate_key o mk g = Ok o'.
Proof.
  intros Hlen Hg Hsub Hst Hn Hks Hdist Hfit Ht.
  unfold osnma_validate_key. destruct (current_key (o_keys o)) as [cur|] eqn:Ec; [|eauto].
  apply current_key_in in Ec. pose proof (Hks cur Ec) as Hcok.
  assert (Hsz : sizes_ok (ch_key_bytes (k_chain cur) * 8) (ch_tag_bits (k_chain cur))).
  { apply announced_sizes_ok; apply Hcok. }
  destruct (num_tags_bounds mk _ _ Hlen Hsz) as (_ & Hb & _).
  unfold mack_of_chain. rewrite mack_key_ok by auto. cbn [bind].
  set (nt := mack_num_tags (mack_new mk (ch_key_bytes (k_chain cur) * 8) (ch_tag_bits (k_chain cur)))) in *.
  destruct (key_from_bitslice_ok
    (sub ((ch_tag_bits (k_chain cur) + 16) * nt)
         ((ch_tag_bits (k_chain cur) + 16) * nt + ch_key_bytes (k_chain cur) * 8) (bits_of_bytes mk))
    g (k_chain cur) (ko_chain _ Hcok) Hg Hsub) as (new & En & Hnok & Hnch & Hng & Hnb).
  { rewrite length_sub by (rewrite length_bits_of_bytes; lia). lia. }
  rewrite En. cbn [bind].
  destruct (gst_cmp (k_gst cur) (k_gst new)); [eauto| |eauto].
  destruct (validate_key_exact HC cur new Hcok Hnok) as (r & Er & Hr1 & _). rewrite Er. cbn [bind].
  destruct r as [k|]; [|eauto]. subst k.
  destruct (store_key_held (o_keys o) new) as (ks' & Ek).
  { exists cur. split; [exact Ec|]. unfold chain_of. congruence. }
  rewrite Ek. cbn [bind]. destruct (store_key_spec _ _ _ Hdist Ek) as (_ & Hin & _ & Hof & _).
  apply process_tags_total; cbn [set_keys o_mack o_nav o_keys]; auto.
  - intros k Hk. destruct (Hof k Hk) as [->|(Hk' & _)]; auto.
  - intros k k' Hk Hk'.
    assert (Hsame : forall q, held ks' q -> exists q0, held (o_keys o) q0 /\ k_chain q = k_chain q0).
    { intros q Hq. destruct (Hof q Hq) as [->|(Hq' & _)]; eauto. }
    destruct (Hsame k Hk) as (q & Q1 & ->). destruct (Hsame k' Hk') as (q' & Q2 & ->). apply Hfit; auto.
  - rewrite Hng. exact Ht.
Qed.

(** ** DSM-KROOT *)

Lemma byte_bits p : forallb p (map Z.of_nat (seq 0 256)) = true -> forall x, is_byte x -> p x = true.
Proof. intros H. apply (byte_cases p). exact H. Qed.

Lemma code_bits d : Forall is_byte d -> (13 <= length d)%nat ->
  bits_at d 4 8 = Ok (nth 0 d 0 mod 16) /\
  bits_at d 12 14 = Ok (nth 1 d 0 / 4 mod 4) /\ bits_at d 14 16 = Ok (nth 1 d 0 mod 4) /\
  bits_at d 16 20 = Ok (nth 2 d 0 / 16) /\ bits_at d 20 24 = Ok (nth 2 d 0 mod 16).
Proof.
  intros Hd Hl. destruct d as [|b0 [|b1 [|b2 d]]]; cbn [length] in Hl; try lia.
  inversion Hd as [|? ? H0 Hd1]; subst. inversion Hd1 as [|? ? H1 Hd2]; subst. inversion Hd2 as [|? ? H2 Hd3]; subst.
  cbn [nth].
  pose proof (bits_at_byte [] b0 (b1 :: b2 :: d) 4 8 H0 ltac:(lia)) as E0.
  pose proof (bits_at_byte [b0] b1 (b2 :: d) 4 6 H1 ltac:(lia)) as E1.
  pose proof (bits_at_byte [b0] b1 (b2 :: d) 6 8 H1 ltac:(lia)) as E2.
  pose proof (bits_at_byte [b0; b1] b2 d 0 4 H2 ltac:(lia)) as E3.
  pose proof (bits_at_byte [b0; b1] b2 d 4 8 H2 ltac:(lia)) as E4.
  cbn [app length Nat.mul Nat.add] in E0, E1, E2, E3, E4. rewrite E0, E1, E2, E3, E4.
  split; [f_equal; apply byte_low; exact H0|].
  split; [f_equal; apply Z.eqb_eq; apply (byte_bits (fun x => load_be (sub 4 6 (bits_of_byte x)) =? x / 4 mod 4)); [vm_compute; reflexivity|exact H1]|].
  split; [f_equal; apply Z.eqb_eq; apply (byte_bits (fun x => load_be (sub 6 8 (bits_of_byte x)) =? x mod 4)); [vm_compute; reflexivity|exact H1]|].
  split; [f_equal; apply byte_high; exact H2|f_equal; apply byte_low; exact H2].
Qed.

Lemma small_cases z n : 0 <= z < n -> In z (map Z.of_nat (seq 0 (Z.to_nat n))).
Proof. intros H. apply in_map_iff. exists (Z.to_nat z). split; [lia|]. apply in_seq. lia. Qed.

Ltac small z n := let H := fresh in
  assert (H : In z (map Z.of_nat (seq 0 (Z.to_nat n)))) by (apply small_cases; lia);
  cbn [In map seq Z.to_nat Pos.to_nat Pos.iter_op Nat.add Z.of_nat Pos.of_succ_nat Pos.succ] in H;
  repeat (destruct H as [<-|H]); [..|contradiction H].

Lemma chain_codes d : Forall is_byte d -> (13 <= length d)%nat ->
  exists r, chain_from_dsm_kroot d = Ok r /\ (r <> None <-> codes_known d).
Proof.
  intros Hd Hl. destruct (code_bits d Hd Hl) as (_ & E1 & E2 & E3 & E4).
  assert (Hb : forall i, is_byte (nth i d 0)).
  { intros i. destruct (lt_dec i (length d)); [rewrite Forall_forall in Hd; apply Hd; now apply nth_In|].
    rewrite nth_overflow by lia. unfold is_byte. lia. }
  pose proof (Hb 1%nat) as Hb1. pose proof (Hb 2%nat) as Hb2.
  unfold chain_from_dsm_kroot, kroot_hash_function, kroot_mac_function, kroot_key_size, kroot_tag_size,
    kroot_chain_id, kroot_mac_lookup_table, kroot_alpha, codes_known.
  rewrite E1, E2, E3, E4. cbn [bind].
  assert (Hr : 0 <= nth 1 d 0 / 4 mod 4 < 4 /\ 0 <= nth 1 d 0 mod 4 < 4 /\ 0 <= nth 2 d 0 / 16 < 16 /\ 0 <= nth 2 d 0 mod 16 < 16)
    by (unfold is_byte in *; lia).
  set (hf := nth 1 d 0 / 4 mod 4) in *. set (mf := nth 1 d 0 mod 4) in *.
  set (ks := nth 2 d 0 / 16) in *. set (ts := nth 2 d 0 mod 16) in *. clearbody hf mf ks ts.
  rewrite !bits_at_in by lia. cbn [bind].
  destruct Hr as (R1 & R2 & R3 & R4).
  assert (Hh : (exists x, match hf with 0 => Some HashSha256 | 2 => Some HashSha3_256 | _ => None end = Some x /\ In hf (map fst hash_table)) \/
               (match hf with 0 => Some HashSha256 | 2 => Some HashSha3_256 | _ => None end = None /\ ~ In hf (map fst hash_table))).
  { clear - R1. small hf 4; cbn [map fst hash_table In]; (left; eexists; split; [reflexivity|lia]) || (right; split; [reflexivity|lia]). }
  destruct Hh as [(x & -> & Hh)|(-> & Hh)]; [|exists None; split; [reflexivity|split; [congruence|tauto]]].
  assert (Hm : (exists x, match mf with 0 => Some MacHmacSha256 | 1 => Some MacCmacAes | _ => None end = Some x /\ In mf (map fst mac_table)) \/
               (match mf with 0 => Some MacHmacSha256 | 1 => Some MacCmacAes | _ => None end = None /\ ~ In mf (map fst mac_table))).
  { clear - R2. small mf 4; cbn [map fst mac_table In]; (left; eexists; split; [reflexivity|lia]) || (right; split; [reflexivity|lia]). }
  destruct Hm as [(x2 & -> & Hm)|(-> & Hm)]; [|exists None; split; [reflexivity|split; [congruence|tauto]]].
  set (ksm := match ks with
      | 0 => Some 96%nat | 1 => Some 104%nat | 2 => Some 112%nat | 3 => Some 120%nat
      | 4 => Some 128%nat | 5 => Some 160%nat | 6 => Some 192%nat | 7 => Some 224%nat
      | 8 => Some 256%nat | _ => None
      end).
  assert (Hk : (exists n, ksm = Some n /\ (n mod 8 = 0)%nat /\ In ks (map fst key_size_table)) \/
               (ksm = None /\ ~ In ks (map fst key_size_table))).
  { clear - R3. unfold ksm. small ks 16; cbn [map fst key_size_table In];
      (left; eexists; split; [reflexivity|split; [reflexivity|lia]]) || (right; split; [reflexivity|lia]). }
  clearbody ksm. destruct Hk as [(n & -> & Hn & Hk)|(-> & Hk)]; [|exists None; split; [reflexivity|split; [congruence|tauto]]].
  rewrite Hn. cbn [Nat.eqb assert_ bind].
  set (tsm := match ts with
      | 5 => Some 20%nat | 6 => Some 24%nat | 7 => Some 28%nat | 8 => Some 32%nat
      | 9 => Some 40%nat | _ => None
      end).
  assert (Ht : (exists n, tsm = Some n /\ In ts (map fst tag_size_table)) \/
               (tsm = None /\ ~ In ts (map fst tag_size_table))).
  { clear - R4. unfold tsm. small ts 16; cbn [map fst tag_size_table In];
      (left; eexists; split; [reflexivity|lia]) || (right; split; [reflexivity|lia]). }
  clearbody tsm. destruct Ht as [(n2 & -> & Ht)|(-> & Ht)]; [|exists None; split; [reflexivity|split; [congruence|tauto]]].
  eexists. split; [reflexivity|]. split; [tauto|discriminate].
Qed.

Lemma kroot_time_part d f c : kroot_layout d f -> Forall is_byte d -> chain_ok c ->
  ch_key_bytes c = length (kf_kroot f) ->
  ((wn <- kroot_wn d ;;
    towh <- kroot_towh d ;;
    g <- gst_new wn (towh * 3600) ;;
    assert_ (is_subframe g) ;;;
    g <- add_seconds g (-30) ;;
    s <- kroot_kroot d ;;
    k <- key_from_slice s g c ;;
    Ok (ROk (E := kroot_error) k)) = Panic <->
   168 <= kf_towh f \/ overflow_checks = true /\ 604800 * kf_wn f + 3600 * kf_towh f < 30).
Proof.
  intros HL Hd Hc Hlen. unfold kroot_wn, kroot_towh.
  rewrite (kroot_param_at d f HL 10 12 (kf_wn f) 36 48) by reflexivity.
  rewrite (kroot_param_at d f HL 11 8 (kf_towh f) 48 56) by reflexivity. cbn [bind].
  pose proof (kl_width _ _ HL) as W. unfold kroot_params in W.
  repeat match goal with K : Forall _ (_ :: _) |- _ => inversion K; clear K; subst end.
  unfold in_width in *. cbn [fst snd] in *.
  assert (Hw : 0 <= kf_wn f < 4096) by (match goal with K : 0 <= kf_wn f < _ |- _ => exact K end).
  assert (Hth : 0 <= kf_towh f < 256) by (match goal with K : 0 <= kf_towh f < _ |- _ => exact K end).
  unfold gst_new, secs_in_week, assert_.
  destruct (kf_towh f * 3600 <? 604800) eqn:Et; cbn [bind]; [|split; [lia|reflexivity]].
  unfold is_subframe at 1, secs_per_subframe. cbn [g_tow].
  replace (kf_towh f * 3600 mod 30 =? 0) with true by lia. cbn [bind].
  set (g0 := mkGst (kf_wn f) (kf_towh f * 3600)).
  assert (Hgok : gst_ok g0) by (unfold g0, gst_ok; cbn [g_wn g_tow]; lia).
  assert (Hgt : time_of g0 = 604800 * kf_wn f + 3600 * kf_towh f) by (unfold g0, time_of; cbn [g_wn g_tow]; lia).
  assert (Hgs : is_subframe g0 = true).
  { apply is_subframe_start. rewrite Hgt. exists (20160 * kf_wn f + 120 * kf_towh f). lia. }
  change (-30) with (- (30 * 1)).
  destruct (add_seconds g0 (- (30 * 1))) as [g|] eqn:Eg; cbn [bind].
  - assert (Hg' : gst_ok g /\ is_subframe g = true /\ ~ (overflow_checks = true /\ time_of g0 < 30)).
    { pose proof Eg as Eg'. apply add_seconds_exact in Eg'; [|auto|lia]. destruct Eg' as (G1 & G2 & _ & G4).
      split; [exact G1|]. split.
      - apply is_subframe_start. apply is_subframe_start in Hgs. destruct Hgs as (q & Hq). rewrite G2, Hq.
        exists ((q - 1) mod (65536 * 20160)). replace (30 * q + - (30 * 1)) with (30 * (q - 1)) by lia.
        change (65536 * 604800) with (30 * (65536 * 20160)). rewrite Z.mul_mod_distr_l by lia. reflexivity.
      - intros (Eo & Hlt). specialize (G4 Eo). destruct g as [w t], G1. unfold time_of at 1 in G4. cbn [g_wn g_tow] in *. lia. }
    destruct Hg' as (G1 & G2 & G3).
    rewrite (kroot_kroot_layout d f HL Hd). cbn [bind].
    destruct (key_from_slice_ok (kf_kroot f) g c Hc G1 G2 ltac:(congruence) (proj1 (kl_bytes _ _ HL))) as (k & Ek & _).
    rewrite Ek. cbn [bind]. split; [discriminate|]. intros [K|K]; [lia|]. exfalso. apply G3. rewrite Hgt. exact K.
  - apply add_seconds_panic in Eg; [|auto|lia]. destruct Eg as [Eg|(Eo & Eg)]; [lia|]. split; [|reflexivity].
    intros _. right. split; [exact Eo|]. unfold representable in Eg. rewrite Hgt in Eg. lia.
Qed.

Lemma key_from_dsm_kroot_panic hd d pk : is_byte hd -> Forall is_byte d -> (45 <= length d)%nat ->
  (key_from_dsm_kroot hd d pk = Panic <-> kroot_panics hd d pk).
Proof.
  intros Hh Hd Hl. destruct (chain_codes d Hd ltac:(lia)) as (r & Er & Hr).
  unfold key_from_dsm_kroot. rewrite Er. cbn [bind]. destruct r as [c|].
  2: { split; [discriminate|]. intros (K & _). apply Hr in K. congruence. }
  assert (Hcodes : codes_known d) by (apply Hr; discriminate).
  pose proof (chain_from_dsm_kroot_ok _ _ Er) as Hc.
  destruct (kroot_ecdsa_function d) as [fn|] eqn:Ef.
  - destruct (ecdsa_function_layout d fn Hd Ef) as (f & HL & Hsl).
    destruct (kroot_message_layout d f HL Hd hd Hh) as (m & Em & Hm).
    destruct (kroot_check_padding_layout HC d f HL Hd hd m Em) as (p & Ep & Hp).
    rewrite Ep. cbn [bind].
    destruct (proj1 (chain_from_layout d f c HL Hd) Er) as (_ & _ & _ & Hkb & _).
    assert (Hother : forall f', kroot_layout d f' -> f' = f) by (intros f' HL'; eapply kroot_layout_fun; eauto).
    destruct p; cbn [negb].
    2: { split; [discriminate|]. intros (_ & [K|(f' & m' & K1 & _ & K2 & K3 & _)]).
         - exfalso. exact (K f HL).
         - apply Hother in K1. subst f'. rewrite (signed_unique _ _ _ _ K2 Hm) in K3. apply Hp in K3. discriminate. }
    assert (Hpad : kf_pad f = firstn (length (kf_pad f)) (sha256 (m ++ kf_sig f))) by (apply Hp; reflexivity).
    assert (Hright : forall (P : kroot_fields -> Prop),
      (codes_known d /\ ((forall f, ~ kroot_layout d f) \/
        exists f m, kroot_layout d f /\ key_supported pk /\ kroot_signed hd f m /\
          kf_pad f = firstn (length (kf_pad f)) (sha256 (m ++ kf_sig f)) /\ P f)) <-> key_supported pk /\ P f).
    { intros P. split.
      - intros (_ & [K|(f' & m' & K1 & K2 & _ & _ & K5)]); [exfalso; exact (K f HL)|].
        rewrite <- (Hother f' K1). auto.
      - intros (K1 & K2). split; [exact Hcodes|]. right. exists f, m. auto. }
    unfold kroot_panics. rewrite (Hright (fun f => unreadable_signature pk (kf_sig f) \/
      kroot_verified hd f pk /\ (168 <= kf_towh f \/
       overflow_checks = true /\ 604800 * kf_wn f + 3600 * kf_towh f < 30))). clear Hright.
    unfold kroot_check_signature_p256, kroot_check_signature_p521.
    rewrite Ef, Em, (kroot_sig_layout d f HL Hd). cbn [bind].
    pose proof (kroot_time_part d f c HL Hd Hc Hkb) as Htime.
    assert (Hver : forall P : Prop, kroot_verified hd f pk /\ P ->
      match pk with
      | VkP256 k => length (kf_sig f) = 64%nat /\ p256_sig_parses (kf_sig f) = true /\ p256_verify k m (kf_sig f) = true
      | VkP521 k => length (kf_sig f) = 132%nat /\ p521_sig_parses (kf_sig f) = true /\ p521_verify k m (kf_sig f) = true
      end /\ P).
    { intros P ((m' & K1 & _ & K3) & HP). rewrite (signed_unique _ _ _ _ K1 Hm) in K3. auto. }
    assert (Hver' : match pk with
      | VkP256 k => length (kf_sig f) = 64%nat /\ p256_sig_parses (kf_sig f) = true /\ p256_verify k m (kf_sig f) = true
      | VkP521 k => length (kf_sig f) = 132%nat /\ p521_sig_parses (kf_sig f) = true /\ p521_verify k m (kf_sig f) = true
      end -> kroot_verified hd f pk) by (intros K; exists m; auto).
    unfold key_supported, unreadable_signature in *.
    destruct pk as [pk|pk], fn; cbn [ecdsa_fn_eqb assert_ bind]; rewrite Hsl in *.
    + unfold assert_. destruct (p256_sig_parses (kf_sig f)) eqn:Eparse; cbn [bind].
      * destruct (p256_verify pk m (kf_sig f)) eqn:Ev; cbn [bind].
        -- etransitivity; [exact Htime|]. split; [intros K; split; [exact I|]; right; auto|].
           intros (_ & [(_ & K)|(_ & K)]); [discriminate|exact K].
        -- split; [discriminate|]. intros (_ & [(_ & K)|K]); [discriminate|]. apply Hver in K. destruct K as ((_ & _ & K) & _). discriminate.
      * split; [|reflexivity]. intros _. auto.
    + split; [discriminate|]. intros (_ & [(K & _)|K]); [discriminate K|]. apply Hver in K. destruct K as ((K & _) & _). discriminate K.
    + split; [discriminate|]. intros (_ & [(K & _)|K]); [discriminate K|]. apply Hver in K. destruct K as ((K & _) & _). discriminate K.
    + destruct feature_p521; [|split; [discriminate|intros (K & _); discriminate K]].
      unfold assert_. destruct (p521_sig_parses (kf_sig f)) eqn:Eparse; cbn [bind].
      * destruct (p521_verify pk m (kf_sig f)) eqn:Ev; cbn [bind].
        -- etransitivity; [exact Htime|]. split; [intros K; split; [reflexivity|]; right; auto|].
           intros (_ & [(_ & K)|(_ & K)]); [discriminate|exact K].
        -- split; [discriminate|]. intros (_ & [(_ & K)|K]); [discriminate|]. apply Hver in K. destruct K as ((_ & _ & K) & _). discriminate.
      * split; [|reflexivity]. intros _. auto.
  - unfold kroot_check_padding, kroot_digital_signature. rewrite Ef. cbn [bind].
    destruct (kroot_signature_message d hd) as [m|]; cbn [bind].
    + split; [|reflexivity]. intros _. split; [exact Hcodes|]. left. intros f HL.
      pose proof (kroot_ecdsa_layout d f HL Hd). congruence.
    + split; [|reflexivity]. intros _. split; [exact Hcodes|]. left. intros f HL.
      pose proof (kroot_ecdsa_layout d f HL Hd). congruence.
Qed.

(** ** DSM-PKR *)

Lemma slice_out {A} (l : list A) a b : (length l < b)%nat -> slice l a b = Panic.
Proof.
  intros H. destruct (slice l a b) as [s|] eqn:E; [|reflexivity]. apply slice_ok in E. lia.
Qed.

Lemma pkr_type_byte d : Forall is_byte d -> (130 <= length d)%nat ->
  pkr_new_public_key_type d = Ok (npkt_of (nth 129 d 0 / 16)).
Proof.
  intros Hd Hl. unfold pkr_new_public_key_type.
  destruct (nth_split d 0 (n := 129) ltac:(lia)) as (pre & post & E & Hpre).
  set (x := nth 129 d 0) in *. assert (Hx : is_byte x).
  { rewrite Forall_forall in Hd. apply Hd. rewrite E. apply in_or_app. right. left. reflexivity. }
  rewrite E. rewrite (bits_at_high pre x post 1032 1036 Hx) by lia. cbn [bind]. f_equal.
  assert (Hr : 0 <= x / 16 < 16) by (unfold is_byte in Hx; lia).
  set (v := x / 16) in *. clearbody v. clear - Hr. small v 16; reflexivity.
Qed.

Lemma pkr_layout_type d f : pkr_layout d f -> nth 129 d 0 / 16 = pf_npkt f.
Proof.
  intros HL. rewrite (pkr_as_leaf d f HL). rewrite app_nth2; [|cbn [length]; rewrite (pkr_nodes_length d f HL); lia].
  cbn [length]. rewrite (pkr_nodes_length d f HL). cbn [Nat.sub nth].
  destruct (pl_nibbles _ _ HL) as (_ & _ & H1 & H2). unfold nibble in *. lia.
Qed.

Lemma process_dsm_pkr_panic o d : stores_ok o -> Forall is_byte d ->
  7 <= nth 0 d 0 / 16 <= 10 -> Z.of_nat (length d) = 13 * (nth 0 d 0 / 16 + 6) ->
  (process_dsm_pkr o d = Panic <-> exists root, o_merkle o = Some root /\ pkr_panics root d).
Proof.
  intros Hst Hd Hnb Hlen. unfold process_dsm_pkr.
  pose proof (pkr_type_byte d Hd ltac:(lia)) as Ety. rewrite Ety. cbn [bind].
  unfold process_dsm_pkr_npk, process_dsm_pkr_alert_message.
  destruct (o_merkle o) as [root|].
  2: { split; [|intros (root & K & _); discriminate]. destruct (npkt_of _); discriminate. }
  assert (Hiff : (exists r, Some root = Some r /\ pkr_panics r d) <-> pkr_panics root d).
  { split; [intros (r & K & H); congruence|eauto]. }
  rewrite Hiff. clear Hiff. unfold pkr_panics.
  assert (Hx : 0 <= nth 129 d 0 / 16 < 16).
  { assert (is_byte (nth 129 d 0)) by (rewrite Forall_forall in Hd; apply Hd, nth_In; lia). unfold is_byte in *. lia. }
  pose proof (pkr_layout_type d) as Hlt.
  set (v := nth 129 d 0 / 16) in *. clearbody v.
  assert (Hfun : forall f f', pkr_layout d f -> pkr_layout d f' -> f' = f) by (intros; eapply pkr_layout_fun; eauto).
  assert (Hpub : forall pk, exists o', (ps <- store_new_pubkey (o_pub o) pk ;; Ok (set_pub ps o)) = Ok o').
  { intros pk. destruct (store_new_spec (o_pub o) pk (proj1 Hst)) as (ps & Eps & _). rewrite Eps. cbn [bind]. eauto. }
  destruct (Z.eq_dec v 1) as [->|N1]; [|destruct (Z.eq_dec v 3) as [->|N3]; [|destruct (Z.eq_dec v 4) as [->|N4]]].
  - (* P-256 *)
    change (npkt_of 1) with (NpktEcdsaKey P256Sha256) in *. cbn iota.
    assert (Hleaf : exists leaf, pkr_merkle_tree_leaf d = Ok (Some leaf)).
    { unfold pkr_merkle_tree_leaf, pkr_key_size. rewrite Ety. cbn [bind]. rewrite slice_in by lia. cbn [bind]. eauto. }
    destruct Hleaf as (leaf & Eleaf). destruct (pkr_leaf_inv d leaf Hd Eleaf) as (f & HL).
    pose proof (Hlt f HL) as Hty. unfold validate_pkr. rewrite Ety. cbn [bind].
    rewrite (merkle_validate_layout root d f HL). cbn [bind].
    destruct (bytes_eqb (sha256 (path_input f 4)) root) eqn:Er; cbn [bind].
    + apply bytes_eqb_eq in Er. unfold pubkey_from_pkr. rewrite (pkr_key_layout d f HL), Ety. cbn [bind unwrap].
      rewrite (pkr_id_layout d f HL).
      destruct (p256_from_sec1 (pf_key f)) as [vk|] eqn:Ek; cbn [bind unwrap].
      * split; [destruct (Hpub (mkPub (VkP256 vk) (pf_npkid f))) as (o' & Eo'); rewrite Eo'; discriminate|].
        intros [(K & _)|(f' & K1 & _ & K3)]; [lia|]. rewrite (Hfun f f' HL K1) in K3.
        destruct K3 as [(_ & K)|(K & _)]; [congruence|lia].
      * split; [|reflexivity]. intros _. right. exists f. auto.
    + split; [discriminate|]. intros [(K & _)|(f' & K1 & K2 & _)]; [lia|]. rewrite (Hfun f f' HL K1) in K2.
      rewrite K2 in Er. rewrite (proj2 (bytes_eqb_eq root root) eq_refl) in Er. discriminate.
  - (* P-521 *)
    change (npkt_of 3) with (NpktEcdsaKey P521Sha512) in *. cbn iota.
    destruct (lt_dec (length d) 197) as [Hshort|Hlong].
    { assert (Hp : validate_pkr root d = Panic).
      { unfold validate_pkr. rewrite Ety. cbn [bind]. unfold merkle_validate, pkr_merkle_tree_leaf, pkr_key_size.
        rewrite Ety. cbn [bind]. rewrite slice_out by lia. reflexivity. }
      rewrite Hp. cbn [bind]. split; [|reflexivity]. intros _. left. lia. }
    assert (Hleaf : exists leaf, pkr_merkle_tree_leaf d = Ok (Some leaf)).
    { unfold pkr_merkle_tree_leaf, pkr_key_size. rewrite Ety. cbn [bind]. rewrite slice_in by lia. cbn [bind]. eauto. }
    destruct Hleaf as (leaf & Eleaf). destruct (pkr_leaf_inv d leaf Hd Eleaf) as (f & HL).
    pose proof (Hlt f HL) as Hty. unfold validate_pkr. rewrite Ety. cbn [bind].
    rewrite (merkle_validate_layout root d f HL). cbn [bind].
    destruct (bytes_eqb (sha256 (path_input f 4)) root) eqn:Er; cbn [bind].
    + apply bytes_eqb_eq in Er. unfold pubkey_from_pkr. rewrite (pkr_key_layout d f HL), Ety. cbn [bind unwrap].
      rewrite (pkr_id_layout d f HL). destruct feature_p521.
      2: { split; [discriminate|]. intros [(_ & K)|(f' & K1 & _ & K3)]; [lia|]. rewrite (Hfun f f' HL K1) in K3.
           destruct K3 as [(K & _)|(_ & K & _)]; [lia|discriminate]. }
      destruct (p521_from_sec1 (pf_key f)) as [vk|] eqn:Ek; cbn [bind unwrap].
      * split; [destruct (Hpub (mkPub (VkP521 vk) (pf_npkid f))) as (o' & Eo'); rewrite Eo'; discriminate|].
        intros [(_ & K)|(f' & K1 & _ & K3)]; [lia|]. rewrite (Hfun f f' HL K1) in K3.
        destruct K3 as [(K & _)|(_ & _ & K)]; [lia|congruence].
      * split; [|reflexivity]. intros _. right. exists f. auto 7.
    + split; [discriminate|]. intros [(_ & K)|(f' & K1 & K2 & _)]; [lia|]. rewrite (Hfun f f' HL K1) in K2.
      rewrite K2 in Er. rewrite (proj2 (bytes_eqb_eq root root) eq_refl) in Er. discriminate.
  - (* alert *)
    change (npkt_of 4) with NpktAlert in *. cbn iota.
    assert (Hleaf : exists leaf, pkr_merkle_tree_leaf d = Ok (Some leaf)).
    { unfold pkr_merkle_tree_leaf, pkr_key_size. rewrite Ety. cbn [bind]. unfold pkr_number_of_blocks.
      destruct d as [|b0 d]; [cbn [length] in Hlen; cbn in Hnb; lia|]. cbn [nth] in *.
      inversion Hd as [|? ? Hb0 _]; subst. rewrite (bits_at_high0 b0 d Hb0). cbn [bind].
      replace ((7 <=? b0 / 16) && (b0 / 16 <=? 10)) with true by lia. cbn [option_map].
      rewrite slice_in by lia. cbn [bind]. eauto. }
    destruct Hleaf as (leaf & Eleaf). destruct (pkr_leaf_inv d leaf Hd Eleaf) as (f & HL).
    pose proof (Hlt f HL) as Hty. unfold validate_alert_message. rewrite Ety. cbn [bind].
    rewrite (merkle_validate_layout root d f HL). cbn [bind].
    split; [destruct (bytes_eqb _ root); discriminate|].
    intros [(K & _)|(f' & K1 & _ & K3)]; [lia|]. rewrite (Hfun f f' HL K1) in K3. destruct K3 as [(K & _)|(K & _)]; lia.
  - assert (Ev : npkt_of v = NpktReserved).
    { unfold npkt_of. replace (v =? 1) with false by lia. replace (v =? 3) with false by lia.
      replace (v =? 4) with false by lia. reflexivity. }
    rewrite Ev. split; [discriminate|]. intros [(K & _)|(f & HL & _ & K)]; [lia|].
    pose proof (Hlt f HL). destruct K as [(K & _)|(K & _)]; lia.
Qed.

Lemma process_dsm_kroot_panic o d hd g : stores_ok o -> is_byte hd -> Forall is_byte d -> (45 <= length d)%nat ->
  (process_dsm_kroot o d hd g = Panic <->
   exists pk, held_pub (o_pub o) pk /\ pk_id pk = nth 0 d 0 mod 16 /\ kroot_panics hd d (pk_key pk)).
Proof.
  intros Hst Hh Hd Hl. unfold process_dsm_kroot, kroot_public_key_id.
  destruct (code_bits d Hd ltac:(lia)) as (E0 & _). rewrite E0. cbn [bind].
  set (i := nth 0 d 0 mod 16) in *. clearbody i.
  destruct (applicable_spec (o_pub o) i (proj1 Hst)) as (r & Er & Hr). rewrite Er. cbn [bind].
  destruct r as [pk|].
  2: { split; [discriminate|]. intros (pk & K1 & K2 & _). exfalso. exact (Hr pk K1 K2). }
  destruct Hr as (Hheld & Hid).
  pose proof (key_from_dsm_kroot_panic hd d (pk_key pk) Hh Hd Hl) as Hk.
  assert (Huniq : forall p, held_pub (o_pub o) p -> pk_id p = i -> p = pk).
  { intros p Hp Hpi. destruct Hst as (Hps & _). unfold pubs_ok in Hps.
    destruct Hheld as [Hc|Hn], Hp as [Hc'|Hn']; try congruence.
    - destruct (Hps _ Hn') as (c & K1 & K2). rewrite Hc in K1. injection K1 as <-. lia.
    - destruct (Hps _ Hn) as (c & K1 & K2). rewrite Hc' in K1. injection K1 as <-. lia. }
  destruct (key_from_dsm_kroot hd d (pk_key pk)) as [[key|]|] eqn:Ek; cbn [bind].
  - subst i. destruct (make_current_spec (o_pub o) pk (proj1 Hst) Hheld) as (ps & Eps & _). rewrite Eps. cbn [bind].
    split; [discriminate|]. intros (p & K1 & K2 & K3). rewrite (Huniq p K1 K2) in K3. apply Hk in K3. discriminate.
  - split; [discriminate|]. intros (p & K1 & K2 & K3). rewrite (Huniq p K1 K2) in K3. apply Hk in K3. discriminate.
  - split; [|reflexivity]. intros _. exists pk. split; [exact Hheld|]. split; [exact Hid|]. apply Hk. reflexivity.
Qed.

End Crypto.

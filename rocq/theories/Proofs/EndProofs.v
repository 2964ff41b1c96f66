(** From the signal to what a program shows. *)
From Coq Require Import ZArith String List Bool Lia ZifyBool ZifyNat.
From Verif Require Import Model.Prelude Model.Params Model.Gst Model.Svn Model.Bitfields Model.Tesla Model.Merkle
  Model.Dsm Model.MackStore Model.Nav Model.Osnma Model.Transport Model.Apps Model.Serial
  Spec.TimeSpec Spec.CollectSpec Spec.NavSpec Spec.TeslaSpec Spec.KrootSpec Spec.KeySpec Spec.SystemSpec Spec.StoredSpec
  Spec.CompleteSpec Spec.PanicSpec Spec.HonestSpec Spec.AppsSpec Spec.SerialSpec Spec.ReportSpec Spec.EndSpec
  Proofs.Base Proofs.AppsProofs Proofs.LogProofs Proofs.HonestKeys Proofs.HonestProofs Proofs.SerialProofs Proofs.ReportProofs Proofs.KeyStoreProofs Proofs.TransportProofs Proofs.GstProofs
  Props.KeyProps.
Import ListNotations.
Open Scope list_scope.
Open Scope Z_scope.

Lemma feeds_fun before p l l' : feeds before p l -> feeds before p l' -> l = l'.
Proof.
  intros [(b & Hb & Ho & Hd & ->)|(N & ->)] [(b' & Hb' & Ho' & Hd' & ->)|(N' & ->)].
  - assert (b' = b); [|now subst]. unfold of_band in *. destruct b, b'; congruence.
  - exfalso. apply N'. eauto.
  - exfalso. apply N. eauto.
  - reflexivity.
Qed.
Lemma feeds_all_fun before ps l : feeds_all before ps l -> forall l', feeds_all before ps l' -> l = l'.
Proof.
  induction 1 as [before|before p ps l l1 Hf _ IH]; intros l' H; inversion H as [|b' p' ps' l2 l3 Hf' H']; subst; [reflexivity|].
  rewrite (feeds_fun _ _ _ _ Hf Hf'). f_equal. now apply IH.
Qed.

(** ** The log *)

Lemma log_data_total k size svn data t log : (kind_bits k <= size)%nat -> 1 <= svn <= 36 -> table_ok k size t log ->
  (forall d, data = Some d -> length (nd_data d) = kind_bits k) -> exists r, log_data k size svn data (t, log) = Ok r.
Proof.
  intros Hsz Hs (H1 & H2) Hd. unfold log_data. destruct data as [d|]; [|eauto].
  specialize (Hd d eq_refl). rewrite pad_copy by lia. cbn [bind].
  destruct (H2 svn Hs) as (A1 & A2 & A3). unfold index. rewrite A1. cbn [unwrap bind].
  destruct (match option_map (pad size) (last_logged k svn log) with Some l => bits_eqb l (pad size (nd_data d)) | None => false end); [eauto|].
  unfold set_index. rewrite H1. destruct (Z.to_nat svn - 1 <? 36)%nat eqn:E36; [|lia]. cbn [bind]. eauto.
Qed.

Section Crypto.
Context {C : crypto} {B : build} {S : storage}.
Hypothesis HC : crypto_ok C.
Hypothesis HS : storage_ok S.
Variables (root : option (list Z)) (user : option public_key) (slow : bool).
Notation new := (osnma_new root user slow).

Lemma log_svn_total h o z svn : Forall op_ok h -> run new h = Ok o -> 1 <= svn <= 36 -> tables_ok z ->
  (forall k, exists r, getter k o svn = Ok r) -> exists z', log_svn o z svn = Ok z'.
Proof.
  intros Hops Hrun Hs (T1 & T2) Hg. unfold log_svn.
  destruct (Hg Ced) as (ced & Ec). destruct (Hg Timing) as (timing & Et). cbn [getter] in Ec, Et. rewrite Ec. cbn [bind].
  assert (Lc : forall d, ced = Some d -> length (nd_data d) = kind_bits Ced).
  { intros d ->. apply (getter_length HC HS root user slow h o Ced svn d Hops Hrun). exact Ec. }
  assert (Lt : forall d, timing = Some d -> length (nd_data d) = kind_bits Timing).
  { intros d ->. apply (getter_length HC HS root user slow h o Timing svn d Hops Hrun). exact Et. }
  destruct (log_data_total Ced (69 * 8) svn ced (z_ced z) (z_log z) ltac:(cbn [kind_bits]; lia) Hs T1 Lc) as ((tc & log1) & E1). rewrite E1. cbn [bind].
  rewrite Et. cbn [bind].
  destruct (log_data_spec Ced (69 * 8) svn ced _ _ _ _ ltac:(cbn [kind_bits]; lia) Hs T1 Lc E1) as (_ & _ & G1).
  assert (T2' : table_ok Timing (18 * 8) (z_timing z) log1).
  { destruct G1 as [->|(d & _ & ->)]; [exact T2|]. apply (table_other Timing Ced); [reflexivity|discriminate|exact T2]. }
  destruct (log_data_total Timing (18 * 8) svn timing (z_timing z) log1 ltac:(cbn [kind_bits]; lia) Hs T2' Lt) as ((ti & log2) & E2). rewrite E2. cbn [bind]. eauto.
Qed.
Lemma log_all_total h o l : Forall op_ok h -> run new h = Ok o -> (forall s, In s l -> 1 <= s <= 36) ->
  (forall k s, exists r, getter k o s = Ok r) -> forall z, tables_ok z -> exists z', fold_outcome (log_svn o) l z = Ok z'.
Proof.
  intros Hops Hrun Hl Hg. induction l as [|s l IH]; intros z Hz; cbn [fold_outcome]; [eauto|].
  destruct (log_svn_total h o z s Hops Hrun (Hl s (or_introl eq_refl)) Hz (fun k => Hg k s)) as (z1 & E). rewrite E. cbn [bind].
  apply IH; [intros y Hy; apply Hl; now right|]. exact (proj1 (log_svn_spec HC HS root user slow h o z s z1 Hops Hrun (Hl s (or_introl eq_refl)) Hz E)).
Qed.

(** The program does not panic if the library does not. *)
Lemma galmon_total ms : forall a l o, Forall AppsSpec.message_ok ms -> galmon_all_calls app_new ms = Ok (a, l) -> run new l = Ok o ->
  (forall w, In w (inav_words l) -> 1 <= g_wn (nw_gst w)) -> exists z, fold_outcome galmon_step ms (galmon_new new) = Ok z.
Proof.
  induction ms as [|m ms IH] using rev_ind; intros a l o Hms Hc Hr Hw; [cbn [fold_outcome]; eauto|].
  pose proof Hms as Hms1. apply Forall_app in Hms1. destruct Hms1 as [Hms1 Hm]. apply Forall_inv in Hm.
  rewrite all_calls_app in Hc. destruct (galmon_all_calls app_new ms) as [[a1 l1]|] eqn:E1; cbn [bind] in Hc; [|discriminate Hc].
  cbn [galmon_all_calls] in Hc. destruct (galmon_calls a1 m) as [[a2 l2]|] eqn:E2; cbn [bind] in Hc; [|discriminate Hc].
  rewrite app_nil_r in Hc. apply ok_inj, pair_equal_spec in Hc. destruct Hc as [<- <-].
  assert (Hw1 : forall w, In w (inav_words l1) -> 1 <= g_wn (nw_gst w)).
  { intros w Hin. apply Hw. unfold inav_words. rewrite flat_map_app. apply in_or_app. now left. }
  pose proof Hr as Hr'. rewrite run_app in Hr. destruct (run new l1) as [o1|] eqn:R1; cbn [bind] in Hr; [|discriminate Hr].
  destruct (IH a1 l1 o1 Hms1 eq_refl R1 Hw1) as (z & Hz). rewrite fold_outcome_app, Hz. cbn [bind fold_outcome].
  destruct (galmon_run HC HS root user slow ms Hms1 z Hz) as (l1' & Hc1 & Hro & Hok1 & _ & _ & Ht & _).
  rewrite E1 in Hc1. apply ok_inj, pair_equal_spec in Hc1. destruct Hc1 as [Ea <-].
  unfold galmon_step. rewrite <- Ea, E2. cbn [bind z_osnma z_ced z_timing z_log].
  assert (Eo : z_osnma z = o1) by congruence. rewrite Eo. destruct l2 as [|x l2]; [cbn [bind]; eauto|]. rewrite Hr. cbn [bind].
  assert (Hall : galmon_all_calls app_new (ms ++ [m]) = Ok (a2, l1 ++ x :: l2)).
  { rewrite all_calls_app, E1. cbn [bind galmon_all_calls]. rewrite E2. cbn [bind]. now rewrite app_nil_r. }
  destruct (all_calls_ok (ms ++ [m]) app_new a2 (l1 ++ x :: l2) Hms I (Z.le_refl 0) Hall) as (Hok & _).
  destruct (log_all_total (l1 ++ x :: l2) o svn_iter Hok Hr') with (z := mkGalmon a2 o (z_ced z) (z_timing z) (z_log z)) as (z' & E').
  - intros s Hs. now apply svn_iter_range.
  - intros k s. exact (C10_getters_never_panic C B S HC HS root user slow _ o k s Hok Hw Hr').
  - exact Ht.
  - rewrite E'. cbn [bind]. eauto.
Qed.

(** Nothing is removed from the log. *)
Lemma log_grows ms1 ms2 z : Forall AppsSpec.message_ok (ms1 ++ ms2) -> fold_outcome galmon_step (ms1 ++ ms2) (galmon_new new) = Ok z ->
  exists z1 es, fold_outcome galmon_step ms1 (galmon_new new) = Ok z1 /\ z_log z = z_log z1 ++ es.
Proof.
  revert z. induction ms2 as [|m ms2 IH] using rev_ind; intros z Hms H.
  { rewrite app_nil_r in H. exists z, []. split; [exact H|]. now rewrite app_nil_r. }
  rewrite app_assoc in Hms, H. pose proof Hms as Hms1. apply Forall_app in Hms1. destruct Hms1 as [Hms1 Hm].
  rewrite fold_outcome_app in H. destruct (fold_outcome galmon_step (ms1 ++ ms2) (galmon_new new)) as [z2|] eqn:E; cbn [bind] in H; [|discriminate H].
  destruct (IH z2 Hms1 eq_refl) as (z1 & es & H1 & H2). exists z1. cbn [fold_outcome] in H.
  destruct (galmon_step z2 m) as [z3|] eqn:E3; cbn [bind] in H; [|discriminate H]. apply ok_inj in H. subst z3.
  assert (X : exists es2, z_log z = z_log z2 ++ es2); [|destruct X as (es2 & X); exists (es ++ es2); split; [exact H1|rewrite X, H2; now rewrite app_assoc]].
  assert (Hfold : fold_outcome galmon_step ((ms1 ++ ms2) ++ [m]) (galmon_new new) = Ok z).
  { rewrite fold_outcome_app, E. cbn [bind fold_outcome]. rewrite E3. reflexivity. }
  destruct (galmon_run HC HS root user slow _ Hms z Hfold) as (l & Hl & Hrl & Hokl & _).
  destruct (galmon_run HC HS root user slow _ Hms1 z2 E) as (l2 & Hl2 & Hrl2 & _ & _ & _ & Ht & _).
  unfold galmon_step in E3. destruct (galmon_calls (z_app z2) m) as [[a3 l3]|] eqn:Ec; cbn [bind] in E3; [|discriminate E3].
  cbn [z_osnma z_ced z_timing z_log] in E3. destruct l3 as [|x l3].
  { apply ok_inj in E3. subst z. cbn [z_log]. exists []. now rewrite app_nil_r. }
  destruct (run (z_osnma z2) (x :: l3)) as [o3|] eqn:Er; cbn [bind] in E3; [|discriminate E3].
  assert (El : l = l2 ++ x :: l3).
  { rewrite all_calls_app, Hl2 in Hl. cbn [bind galmon_all_calls] in Hl. rewrite Ec in Hl. cbn [bind] in Hl. rewrite app_nil_r in Hl.
    apply ok_inj, pair_equal_spec in Hl. destruct Hl as [_ <-]. reflexivity. }
  assert (Hro : run new l = Ok o3). { rewrite El, run_app, Hrl2. cbn [bind]. exact Er. }
  destruct (log_all_spec HC HS root user slow l o3 svn_iter Hokl Hro) with (z := mkGalmon a3 o3 (z_ced z2) (z_timing z2) (z_log z2)) (z' := z)
    as (_ & _ & _ & _ & _ & es2 & He & _).
  - exact svn_iter_nodup.
  - intros s Hs. now apply svn_iter_range.
  - exact Ht.
  - exact E3.
  - exists es2. exact He.
Qed.

(** ** What has to be received *)

Variables (pk : public_key) (t : transmission).

Lemma gives_getter k svn bits h : Forall op_ok h -> in_subframe_order h -> receives root user pk t h ->
  gives_data root user pk slow t k svn bits h -> exists o d, run new h = Ok o /\ getter k o svn = Ok (Some d) /\ nd_data d = bits.
Proof.
  intros Hok Hord (Ht & Hh & Hw) Hg.
  destruct Hg as [hA hN hM p x q gn gm g delay adkd cop tag prna hk1 mk1 hk2 mk2
    H1 H2 H3 H4 H5 H6 H7 H8 H9 H10 H11 H12 H13 H14 H15 H16 H17 H18 H19 H20 H21].
  destruct (honest_authenticates HC HS pk t Ht root user slow hA hN hM p x q k svn bits gn gm g delay adkd cop tag prna hk1 mk1 hk2 mk2
           H1 H2 H3 Hok Hord Hw Hh H4 H5 H6 H7 H8 H9 H10 H11 H12 H13 H14 H15 H16 H17 H18 H19 H20) as (o & d & X1 & X2 & X3).
  exists o, d. auto.
Qed.

Lemma receives_app h q : receives root user pk t (h ++ q) -> receives root user pk t h.
Proof.
  intros (Ht & Hh & Hw). split; [exact Ht|]. split; [exact (hears_app pk t root user _ _ Hh)|].
  intros w Hin. apply Hw. unfold inav_words. rewrite flat_map_app. apply in_or_app. now left.
Qed.
Lemma order_app h q : in_subframe_order (h ++ q) -> in_subframe_order h.
Proof. apply order_prefix. Qed.

(** ** galmon-osnma *)

Lemma galmon_shows ms1 ms2 l1 l k svn bits : Forall AppsSpec.message_ok (ms1 ++ ms2) -> no_bad_packet (ms1 ++ ms2) ->
  feeds_all [] (inav_packets (ms1 ++ ms2)) l -> feeds_all [] (inav_packets ms1) l1 ->
  receives root user pk t l -> gives_data root user pk slow t k svn bits l1 ->
  exists z log1 log2, fold_outcome galmon_step (ms1 ++ ms2) (galmon_new new) = Ok z /\ z_log z = log1 ++ log2 /\
    last_logged k svn log1 = Some bits.
Proof.
  intros Hms Hnb Hf Hf1 Hrec Hg.
  assert (Hwk : Forall week_fits (inav_packets (ms1 ++ ms2))).
  { apply Forall_forall. intros p Hin. apply in_split in Hin. destruct Hin as (b & a & E).
    destruct (Z_lt_dec (raw_time p) (65536 * 604800)) as [L|L]; [exact L|]. exfalso. apply (Hnb b p a E). left. exact L. }
  assert (Hcalls : forall ms l, Forall AppsSpec.message_ok ms -> Forall week_fits (inav_packets ms) -> no_bad_packet ms -> feeds_all [] (inav_packets ms) l ->
    exists a, galmon_all_calls app_new ms = Ok (a, l)).
  { intros ms l' Hm Hwf Hn Hfa. destruct (all_calls_spec ms app_new [] eq_refl Hm (or_intror Hwf)) as [(a & l2 & H1 & H2 & _)|(_ & bs & p & after & H2 & H3)].
    - exists a. rewrite (feeds_all_fun _ _ _ H2 _ Hfa) in H1. exact H1.
    - exfalso. rewrite app_nil_r in H3. exact (Hn _ _ _ H2 H3). }
  assert (Ep : inav_packets (ms1 ++ ms2) = inav_packets ms1 ++ inav_packets ms2) by apply flat_map_app.
  destruct (Hcalls _ l Hms Hwk Hnb Hf) as (a & Ha).
  assert (Hms1 : Forall AppsSpec.message_ok ms1) by (apply Forall_app in Hms; exact (proj1 Hms)).
  destruct (Hcalls ms1 l1 Hms1) as (a1 & Ha1).
  { rewrite Ep in Hwk. apply Forall_app in Hwk. exact (proj1 Hwk). }
  { intros b p af E. apply (Hnb b p (af ++ inav_packets ms2)). rewrite Ep, E, <- app_assoc. reflexivity. }
  { exact Hf1. }
  assert (El : exists l2, l = l1 ++ l2).
  { rewrite all_calls_app, Ha1 in Ha. cbn [bind] in Ha. destruct (galmon_all_calls a1 ms2) as [[a2 l2]|]; cbn [bind] in Ha; [|discriminate Ha].
    apply ok_inj, pair_equal_spec in Ha. destruct Ha as [_ <-]. now exists l2. }
  destruct El as (l2 & ->).
  destruct (all_calls_ok (ms1 ++ ms2) app_new a (l1 ++ l2) Hms I (Z.le_refl 0) Ha) as (Hok & _ & Hord).
  destruct (honest_run HC HS pk t (proj1 Hrec) root user slow (l1 ++ l2) Hok (proj1 (proj2 Hrec))) as (o & Hr & _).
  destruct (galmon_total _ a (l1 ++ l2) o Hms Ha Hr (proj2 (proj2 Hrec))) as (z & Hz).
  destruct (log_grows ms1 ms2 z Hms Hz) as (z1 & es & Hz1 & Hlog). exists z, (z_log z1), es. split; [exact Hz|]. split; [exact Hlog|].
  destruct (galmon_run HC HS root user slow ms1 Hms1 z1 Hz1) as (l1' & Hc1 & Hr1 & Hok1 & Hord1 & _ & _ & Hlast).
  rewrite Ha1 in Hc1. apply ok_inj, pair_equal_spec in Hc1. destruct Hc1 as [_ <-].
  destruct (gives_getter k svn bits l1 Hok1 Hord1 (receives_app _ _ Hrec) Hg) as (o1 & d & X1 & X2 & <-).
  assert (Hs : 1 <= svn <= 36) by (destruct Hg; assumption).
  apply Hlast; [exact Hs|]. congruence.
Qed.

(** ** The firmware *)

Lemma no_library_panic l : Forall op_ok l -> receives root user pk t l -> ~ library_panics new l.
Proof.
  intros Hok Hrec (n & Hn & H).
  assert (Hrec1 : receives root user pk t (firstn (n + 1) l)).
  { rewrite <- (firstn_skipn (n + 1) l) in Hrec. exact (receives_app _ _ Hrec). }
  assert (Hok1 : Forall op_ok (firstn (n + 1) l)).
  { rewrite <- (firstn_skipn (n + 1) l) in Hok. apply Forall_app in Hok. exact (proj1 Hok). }
  destruct (honest_run HC HS pk t (proj1 Hrec) root user slow _ Hok1 (proj1 (proj2 Hrec1))) as (o & Hr & _).
  destruct H as [H|(o' & k & svn & H1 & _ & H2)]; [congruence|].
  destruct (C10_getters_never_panic C B S HC HS root user slow _ o' k svn Hok1 (proj2 (proj2 Hrec1)) H1) as (r & E). congruence.
Qed.

Lemma response_reports o x r k svn d : response o x r -> 1 <= svn <= 36 -> getter k o svn = Ok (Some d) -> reports k svn r.
Proof.
  intros (l0 & l4 & echo & line0 & line4 & _ & (_ & A4) & (_ & A0) & L4 & L0 & ->) Hs Hg. destruct k.
  - exists (echo ++ line4), ready_line, line0, l0, (g_tow (nd_gst d)). split; [now rewrite <- !app_assoc|]. split; [exact L0|].
    apply A0. split; [exact Hs|]. exists d. auto.
  - exists echo, (line0 ++ ready_line), line4, l4, (g_tow (nd_gst d)). split; [reflexivity|]. split; [exact L4|].
    apply A4. split; [exact Hs|]. exists d. auto.
Qed.

Lemma board_shows calls lines n k svn bits printed u : Forall2 carries calls lines -> Forall op_ok calls -> in_subframe_order calls ->
  receives root user pk t calls -> (n + 1 < List.length calls)%nat -> gives_data root user pk slow t k svn bits (firstn (n + 1) calls) ->
  line_prints (line_new lines new) printed u -> stuck u ->
  exists before r after, concat printed = before ++ r ++ after /\ reports k svn r /\
    exists o x, nth_error calls n = Some x /\ run new (firstn (n + 1) calls) = Ok o /\ response o x r.
Proof.
  intros Hcar Hok Hord Hrec Hn Hg Hp Hst.
  assert (Hnh : u_board u <> Halted).
  { intros Hb. destruct (line_stuck new calls lines Hcar Hok u (prints_steps _ _ _ Hp) Hst) as [(_ & X)|(o & _ & _ & _ & X)].
    - exact (no_library_panic calls Hok Hrec X).
    - congruence. }
  destruct (prints_all new calls lines Hcar Hok printed u Hp Hst Hnh) as (rs & (_ & Hrs) & Hlen & E).
  destruct (nth_error calls n) as [x|] eqn:Ex; [|apply nth_error_None in Ex; lia].
  destruct (nth_error rs n) as [r|] eqn:Er; [|apply nth_error_None in Er; lia].
  destruct (Hrs n x r Ex Er) as (o & Hr & Hresp).
  assert (Hs : exists b a, firstn (List.length calls) (ready_line :: rs) = b ++ r :: a).
  { apply in_split. destruct (List.length calls) as [|m] eqn:Em; [lia|]. cbn [firstn]. right.
    apply (nth_error_In _ n). rewrite nth_error_firstn. destruct (n <? m)%nat eqn:El; [exact Er|lia]. }
  destruct Hs as (b & a & Es). rewrite Es, concat_app in E. cbn [concat] in E.
  exists (concat b), r, (concat a). split; [exact E|]. split.
  - rewrite <- (firstn_skipn (n + 1) calls) in Hrec, Hok, Hord. apply receives_app in Hrec. apply order_app in Hord. apply Forall_app in Hok. destruct Hok as [Hok _].
    destruct (gives_getter k svn bits _ Hok Hord Hrec Hg) as (o' & d & X1 & X2 & _).
    assert (o' = o) by congruence. subst o'. apply (response_reports o x r k svn d Hresp); [|exact X2]. destruct Hg; assumption.
  - exists o, x. auto.
Qed.
End Crypto.

(** OSNMA words that complete no subframe and the order of the calls. *)
From Coq Require Import ZArith List Bool Lia ZifyBool ZifyNat.
From Verif Require Import Model.Prelude Model.Params Model.Gst Model.Svn Model.Bitfields
  Model.Maclt Model.Tesla Model.Merkle Model.Subframe Model.Dsm Model.MackStore Model.Nav Model.Osnma
  Spec.TimeSpec Spec.CollectSpec Spec.SystemSpec Spec.StoredSpec Spec.CompleteSpec Spec.OrderSpec
  Proofs.Base Proofs.SubframeProofs Proofs.SystemProofs Proofs.StepProofs Proofs.TotalProofs.
Import ListNotations.
Open Scope Z_scope.

(** ** The collection of subframes *)

Lemma set_index_other {A} (l l' : list A) i j v : set_index l i v = Ok l' -> i <> j -> index l' j = index l j.
Proof.
  intros H Hn. apply set_index_ok in H. destruct H as (Hi & ->). unfold index. rewrite nth_error_put1 by exact Hi.
  destruct (i =? j)%nat eqn:E; [lia|reflexivity].
Qed.

Lemma set_index_length {A} (l l' : list A) i v : set_index l i v = Ok l' -> length l' = length l.
Proof. intros H. apply set_index_ok in H. destruct H as (Hi & ->). rewrite length_put; [reflexivity|cbn [length]; lia]. Qed.

Lemma nth_error_ext {A} (l l' : list A) : (forall i, nth_error l i = nth_error l' i) -> l = l'.
Proof.
  revert l'. induction l as [|x l IH]; intros [|y l'] H; [reflexivity|discriminate (H 0%nat)|discriminate (H 0%nat)|].
  pose proof (H 0%nat) as H0. cbn [nth_error] in H0. injection H0 as ->. f_equal. apply IH. intros i. exact (H (Datatypes.S i)).
Qed.

Lemma set_index_swap {A} (l l1 l2 : list A) i j v w : i <> j -> set_index l i v = Ok l1 -> set_index l1 j w = Ok l2 ->
  exists l1', set_index l j w = Ok l1' /\ set_index l1' i v = Ok l2.
Proof.
  intros Hn H1 H2. pose proof (set_index_length _ _ _ _ H1) as Hl. apply set_index_ok in H1. destruct H1 as (Hi & E1).
  apply set_index_ok in H2. destruct H2 as (Hj & ->). rewrite Hl in Hj. exists (put j [w] l). split; [now apply set_index_in|].
  assert (Hl' : length (put j [w] l) = length l) by (apply length_put; cbn [length]; lia).
  rewrite set_index_in by lia. f_equal. apply nth_error_ext. intros k.
  rewrite (nth_error_put1 i v (put j [w] l)) by lia. rewrite (nth_error_put1 j w l) by lia.
  rewrite nth_error_put1 by lia. rewrite E1, nth_error_put1 by lia.
  destruct (i =? k)%nat eqn:Ei, (j =? k)%nat eqn:Ej; try reflexivity. lia.
Qed.

(** [subframe_feed] in two steps. *)
Definition prep (st : collect_subframe) (g : gst) : collect_subframe :=
  if negb (g_wn g =? sf_wn st) || negb (g_tow g / 30 =? sf_subframe st) then
    mkSub (sf_hkroot st) (sf_mack st) (repeat 0 num_svns) (g_wn g) (g_tow g / 30)
  else st.
Definition core (st : collect_subframe) (data : list Z) (i : nat) (word_num : Z)
  : outcome (collect_subframe * option (list Z * list Z * gst)) :=
  nv <- index (sf_num_valid st) i ;;
  if negb (word_num =? nv) then Ok (st, None)
  else
    let valid := Z.to_nat nv in
    hk <- index (sf_hkroot st) i ;;
    hk <- copy_from hk (valid * 1) (valid * 1 + 1) (sub 0 1 data) ;;
    hks <- set_index (sf_hkroot st) i hk ;;
    mk <- index (sf_mack st) i ;;
    mk <- copy_from mk (valid * 4) (valid * 4 + 4) (sub 1 5 data) ;;
    mks <- set_index (sf_mack st) i mk ;;
    nvs <- set_index (sf_num_valid st) i (nv + 1) ;;
    let st := mkSub hks mks nvs (sf_wn st) (sf_subframe st) in
    if nv + 1 =? words_per_subframe then
      g' <- gst_new (sf_wn st) (sf_subframe st * 30) ;;
      Ok (st, Some (hk, mk, g'))
    else Ok (st, None).

Lemma subframe_feed_steps st data svn g : subframe_feed st data svn g
  = core (prep st g) data (Z.to_nat (svn - 1)) ((g_tow g / 2) mod words_per_subframe).
Proof. reflexivity. Qed.

Lemma core_time st data i n st' r : core st data i n = Ok (st', r) -> sf_wn st' = sf_wn st /\ sf_subframe st' = sf_subframe st.
Proof.
  unfold core. intros H. bind_inv H. destruct (negb (n =? x)); [injection H as <- _; auto|]. cbv zeta in H.
  do 7 bind_inv H. destruct (x + 1 =? words_per_subframe); [bind_inv H|]; apply (f_equal (fun y => match y with Ok (s, _) => s | Panic => st end)) in H; cbn iota in H; subst st'; auto.
Qed.

Lemma core_swap st d1 i1 n1 st1 r1 d2 i2 n2 st2 r2 : i1 <> i2 ->
  core st d1 i1 n1 = Ok (st1, r1) -> core st1 d2 i2 n2 = Ok (st2, r2) ->
  exists st1', core st d2 i2 n2 = Ok (st1', r2) /\ core st1' d1 i1 n1 = Ok (st2, r1).
Proof.
  intros Hn H1 H2. unfold core in H1. bind_inv H1. rename x into nv1. rename E into Env1.
  destruct (negb (n1 =? nv1)) eqn:En1.
  { injection H1 as <- <-. exists st2. split; [exact H2|]. unfold core.
    assert (E : index (sf_num_valid st2) i1 = Ok nv1).
    { unfold core in H2. bind_inv H2. destruct (negb (n2 =? x)); [injection H2 as <- _; exact Env1|]. cbv zeta in H2. do 7 bind_inv H2.
      match goal with H : set_index (sf_num_valid st) i2 _ = Ok ?l |- _ => rewrite <- (set_index_other _ _ _ i1 _ H) in Env1 by congruence end.
      destruct (x + 1 =? words_per_subframe); [bind_inv H2|]; apply (f_equal (fun y => match y with Ok (s, _) => s | Panic => st end)) in H2; cbn iota in H2; subst st2; exact Env1. }
    rewrite E. cbn [bind]. rewrite En1. reflexivity. }
  cbv zeta in H1. bind_inv H1. bind_inv H1. bind_inv H1. bind_inv H1. bind_inv H1. bind_inv H1. bind_inv H1.
  rename x into hk1, x0 into hk1', x1 into hks1, x2 into mk1, x3 into mk1', x4 into mks1, x5 into nvs1.
  set (stA := mkSub hks1 mks1 nvs1 (sf_wn st) (sf_subframe st)) in *.
  assert (HstA : st1 = stA).
  { destruct (nv1 + 1 =? words_per_subframe); [bind_inv H1|]; apply (f_equal (fun y => match y with Ok (s, _) => s | Panic => st end)) in H1; cbn iota in H1; auto. }
  subst st1. unfold core in H2. cbn [stA sf_hkroot sf_mack sf_num_valid sf_wn sf_subframe] in H2. bind_inv H2. rename x into nv2. 
  match goal with H : index nvs1 i2 = Ok nv2 |- _ => rename H into Env2 end.
  rewrite (set_index_other _ _ _ i2 _ E5 Hn) in Env2.
  destruct (negb (n2 =? nv2)) eqn:En2.
  { injection H2 as <- <-. exists st. split; [unfold core; rewrite Env2; cbn [bind]; rewrite En2; reflexivity|].
    unfold core. rewrite Env1. cbn [bind]. rewrite En1. cbv zeta. rewrite E. cbn [bind]. rewrite E0. cbn [bind]. rewrite E1. cbn [bind].
    rewrite E2. cbn [bind]. rewrite E3. cbn [bind]. rewrite E4. cbn [bind]. rewrite E5. cbn [bind]. exact H1. }
  cbv zeta in H2. bind_inv H2. bind_inv H2. bind_inv H2. bind_inv H2. bind_inv H2. bind_inv H2. bind_inv H2.
  rename x into hk2, x0 into hk2', x1 into hks2, x2 into mk2, x3 into mk2', x4 into mks2, x5 into nvs2.
  destruct (set_index_swap _ _ _ _ _ _ _ Hn E1 E8) as (hksB & B1 & B2).
  destruct (set_index_swap _ _ _ _ _ _ _ Hn E4 E11) as (mksB & B3 & B4).
  destruct (set_index_swap _ _ _ _ _ _ _ Hn E5 E12) as (nvsB & B5 & B6).
  rewrite (set_index_other _ _ _ i2 _ E1 Hn) in E6. rewrite (set_index_other _ _ _ i2 _ E4 Hn) in E9.
  assert (Hn' : i2 <> i1) by congruence.
  rewrite <- (set_index_other _ _ _ i1 _ B1 Hn') in E. rewrite <- (set_index_other _ _ _ i1 _ B3 Hn') in E2.
  rewrite <- (set_index_other _ _ _ i1 _ B5 Hn') in Env1.
  exists (mkSub hksB mksB nvsB (sf_wn st) (sf_subframe st)). unfold core. cbn [sf_hkroot sf_mack sf_num_valid sf_wn sf_subframe]. cbv zeta.
  rewrite Env1, Env2. cbn [bind]. rewrite En1, En2. rewrite E, E6. cbn [bind]. rewrite E0, E7. cbn [bind]. rewrite B1, B2. cbn [bind].
  rewrite E2, E9. cbn [bind]. rewrite E3, E10. cbn [bind]. rewrite B3, B4. cbn [bind]. rewrite B5, B6. cbn [bind].
  subst stA. cbn [sf_wn sf_subframe] in H1. clear - H1 H2.
  destruct (nv1 + 1 =? words_per_subframe), (nv2 + 1 =? words_per_subframe); try bind_inv H1; try bind_inv H2;
    try match goal with H : gst_new _ _ = Ok _ |- _ => rewrite H end; cbn [bind];
    apply (f_equal (fun y => match y with Ok z => z | Panic => (st, r1) end)) in H1; cbn iota in H1; apply pair_equal_spec in H1; destruct H1 as (_ & <-);
    apply (f_equal (fun y => match y with Ok z => z | Panic => (st, r2) end)) in H2; cbn iota in H2; apply pair_equal_spec in H2; destruct H2 as (<- & <-);
    split; congruence.
Qed.

Lemma prep_same st g g' : sf_wn st = g_wn g -> sf_subframe st = g_tow g / 30 -> same_subframe g g' = true -> prep st g' = st.
Proof.
  intros H1 H2 H. unfold same_subframe in H. apply andb_true_iff in H. destruct H as (A1 & A2). unfold prep.
  rewrite H1, H2, (Z.eqb_sym (g_wn g')), (Z.eqb_sym (g_tow g' / 30)), A1, A2. reflexivity.
Qed.

Lemma prep_time st g : sf_wn (prep st g) = g_wn g /\ sf_subframe (prep st g) = g_tow g / 30.
Proof.
  unfold prep. destruct (g_wn g =? sf_wn st) eqn:E1; [|auto]. destruct (g_tow g / 30 =? sf_subframe st) eqn:E2; [|auto].
  apply Z.eqb_eq in E1, E2. auto.
Qed.

Lemma prep_eq st g g' : same_subframe g g' = true -> prep st g' = prep st g.
Proof.
  intros H. unfold same_subframe in H. apply andb_true_iff in H. destruct H as (A1 & A2). apply Z.eqb_eq in A1, A2.
  unfold prep. rewrite <- A1, <- A2. reflexivity.
Qed.

Lemma subframe_feed_swap st d1 s1 g1 st1 r1 d2 s2 g2 st2 r2 : 1 <= s1 -> 1 <= s2 -> s1 <> s2 -> same_subframe g1 g2 = true ->
  subframe_feed st d1 s1 g1 = Ok (st1, r1) -> subframe_feed st1 d2 s2 g2 = Ok (st2, r2) ->
  exists st1', subframe_feed st d2 s2 g2 = Ok (st1', r2) /\ subframe_feed st1' d1 s1 g1 = Ok (st2, r1).
Proof.
  intros L1 L2 Hn Hs H1 H2. rewrite subframe_feed_steps in H1, H2. destruct (prep_time st g1) as (T1 & T2).
  destruct (core_time _ _ _ _ _ _ H1) as (T3 & T4).
  rewrite (prep_same st1 g1 g2) in H2 by congruence. 
  assert (Hi : Z.to_nat (s1 - 1) <> Z.to_nat (s2 - 1)) by lia.
  destruct (core_swap _ _ _ _ _ _ _ _ _ _ _ Hi H1 H2) as (st1' & A1 & A2). exists st1'.
  rewrite !subframe_feed_steps, (prep_eq st g1 g2 Hs). split; [exact A1|].
  destruct (core_time _ _ _ _ _ _ A1) as (T5 & T6). rewrite (prep_same st1' g1 g1); [exact A2|congruence|congruence|].
  unfold same_subframe. rewrite !Z.eqb_refl. reflexivity.
Qed.

(** ** The rest of the receiver does not look at the collection of subframes *)

Section Crypto.
Context {C : crypto} {B : build} {S : storage}.

Notation moved s x := (o' <- x ;; Ok (set_sub s o')).

Lemma process_nma_header_sub s o hd pkid : process_nma_header (set_sub s o) hd pkid = set_sub s (process_nma_header o hd pkid).
Proof. unfold process_nma_header, alert_message_received. destruct (nma_status hd), (nma_cpks hd); reflexivity. Qed.

Lemma process_dsm_sub s o d hd g : process_dsm (set_sub s o) d hd g = moved s (process_dsm o d hd g).
Proof.
  unfold process_dsm. destruct (dm_type d).
  - unfold process_dsm_kroot. change (o_pub (set_sub s o)) with (o_pub o).
    destruct (kroot_public_key_id (dm_data d)) as [pkid|]; [|reflexivity]. cbn [bind].
    destruct (applicable_pubkey (o_pub o) pkid) as [[pk|]|]; [|reflexivity|reflexivity]. cbn [bind].
    destruct (key_from_dsm_kroot hd (dm_data d) (pk_key pk)) as [[key|e]|]; [|reflexivity|reflexivity]. cbn [bind].
    destruct (make_pkid_current (o_pub o) pkid) as [ps|]; [|reflexivity]. cbn [bind]. cbv zeta. f_equal.
    rewrite <- process_nma_header_sub. reflexivity.
  - unfold process_dsm_pkr. destruct (pkr_new_public_key_type (dm_data d)) as [t|]; [|reflexivity]. cbn [bind].
    destruct t; [| |reflexivity].
    + unfold process_dsm_pkr_npk. change (o_merkle (set_sub s o)) with (o_merkle o). change (o_pub (set_sub s o)) with (o_pub o).
      destruct (o_merkle o) as [root|]; [|reflexivity]. destruct (validate_pkr root (dm_data d)) as [[pk|e]|]; [|reflexivity|reflexivity]. cbn [bind].
      destruct (store_new_pubkey (o_pub o) pk); reflexivity.
    + unfold process_dsm_pkr_alert_message. change (o_merkle (set_sub s o)) with (o_merkle o).
      destruct (o_merkle o) as [root|]; [|reflexivity]. destruct (validate_alert_message root (dm_data d)) as [[u|e]|]; reflexivity.
Qed.

Lemma process_tags_sub s o k : process_tags (set_sub s o) k = moved s (process_tags o k).
Proof.
  unfold process_tags. cbn [set_sub o_mack o_keys o_slow o_nav].
  destruct (add_seconds (k_gst k) (-30)) as [g1|]; [|reflexivity]. cbn [bind].
  destruct (add_seconds g1 (-300)) as [g2|]; [|reflexivity]. cbn [bind].
  destruct (add_seconds (k_gst k) (-300)) as [g3|]; [|reflexivity]. cbn [bind].
  destruct (slowmac_key_of (o_keys o) g3) as [sk|]; [|reflexivity]. cbn [bind].
  match goal with |- bind ?x _ = _ => destruct x end; reflexivity.
Qed.

Lemma osnma_validate_key_sub s o mk g : osnma_validate_key (set_sub s o) mk g = moved s (osnma_validate_key o mk g).
Proof.
  unfold osnma_validate_key. change (o_keys (set_sub s o)) with (o_keys o). destruct (current_key (o_keys o)) as [cur|]; [|reflexivity].
  destruct (mack_key (mack_of_chain mk cur)) as [kb|]; [|reflexivity]. cbn [bind].
  destruct (key_from_bitslice kb g (k_chain cur)) as [nk|]; [|reflexivity]. cbn [bind].
  destruct (gst_cmp (k_gst cur) (k_gst nk)); [reflexivity| |reflexivity].
  destruct (validate_key cur nk) as [[key|e]|]; [|reflexivity|reflexivity]. cbn [bind].
  destruct (store_key (o_keys o) key) as [ks|]; [|reflexivity]. cbn [bind]. rewrite <- process_tags_sub. reflexivity.
Qed.

Lemma process_subframe_sub s o hk mk svn g : process_subframe (set_sub s o) hk mk svn g = moved s (process_subframe o hk mk svn g).
Proof.
  unfold process_subframe. destruct (index hk 0) as [hd|]; [|reflexivity]. cbn [bind set_sub o_mack].
  destruct (mack_store (o_mack o) mk svn g (nma_status hd)) as [ms|]; [|reflexivity]. cbn [bind]. cbv zeta.
  destruct (index hk 1) as [dh|]; [|reflexivity]. cbn [bind set_mack o_dsm]. change (o_dsm (set_sub s o)) with (o_dsm o).
  destruct (dsm_feed (o_dsm o) dh (skipn 2 hk)) as [(cd & d)|]; [|reflexivity]. cbn [bind].
  change (set_dsm cd (set_mack ms (set_sub s o))) with (set_sub s (set_dsm cd (set_mack ms o))).
  destruct d as [d|]; [|apply osnma_validate_key_sub].
  rewrite process_dsm_sub. destruct (process_dsm (set_dsm cd (set_mack ms o)) d hd g) as [o2|]; [|reflexivity]. cbn [bind].
  apply osnma_validate_key_sub.
Qed.

Hypothesis HC : crypto_ok C.
Hypothesis HS : storage_ok S.
Variables (root : option (list Z)) (user : option public_key) (slow : bool).
Notation new := (osnma_new root user slow).

Lemma zero_data data : forallb (fun x => x =? 0) data = forallb (Z.eqb 0) data.
Proof. induction data as [|x l IH]; cbn [forallb]; [reflexivity|]. now rewrite IH, Z.eqb_sym. Qed.

Lemma subframe_fed_total h o data svn gk : Forall op_ok h -> op_ok (FeedOsnma data svn gk) -> inv root user slow h o ->
  exists sf, subframe_feed (o_sub o) data svn gk = Ok (sf, expected_subframe (osnma_words h) (mkWord data svn gk)).
Proof.
  intros Hok Hx (Hsub & _). set (w := mkWord data svn gk) in *.
  assert (Hwok : word_ok w) by (destruct Hx as ((X1 & _) & X2 & X3); split; auto).
  pose proof (osnma_words_ok h Hok) as Hwords.
  destruct (subframe_feed_spec (current_run (osnma_words h)) (o_sub o) w) as (sf' & Esf & _); auto.
  { now apply Forall_current_run. }
  { intros; eapply current_run_same; eauto. }
  exists sf'. exact Esf.
Qed.

Lemma op_svn_pos x : op_ok x -> 1 <= op_svn x.
Proof. destruct x; unfold op_ok, svn_ok; cbn [op_svn]; intuition lia. Qed.

Theorem order_irrelevant h a y t : Forall op_ok (h ++ [a; y]) -> not_completing h a -> independent a y ->
  run new (h ++ a :: y :: t) = run new (h ++ y :: a :: t).
Proof.
  intros Hok Hnc Hind. apply Forall_app in Hok. destruct Hok as (Hok & Hax). apply Forall_cons_iff in Hax. destruct Hax as (Ha & Hy).
  apply Forall_cons_iff in Hy. destruct Hy as (Hy & _).
  unfold run. rewrite !fold_outcome_app. destruct (fold_outcome step h new) as [o|] eqn:Hr; [|reflexivity].
  cbn [bind fold_outcome]. fold (run new h) in Hr. pose proof (run_inv HC HS root user slow h Hok _ Hr) as Hinv.
  destruct a as [w1 s1 g1 b1|d1 s1 g1]; [destruct Hind|].
  destruct (forallb (Z.eqb 0) d1) eqn:Z1.
  { assert (Hz : forall o, step o (FeedOsnma d1 s1 g1) = Ok o) by (intros o'; cbn [step]; unfold feed_osnma; rewrite zero_data, Z1; reflexivity).
    rewrite Hz. cbn [bind]. destruct (step o y) as [o'|]; [|reflexivity]. cbn [bind]. now rewrite Hz. }
  destruct (subframe_fed_total h o d1 s1 g1 Hok Ha Hinv) as (sf1 & E1).
  destruct (expected_subframe (osnma_words h) (mkWord d1 s1 g1)) as [((hk1 & mk1) & gg1)|] eqn:X1.
  { elim (Hnc hk1 mk1 gg1). exists d1, s1, g1. auto. }
  assert (Hfeed : forall o' sf', subframe_feed (o_sub o') d1 s1 g1 = Ok (sf', None) -> step o' (FeedOsnma d1 s1 g1) = Ok (set_sub sf' o')).
  { intros o' sf' E. cbn [step]. unfold feed_osnma. rewrite zero_data, Z1, E. reflexivity. }
  rewrite (Hfeed o sf1 E1). cbn [bind].
  destruct y as [w2 s2 g2 b2|d2 s2 g2].
  - cbn [step]. unfold feed_inav. change (o_nav (set_sub sf1 o)) with (o_nav o).
    destruct (nav_feed (o_nav o) w2 s2 g2 b2) as [n|]; [|reflexivity]. cbn [bind].
    change (feed_osnma (set_nav n o) d1 s1 g1) with (step (set_nav n o) (FeedOsnma d1 s1 g1)).
    rewrite (Hfeed (set_nav n o) sf1 E1). reflexivity.
  - destruct Hind as (Hn & Hs).
    destruct (forallb (Z.eqb 0) d2) eqn:Z2.
    { assert (Hz : forall o, step o (FeedOsnma d2 s2 g2) = Ok o) by (intros o'; cbn [step]; unfold feed_osnma; rewrite zero_data, Z2; reflexivity).
      rewrite !Hz. cbn [bind]. rewrite (Hfeed o sf1 E1). reflexivity. }
    assert (Hr1 : run new (h ++ [FeedOsnma d1 s1 g1]) = Ok (set_sub sf1 o)).
    { rewrite run_snoc, Hr. cbn [bind]. now apply Hfeed. }
    assert (Hok1 : Forall op_ok (h ++ [FeedOsnma d1 s1 g1])) by (apply Forall_app; auto).
    pose proof (run_inv HC HS root user slow _ Hok1 _ Hr1) as Hinv1.
    destruct (subframe_fed_total _ _ d2 s2 g2 Hok1 Hy Hinv1) as (sf12 & E2). cbn [set_sub o_sub] in E2.
    pose proof (op_svn_pos _ Ha) as L1. pose proof (op_svn_pos _ Hy) as L2. cbn [op_svn] in L1, L2.
    destruct (subframe_feed_swap _ _ _ _ _ _ _ _ _ _ _ L1 L2 (not_eq_sym Hn) Hs E1 E2) as (sf2 & E3 & E4).
    cbn [step]. unfold feed_osnma at 1 2. rewrite !zero_data, !Z2. change (o_sub (set_sub sf1 o)) with sf1. rewrite E2, E3. cbn [bind]. cbv zeta.
    destruct (expected_subframe (osnma_words (h ++ [FeedOsnma d1 s1 g1])) (mkWord d2 s2 g2)) as [((hk & mk) & g)|].
    + change (set_sub sf12 (set_sub sf1 o)) with (set_sub sf12 o). rewrite !process_subframe_sub.
      destruct (process_subframe o hk mk s2 g) as [o'|]; [|reflexivity]. cbn [bind].
      change (feed_osnma (set_sub sf2 o') d1 s1 g1) with (step (set_sub sf2 o') (FeedOsnma d1 s1 g1)).
      rewrite (Hfeed (set_sub sf2 o') sf12 E4). reflexivity.
    + cbn [bind]. change (feed_osnma (set_sub sf2 o) d1 s1 g1) with (step (set_sub sf2 o) (FeedOsnma d1 s1 g1)).
      rewrite (Hfeed (set_sub sf2 o) sf12 E4). reflexivity.
Qed.

Lemma reordered_ok h h' : reordered h h' -> Forall op_ok h <-> Forall op_ok h'.
Proof.
  induction 1 as [h|h a y t _ _|h h' _ IH|h h' h'' _ IH1 _ IH2]; [reflexivity| |now symmetry|now rewrite IH1].
  rewrite !Forall_app, !Forall_cons_iff. tauto.
Qed.

Theorem reordered_run h h' : Forall op_ok h -> reordered h h' -> run new h = run new h'.
Proof.
  intros Hok H. induction H as [h|h a y t Hn Hi|h h' H IH|h h' h'' H1 IH1 H2 IH2]; [reflexivity| | |].
  - apply order_irrelevant; [|exact Hn|exact Hi]. rewrite Forall_app, !Forall_cons_iff in *. intuition auto.
  - symmetry. apply IH. now apply (reordered_ok h h').
  - rewrite IH1 by exact Hok. apply IH2. now apply (reordered_ok h h').
Qed.

End Crypto.

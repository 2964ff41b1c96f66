(** The subframe collector implements Spec/CollectSpec.v. *)
From Coq Require Import ZArith List Bool Lia ZifyBool ZifyNat.
From Verif Require Import Model.Prelude Model.Params Model.Gst Model.Subframe
  Spec.CollectSpec Proofs.Base.
Import ListNotations.
Open Scope Z_scope.

Ltac Zify.zify_post_hook ::= Z.div_mod_to_equations.

Definition word_ok (w : oword) : Prop :=
  length (w_data w) = 5%nat /\ 1 <= w_svn w <= 36 /\ gst_ok (w_gst w).

(** Feeding a history, ignoring the outputs. *)
Definition feed_word (st : collect_subframe) (w : oword) : outcome collect_subframe :=
  r <- subframe_feed st (w_data w) (w_svn w) (w_gst w) ;; Ok (fst r).
Definition feed_words (h : list oword) : outcome collect_subframe :=
  fold_outcome feed_word h subframe_new.

Lemma w_index_range w : 0 <= w_index w <= 14.
Proof. unfold w_index. lia. Qed.

Lemma in_order_snoc n ws w :
  in_order n (ws ++ [w]) =
  let c := in_order n ws in
  if w_index w =? n + Z.of_nat (length c) then c ++ [w] else c.
Proof.
  revert n; induction ws as [|x ws IH]; intros n; cbn [in_order length app nth_error].
  - rewrite Z.add_0_r. destruct (w_index w =? n); reflexivity.
  - destruct (w_index x =? n); rewrite IH; cbn [in_order length app nth_error].
    + replace (n + 1 + Z.of_nat (length (in_order (n + 1) ws)))
        with (n + Z.of_nat (S (length (in_order (n + 1) ws)))) by lia.
      destruct (w_index w =? _); reflexivity.
    + reflexivity.
Qed.

Lemma in_order_length n ws : 0 <= n <= 15 -> Z.of_nat (length (in_order n ws)) <= 15 - n.
Proof.
  revert n; induction ws as [|x ws IH]; intros n Hn; cbn [in_order length app nth_error]; [lia|].
  pose proof (w_index_range x). destruct (w_index x =? n) eqn:E.
  - cbn [length]. specialize (IH (n + 1)). lia.
  - apply IH; lia.
Qed.

Lemma in_order_indices n ws i w :
  nth_error (in_order n ws) i = Some w -> w_index w = n + Z.of_nat i.
Proof.
  revert n i; induction ws as [|x ws IH]; intros n i; cbn [in_order length app nth_error].
  - destruct i; discriminate.
  - destruct (w_index x =? n) eqn:E.
    + destruct i as [|i]; cbn [in_order length app nth_error].
      * intros H; injection H as <-. lia.
      * intros H. apply IH in H. lia.
    + apply IH.
Qed.

Lemma in_order_subseq n ws : subsequence (in_order n ws) ws.
Proof.
  revert n; induction ws as [|x ws IH]; intros n; cbn.
  - constructor.
  - destruct (w_index x =? n); constructor; apply IH.
Qed.

Lemma filter_subseq {A} (p : A -> bool) l : subsequence (filter p l) l.
Proof. induction l as [|x l IH]; cbn; [constructor|]. destruct (p x); constructor; auto. Qed.

Lemma subsequence_trans {A} (l1 l2 l3 : list A) :
  subsequence l1 l2 -> subsequence l2 l3 -> subsequence l1 l3.
Proof.
  intros H1 H2. revert l1 H1; induction H2; intros l0 H1.
  - inversion H1; constructor.
  - inversion H1; subst; constructor; auto.
  - constructor; auto.
Qed.

Lemma subsequence_refl {A} (l : list A) : subsequence l l.
Proof. induction l; constructor; auto. Qed.

Lemma subsequence_app_l {A} (p s l : list A) : subsequence s l -> subsequence s (p ++ l).
Proof. intros H. induction p; cbn [app]; [exact H|constructor; auto]. Qed.

Lemma subsequence_in {A} (l1 l2 : list A) x : subsequence l1 l2 -> In x l1 -> In x l2.
Proof. induction 1; cbn; intros Hx; [destruct Hx|destruct Hx; auto|auto]. Qed.

(** A subsequence with the indices n, n+1, ... is no longer than the greedy one. *)
Lemma in_order_greedy ws : forall n s,
  subsequence s ws -> (forall i w, nth_error s i = Some w -> w_index w = n + Z.of_nat i) ->
  (length s <= length (in_order n ws))%nat.
Proof.
  induction ws as [|x ws IH]; intros n s Hs Hi.
  - inversion Hs; subst; cbn; lia.
  - assert (Hgen : forall s, subsequence s ws ->
      (forall i w, nth_error s i = Some w -> w_index w = n + Z.of_nat i) ->
      (length s <= length (in_order n ws))%nat) by (intros; apply IH; auto).
    cbn. destruct (w_index x =? n) eqn:E.
    + inversion Hs as [l H1|y l1 l2 H1 H2 H3|y l1 l2 H1 H2 H3]; subst; cbn; try lia.
      * specialize (IH (n + 1) l1 H1).
        assert (length l1 <= length (in_order (n + 1) ws))%nat; [|lia].
        apply IH. intros i w Hw. specialize (Hi (S i) w Hw). lia.
      * destruct s as [|y s]; cbn; [lia|].
        assert (H1' : subsequence s ws).
        { clear -H1. remember (y :: s) as l eqn:El. revert y s El.
          induction H1; intros z s0 El; try discriminate.
          - injection El as -> ->. constructor; auto.
          - subst l1. constructor. eapply IHsubsequence; reflexivity. }
        specialize (IH (n + 1) s H1').
        assert (length s <= length (in_order (n + 1) ws))%nat; [|lia].
        apply IH. intros i w Hw. specialize (Hi (S i) w Hw). lia.
    + inversion Hs as [l H1|y l1 l2 H1 H2 H3|y l1 l2 H1 H2 H3]; subst; cbn; try lia.
      * specialize (Hi 0%nat x eq_refl). lia.
      * apply Hgen; auto.
Qed.

Lemma current_run_snoc h w : current_run (h ++ [w]) = run_for (current_run h) w ++ [w].
Proof. unfold current_run. now rewrite fold_left_app. Qed.

Lemma same_subframe_trans a b c :
  same_subframe a b = true -> same_subframe b c = true -> same_subframe a c = true.
Proof. unfold same_subframe. lia. Qed.

Lemma same_subframe_sym a b : same_subframe a b = same_subframe b a.
Proof. unfold same_subframe. rewrite (Z.eqb_sym (g_wn a)), (Z.eqb_sym (g_tow a / 30)). reflexivity. Qed.

(** All words of a run are in the same subframe. *)
Lemma current_run_same h x y :
  In x (current_run h) -> In y (current_run h) -> same_subframe (w_gst x) (w_gst y) = true.
Proof.
  revert x y. induction h as [|w h IH] using rev_ind; [intros x y []|].
  rewrite current_run_snoc.
  assert (Hw : forall x, In x (run_for (current_run h) w) ->
               same_subframe (w_gst x) (w_gst w) = true).
  { intros x Hx. unfold run_for in Hx. destruct (current_run h) as [|r run] eqn:E; [destruct Hx|].
    destruct (same_subframe (w_gst r) (w_gst w)) eqn:Es; [|destruct Hx].
    apply same_subframe_trans with (w_gst r); auto. apply IH; auto. left; auto. }
  assert (Hsub : forall x, In x (run_for (current_run h) w) -> In x (current_run h)).
  { intros x Hx. unfold run_for in Hx. destruct (current_run h) as [|r run]; [destruct Hx|].
    destruct (same_subframe _ _); [auto|destruct Hx]. }
  intros x y Hx Hy. apply in_app_or in Hx, Hy. cbn in Hx, Hy.
  destruct Hx as [Hx|[<-|[]]], Hy as [Hy|[<-|[]]].
  - apply IH; auto.
  - auto.
  - rewrite same_subframe_sym; auto.
  - unfold same_subframe. rewrite !Z.eqb_refl. reflexivity.
Qed.

Lemma run_for_in h w x : In x (run_for (current_run h) w) ->
  In x (current_run h) /\ same_subframe (w_gst x) (w_gst w) = true.
Proof.
  unfold run_for. destruct (current_run h) as [|r run] eqn:E; [intros []|].
  destruct (same_subframe (w_gst r) (w_gst w)) eqn:Es; [|intros []].
  intros Hx. split; auto. apply same_subframe_trans with (w_gst r); auto.
  apply (current_run_same h); rewrite E; auto. left; auto.
Qed.

(** The run is the end of the history. *)
Lemma current_run_suffix h : exists p, h = p ++ current_run h.
Proof.
  induction h as [|w h IH] using rev_ind; [exists []; reflexivity|].
  rewrite current_run_snoc. destruct IH as (p & IH). unfold run_for.
  destruct (current_run h) as [|r run] eqn:E.
  - exists h. reflexivity.
  - destruct (same_subframe _ _).
    + exists p. rewrite app_assoc, <- IH. reflexivity.
    + exists h. reflexivity.
Qed.

(** ** The invariant *)

(** The state represents the run [run]. *)
Definition represents (run : list oword) (st : collect_subframe) : Prop :=
  length (sf_hkroot st) = 36%nat /\ length (sf_mack st) = 36%nat /\ length (sf_num_valid st) = 36%nat /\
  Forall (fun r => length r = 15%nat) (sf_hkroot st) /\
  Forall (fun r => length r = 60%nat) (sf_mack st) /\
  (forall r, In r run -> g_wn (w_gst r) = sf_wn st /\ g_tow (w_gst r) / 30 = sf_subframe st) /\
  (forall s, 1 <= s <= 36 ->
     let c := collected s run in
     nth_error (sf_num_valid st) (Z.to_nat (s - 1)) = Some (Z.of_nat (length c)) /\
     (exists hk, nth_error (sf_hkroot st) (Z.to_nat (s - 1)) = Some hk /\
                 firstn (length c) hk = hkroot_of c) /\
     (exists mk, nth_error (sf_mack st) (Z.to_nat (s - 1)) = Some mk /\
                 firstn (4 * length c) mk = mack_of c)).

Lemma represents_new : represents [] subframe_new.
Proof.
  unfold represents, subframe_new. cbn [sf_hkroot sf_mack sf_num_valid sf_wn sf_subframe].
  rewrite !repeat_length. repeat match goal with |- _ /\ _ => split end; auto.
  - apply Forall_forall. intros x Hx. apply repeat_spec in Hx. subst. apply repeat_length.
  - apply Forall_forall. intros x Hx. apply repeat_spec in Hx. subst. apply repeat_length.
  - intros r [].
  - intros s Hs. unfold num_svns. cbn [collected filter in_order length].
    rewrite !nth_error_repeat by lia.
    split; [reflexivity|]. split; eexists; split; reflexivity.
Qed.

Lemma hkroot_of_length ws : Forall (fun w => length (w_data w) = 5%nat) ws ->
  length (hkroot_of ws) = length ws.
Proof.
  induction 1 as [|w ws Hw _ IH]; [reflexivity|]. unfold hkroot_of in *. cbn [flat_map].
  rewrite app_length, IH, firstn_length, Hw. reflexivity.
Qed.

Lemma mack_of_length ws : Forall (fun w => length (w_data w) = 5%nat) ws ->
  length (mack_of ws) = (4 * length ws)%nat.
Proof.
  induction 1 as [|w ws Hw _ IH]; [reflexivity|]. unfold mack_of in *. cbn [flat_map].
  rewrite app_length, IH, skipn_length, Hw. cbn [length]. lia.
Qed.

Lemma collected_snoc_other s run w : w_svn w <> s -> collected s (run ++ [w]) = collected s run.
Proof.
  intros H. unfold collected. rewrite filter_app. cbn [filter].
  replace (w_svn w =? s) with false by lia. now rewrite app_nil_r.
Qed.

Lemma collected_snoc_same run w :
  collected (w_svn w) (run ++ [w]) =
  let c := collected (w_svn w) run in
  if w_index w =? Z.of_nat (length c) then c ++ [w] else c.
Proof.
  unfold collected. rewrite filter_app. cbn [filter]. rewrite Z.eqb_refl. apply in_order_snoc.
Qed.

Lemma collected_in s run w : In w (collected s run) -> In w run /\ w_svn w = s.
Proof.
  intros H. unfold collected in H.
  apply (subsequence_in _ _ _ (in_order_subseq _ _)) in H. apply filter_In in H. destruct H as (H1 & H2). split; [auto|lia].
Qed.

Lemma collected_length s run : (length (collected s run) <= 15)%nat.
Proof.
  pose proof (in_order_length 0 (filter (fun w => w_svn w =? s) run) ltac:(lia)).
  unfold collected. lia.
Qed.

Lemma firstn_put {A} n (src l : list A) :
  (n + length src <= length l)%nat -> firstn (n + length src) (put n src l) = firstn n l ++ src.
Proof.
  intros H. unfold put. rewrite app_assoc, firstn_app.
  assert (Hl : length (firstn n l ++ src) = (n + length src)%nat)
    by (rewrite app_length, firstn_length; lia).
  rewrite Hl, Nat.sub_diag, app_nil_r. apply firstn_all2. lia.
Qed.

Lemma subframe_feed_spec run st w :
  Forall word_ok run -> word_ok w -> represents run st ->
  (forall x y, In x run -> In y run -> same_subframe (w_gst x) (w_gst y) = true) ->
  exists st',
    subframe_feed st (w_data w) (w_svn w) (w_gst w) =
    Ok (st', let before := collected (w_svn w) (run_for run w) in
             if (Z.of_nat (length before) =? 14) && (w_index w =? 14)
             then Some (hkroot_of (before ++ [w]), mack_of (before ++ [w]), subframe_of (w_gst w))
             else None) /\
    represents (run_for run w ++ [w]) st'.
Proof.
  intros Hrun (Hlen & Hsvn & Hgst) Hrep Hsame.
  unfold subframe_feed, words_per_subframe.
  set (st1 := if _ || _ then _ else st).
  (* after the possible reset, the state represents the part of the run in force *)
  assert (Hrep1 : represents (run_for run w) st1 /\ sf_wn st1 = g_wn (w_gst w)
                  /\ sf_subframe st1 = g_tow (w_gst w) / 30).
  { destruct Hrep as (H1 & H2 & H3 & H4 & H5 & H6 & H7).
    unfold st1. destruct (negb _ || negb _) eqn:E.
    - cbn [sf_wn sf_subframe]. split; [|auto].
      assert (run_for run w = []) as ->.
      { unfold run_for. destruct run as [|r run']; [reflexivity|].
        destruct (H6 r (or_introl eq_refl)) as (Ha & Hb).
        unfold same_subframe. rewrite Ha, Hb.
        destruct (_ && _) eqn:E2; [|reflexivity]. lia. }
      unfold represents. cbn [sf_hkroot sf_mack sf_num_valid sf_wn sf_subframe].
      repeat match goal with |- _ /\ _ => split end; auto.
      + intros r [].
      + intros s Hs. cbn [collected filter in_order length]. unfold num_svns.
        rewrite nth_error_repeat by lia. split; [reflexivity|].
        specialize (H7 s Hs). destruct H7 as (_ & (hk & Hhk & _) & (mk & Hmk & _)).
        split; eexists; split; eauto.
    - split; [|lia].
      assert (run_for run w = run) as ->; [|repeat split; auto; apply H6 || apply H7; auto].
      unfold run_for. destruct run as [|r run']; [reflexivity|].
      destruct (H6 r (or_introl eq_refl)) as (Ha & Hb).
      unfold same_subframe. rewrite Ha, Hb.
      destruct (_ && _) eqn:E2; [reflexivity|]. lia. }
  destruct Hrep1 as (Hrep1 & Hwn & Hsf). clearbody st1. clear Hrep.
  assert (Hrun1 : Forall word_ok (run_for run w)).
  { unfold run_for. destruct run as [|r run']; [constructor|].
    destruct (same_subframe _ _); [auto|constructor]. }
  assert (Hsame1 : forall r, In r (run_for run w) -> same_subframe (w_gst r) (w_gst w) = true).
  { intros r Hr. unfold run_for in Hr. destruct run as [|r0 run']; [destruct Hr|].
    destruct (same_subframe (w_gst r0) (w_gst w)) eqn:E; [|destruct Hr].
    apply same_subframe_trans with (w_gst r0); auto. apply Hsame; auto. left; auto. }
  set (run1 := run_for run w) in *. clearbody run1. clear run Hrun Hsame.
  destruct Hrep1 as (H1 & H2 & H3 & H4 & H5 & H6 & H7).
  destruct (H7 (w_svn w) Hsvn) as (Hnv & (hk & Hhk & Hhkp) & (mk & Hmk & Hmkp)).
  set (c := collected (w_svn w) run1) in *.
  assert (Hidx : (g_tow (w_gst w) / 2) mod 15 = w_index w) by (unfold w_index; lia).
  rewrite Hidx. cbv zeta.
  unfold index at 1. rewrite Hnv. cbn [unwrap bind].
  pose proof (w_index_range w) as Hwi.
  pose proof (collected_length (w_svn w) run1) as Hclen. fold c in Hclen.
  assert (Hc5 : Forall (fun x => length (w_data x) = 5%nat) (c ++ [w])).
  { apply Forall_app. split; [|repeat constructor; auto].
    apply Forall_forall. intros x Hx. apply collected_in in Hx.
    rewrite Forall_forall in Hrun1. apply Hrun1. tauto. }
  destruct (w_index w =? Z.of_nat (length c)) eqn:Ew; cbn [negb].
  2: { (* the word is not the expected one *)
    eexists. split.
    - f_equal. f_equal.
      replace ((Z.of_nat (length c) =? 14) && (w_index w =? 14)) with false by lia. reflexivity.
    - unfold represents. repeat match goal with |- _ /\ _ => split end; auto.
      + intros r Hr. apply in_app_or in Hr. destruct Hr as [Hr|[<-|[]]]; auto.
      + intros s Hs. destruct (Z.eq_dec (w_svn w) s) as [<-|Hne].
        * rewrite collected_snoc_same. fold c. cbv zeta. rewrite Ew. apply H7; auto.
        * rewrite collected_snoc_other by auto. apply H7; auto. }
  rewrite Nat2Z.id. rewrite Nat.mul_1_r.
  set (n := length c) in *. set (i := Z.to_nat (w_svn w - 1)) in *.
  assert (Hn : (n <= 14)%nat) by lia.
  assert (Hhklen : length hk = 15%nat)
    by (rewrite Forall_forall in H4; apply H4; eapply nth_error_In; eauto).
  assert (Hmklen : length mk = 60%nat)
    by (rewrite Forall_forall in H5; apply H5; eapply nth_error_In; eauto).
  assert (Hi : (i < 36)%nat) by lia.
  unfold index at 1. rewrite Hhk. cbn [unwrap bind].
  assert (Hs1 : length (sub 0 1 (w_data w)) = 1%nat) by (rewrite length_sub; lia).
  assert (Hs4 : length (sub 1 5 (w_data w)) = 4%nat) by (rewrite length_sub; lia).
  rewrite copy_from_in by lia. cbn [bind].
  rewrite set_index_in by lia. cbn [bind].
  unfold index. rewrite Hmk. cbn [unwrap bind].
  rewrite copy_from_in by lia. cbn [bind].
  rewrite set_index_in by lia. cbn [bind].
  rewrite set_index_in by lia. cbn [bind].
  cbn [sf_wn sf_subframe].
  set (hk' := put n (sub 0 1 (w_data w)) hk).
  set (mk' := put (n * 4) (sub 1 5 (w_data w)) mk).
  assert (Hhk' : firstn (n + 1) hk' = hkroot_of (c ++ [w])).
  { unfold hk'. rewrite <- Hs1 at 1. rewrite firstn_put by lia. fold n in Hhkp. rewrite Hhkp.
    unfold hkroot_of. rewrite flat_map_app. f_equal. cbn [flat_map]. rewrite app_nil_r.
    apply sub_0. }
  assert (Hmk' : firstn (4 * (n + 1)) mk' = mack_of (c ++ [w])).
  { unfold mk'. replace (4 * (n + 1))%nat with (n * 4 + length (sub 1 5 (w_data w)))%nat by lia.
    rewrite firstn_put by lia. rewrite (Nat.mul_comm n 4). fold n in Hmkp. rewrite Hmkp.
    unfold mack_of. rewrite flat_map_app. f_equal. cbn [flat_map]. rewrite app_nil_r.
    unfold sub. apply firstn_all2. rewrite skipn_length. lia. }
  assert (Hhkl : length hk' = 15%nat) by (unfold hk'; rewrite length_put; lia).
  assert (Hmkl : length mk' = 60%nat) by (unfold mk'; rewrite length_put; lia).
  assert (Hrep' : represents (run1 ++ [w])
     (mkSub (put i [hk'] (sf_hkroot st1)) (put i [mk'] (sf_mack st1))
        (put i [Z.of_nat n + 1] (sf_num_valid st1)) (sf_wn st1) (sf_subframe st1))).
  { unfold represents. cbn [sf_hkroot sf_mack sf_num_valid sf_wn sf_subframe].
    rewrite !length_put1 by lia.
    repeat match goal with |- _ /\ _ => split end; auto.
    - apply Forall_put; auto.
    - apply Forall_put; auto.
    - intros r Hr. apply in_app_or in Hr. destruct Hr as [Hr|[<-|[]]]; auto.
    - intros s Hs. rewrite !nth_error_put1 by lia.
      destruct (Z.eq_dec (w_svn w) s) as [<-|Hne].
      + fold i. rewrite Nat.eqb_refl. rewrite collected_snoc_same. fold c. cbv zeta.
        fold n. rewrite Ew. rewrite app_length. fold n. cbn [length].
        split; [f_equal; lia|]. split; eexists; split; try reflexivity; auto.
      + replace (i =? Z.to_nat (s - 1))%nat with false by lia.
        rewrite collected_snoc_other by auto. apply H7; auto. }
  destruct (Z.of_nat n + 1 =? 15) eqn:E15.
  - unfold gst_new, assert_, secs_in_week. rewrite Hsf, Hwn.
    replace (g_tow (w_gst w) / 30 * 30 <? 604800) with true
      by (destruct Hgst; lia).
    cbn [bind]. eexists. split; [|rewrite Hsf, Hwn in Hrep'; exact Hrep'].
    f_equal. f_equal. replace ((Z.of_nat n =? 14) && (w_index w =? 14)) with true by lia.
    rewrite <- Hhk', <- Hmk'. f_equal. f_equal; [f_equal|].
    + symmetry. apply firstn_all2. lia.
    + symmetry. apply firstn_all2. lia.
    + unfold subframe_of. f_equal. lia.
  - eexists. split; [|exact Hrep'].
    f_equal. f_equal. replace ((Z.of_nat n =? 14) && (w_index w =? 14)) with false by lia.
    reflexivity.
Qed.

Lemma feed_words_snoc h w :
  feed_words (h ++ [w]) = (st <- feed_words h ;; feed_word st w).
Proof.
  unfold feed_words. rewrite fold_outcome_app. cbn [fold_outcome].
  destruct (fold_outcome feed_word h subframe_new); [|reflexivity]. cbn [bind].
  destruct (feed_word a w); reflexivity.
Qed.

Lemma Forall_current_run (P : oword -> Prop) h : Forall P h -> Forall P (current_run h).
Proof.
  intros H. destruct (current_run_suffix h) as (p & E). rewrite E in H.
  apply Forall_app in H. tauto.
Qed.

Lemma feed_words_represents h : Forall word_ok h ->
  exists st, feed_words h = Ok st /\ represents (current_run h) st.
Proof.
  induction h as [|w h IH] using rev_ind; intros H.
  - exists subframe_new. split; [reflexivity|]. apply represents_new.
  - apply Forall_app in H. destruct H as (Hh & Hw). inversion Hw as [|? ? Hw' _]; subst.
    destruct (IH Hh) as (st & E & Hrep).
    destruct (subframe_feed_spec (current_run h) st w) as (st' & E' & Hrep'); auto.
    + now apply Forall_current_run.
    + intros x y. apply current_run_same.
    + exists st'. rewrite feed_words_snoc, E. cbn [bind]. unfold feed_word. rewrite E'.
      split; [reflexivity|]. now rewrite current_run_snoc.
Qed.

Lemma subframe_exact h : Forall word_ok h ->
  exists st, feed_words h = Ok st /\
  forall w, word_ok w ->
  exists st', subframe_feed st (w_data w) (w_svn w) (w_gst w) = Ok (st', expected_subframe h w).
Proof.
  intros H. destruct (feed_words_represents h H) as (st & E & Hrep).
  exists st. split; [exact E|]. intros w Hw.
  destruct (subframe_feed_spec (current_run h) st w) as (st' & E' & _); auto.
  - now apply Forall_current_run.
  - intros x y. apply current_run_same.
  - exists st'. exact E'.
Qed.

(** ** Declarative form *)

Lemma subsequence_filter {A} (p : A -> bool) s l :
  subsequence s l -> (forall x, In x s -> p x = true) -> subsequence s (filter p l).
Proof.
  induction 1 as [l|x l1 l2 H IH|x l1 l2 H IH]; intros Hp; cbn [filter].
  - constructor.
  - rewrite (Hp x) by (left; auto). constructor. apply IH. intros y Hy. apply Hp. right; auto.
  - destruct (p x); [constructor|]; apply IH; auto.
Qed.

Lemma has_words_collected s run n :
  (n <= length (collected s run))%nat <-> exists ws, has_words s n ws run.
Proof.
  split.
  - intros Hn. exists (firstn n (collected s run)). unfold has_words. repeat split.
    + rewrite firstn_length. lia.
    + apply subsequence_trans with (collected s run).
      * clear. revert n. induction (collected s run) as [|x l IH]; intros [|n]; cbn; constructor. auto.
      * unfold collected. eapply subsequence_trans; [apply in_order_subseq|apply filter_subseq].
    + rewrite nth_error_firstn in H. destruct (i <? n)%nat; [|discriminate].
      apply nth_error_In in H. now apply collected_in in H.
    + rewrite nth_error_firstn in H. destruct (i <? n)%nat; [|discriminate].
      unfold collected in H. apply in_order_indices in H. lia.
  - intros (ws & Hlen & Hsub & Hw). subst n. unfold collected.
    apply in_order_greedy.
    + apply subsequence_filter; auto. intros x Hx. apply In_nth_error in Hx. destruct Hx as (i & Hx).
      apply Hw in Hx. lia.
    + intros i w H. apply Hw in H. lia.
Qed.

Lemma expected_subframe_iff h w :
  expected_subframe h w <> None <->
  w_index w = 14 /\ (exists ws, has_words (w_svn w) 14 ws (run_for (current_run h) w)) /\
  ~ (exists ws, has_words (w_svn w) 15 ws (run_for (current_run h) w)).
Proof.
  rewrite <- !has_words_collected. unfold expected_subframe.
  pose proof (collected_length (w_svn w) (run_for (current_run h) w)).
  destruct (_ && _) eqn:E; split; intros H1.
  - lia.
  - discriminate.
  - congruence.
  - lia.
Qed.

(** The returned messages are made of words of the history. *)
Lemma expected_subframe_sound h w hk mk g :
  expected_subframe h w = Some (hk, mk, g) ->
  exists ws, has_words (w_svn w) 15 (ws ++ [w]) (h ++ [w]) /\
    hk = hkroot_of (ws ++ [w]) /\ mk = mack_of (ws ++ [w]) /\ g = subframe_of (w_gst w) /\
    (forall x, In x ws -> same_subframe (w_gst x) (w_gst w) = true).
Proof.
  unfold expected_subframe. destruct (_ && _) eqn:E; [|discriminate].
  set (c := collected (w_svn w) (run_for (current_run h) w)) in *.
  intros H. injection H as <- <- <-. exists c.
  assert (Hc : forall x, In x c -> In x (run_for (current_run h) w) /\ w_svn x = w_svn w)
    by (intros x Hx; now apply collected_in in Hx).
  repeat split.
  - rewrite app_length. cbn [length]. lia.
  - assert (Hs : subsequence c h).
    { destruct (current_run_suffix h) as (p & Ep).
      apply subsequence_trans with (run_for (current_run h) w).
      - unfold c, collected. eapply subsequence_trans; [apply in_order_subseq|apply filter_subseq].
      - assert (Hs : subsequence (run_for (current_run h) w) (current_run h)).
        { unfold run_for. destruct (current_run h) as [|r run]; [constructor|].
          destruct (same_subframe _ _); [|constructor].
          apply subsequence_refl. }
        apply (subsequence_app_l p) in Hs. now rewrite <- Ep in Hs. }
    clear -Hs. induction Hs as [l|x l1 l2 _ IH|x l1 l2 _ IH]; cbn.
    + induction l as [|y l IH]; cbn; [constructor; constructor|constructor; auto].
    + constructor; auto.
    + constructor; auto.
  - destruct (Nat.lt_ge_cases i (length c)) as [Hi|Hi].
    + rewrite nth_error_app1 in H by auto. apply nth_error_In in H. now apply Hc.
    + rewrite nth_error_app2 in H by auto. destruct (i - length c)%nat; cbn in H.
      * now injection H as <-.
      * destruct n; discriminate.
  - destruct (Nat.lt_ge_cases i (length c)) as [Hi|Hi].
    + rewrite nth_error_app1 in H by auto. unfold c, collected in H. apply in_order_indices in H. lia.
    + rewrite nth_error_app2 in H by auto. destruct (i - length c)%nat eqn:Ei; cbn in H.
      * injection H as <-. lia.
      * destruct n; discriminate.
  - intros x Hx. apply Hc in Hx. destruct Hx as (Hx & _). now apply run_for_in in Hx.
Qed.

(** ** No interference *)

Lemma run_for_extend p q w :
  (forall x, In x q -> same_subframe (w_gst x) (w_gst w) = true) ->
  run_for (current_run (p ++ q)) w = run_for (current_run p) w ++ q.
Proof.
  induction q as [|x q IH] using rev_ind; intros H; [now rewrite !app_nil_r|].
  rewrite app_assoc, current_run_snoc.
  assert (Hx : same_subframe (w_gst x) (w_gst w) = true)
    by (apply H; apply in_or_app; right; left; auto).
  assert (Hr : forall r, run_for r x = run_for r w).
  { intros r. unfold run_for. destruct r as [|r0 r]; [reflexivity|].
    replace (same_subframe (w_gst r0) (w_gst w)) with (same_subframe (w_gst r0) (w_gst x));
      [reflexivity|].
    unfold same_subframe in *. lia. }
  rewrite Hr, IH by (intros y Hy; apply H; apply in_or_app; auto).
  rewrite <- app_assoc. unfold run_for at 1.
  destruct (run_for (current_run p) w ++ q ++ [x]) as [|r l] eqn:E; [reflexivity|].
  assert (same_subframe (w_gst r) (w_gst w) = true) as ->; [|reflexivity].
  assert (Hin : In r (run_for (current_run p) w ++ q ++ [x])) by (rewrite E; left; auto).
  apply in_app_or in Hin. destruct Hin as [Hin|Hin].
  - now apply run_for_in in Hin.
  - now apply H.
Qed.

Lemma expected_subframe_local p q1 q2 w :
  (forall x, In x q1 \/ In x q2 -> same_subframe (w_gst x) (w_gst w) = true) ->
  filter (fun x => w_svn x =? w_svn w) q1 = filter (fun x => w_svn x =? w_svn w) q2 ->
  expected_subframe (p ++ q1) w = expected_subframe (p ++ q2) w.
Proof.
  intros Hs Hf. unfold expected_subframe.
  rewrite (run_for_extend p q1 w), (run_for_extend p q2 w) by auto.
  unfold collected. rewrite !filter_app, Hf. reflexivity.
Qed.

(** ** At most once *)

Lemma collected_mono s run q : (length (collected s run) <= length (collected s (run ++ q)))%nat.
Proof.
  induction q as [|w q IH] using rev_ind; [rewrite app_nil_r; lia|].
  rewrite app_assoc. destruct (Z.eq_dec (w_svn w) s) as [E|E].
  - subst s. rewrite collected_snoc_same. cbv zeta. destruct (_ =? _); [|lia].
    rewrite app_length. cbn [length]. lia.
  - rewrite collected_snoc_other by auto. lia.
Qed.

Lemma expected_subframe_once h w q w' :
  expected_subframe h w <> None ->
  (forall x, In x q -> same_subframe (w_gst x) (w_gst w') = true) ->
  same_subframe (w_gst w) (w_gst w') = true -> w_svn w' = w_svn w ->
  expected_subframe (h ++ w :: q) w' = None.
Proof.
  intros H Hq Hw Hs. unfold expected_subframe in *. cbv zeta in *.
  destruct (_ && _) eqn:E in H; [|congruence]. clear H.
  rewrite run_for_extend by (intros x [<-|Hx]; auto).
  rewrite Hs.
  assert (Hrun : run_for (current_run h) w' = run_for (current_run h) w).
  { unfold run_for. destruct (current_run h) as [|r l]; [reflexivity|].
    replace (same_subframe (w_gst r) (w_gst w')) with (same_subframe (w_gst r) (w_gst w));
      [reflexivity|].
    unfold same_subframe in *. lia. }
  rewrite Hrun. change (w :: q) with ([w] ++ q). rewrite app_assoc.
  pose proof (collected_mono (w_svn w) (run_for (current_run h) w ++ [w]) q) as M.
  rewrite collected_snoc_same in M. cbv zeta in M.
  replace (w_index w =? _) with true in M by lia. rewrite app_length in M. cbn [length] in M.
  match goal with |- (if ?c then _ else _) = None => destruct c eqn:E2 end; [lia|reflexivity].
Qed.

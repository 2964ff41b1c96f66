(** Lemmas about Model/Gst.v and Model/Svn.v. *)
From Coq Require Import ZArith List Bool Lia ZifyBool ZifyNat Sorting.Sorted FinFun.
From Verif Require Import Model.Prelude Model.Params Model.Gst Model.Svn Spec.TimeSpec Proofs.Base.
Import ListNotations.
Open Scope Z_scope.

Ltac Zify.zify_post_hook ::= Z.div_mod_to_equations.

Lemma quot_week s : -604800 < s -> Z.quot s 604800 = if s <? 0 then 0 else s / 604800.
Proof.
  intros H. destruct (s <? 0) eqn:E.
  - rewrite <- (Z.opp_involutive s). rewrite Z.quot_opp_l by lia. rewrite Z.quot_small; lia.
  - apply Z.quot_div_nonneg; lia.
Qed.

Lemma quot_week_low s : s <= -604800 -> Z.quot s 604800 <= -1.
Proof.
  intros H. rewrite <- (Z.opp_involutive s). rewrite Z.quot_opp_l by lia.
  rewrite Z.quot_div_nonneg by lia. lia.
Qed.

Lemma time_of_inj a b : gst_ok a -> gst_ok b -> time_of a = time_of b -> a = b.
Proof.
  destruct a as [wa ta], b as [wb tb]. unfold gst_ok, time_of; cbn [g_wn g_tow]. intros.
  assert (wa = wb /\ ta = tb) as (-> & ->) by lia. reflexivity.
Qed.

Lemma gst_eqb_eq a b : gst_eqb a b = true <-> a = b.
Proof.
  destruct a as [wa ta], b as [wb tb]. unfold gst_eqb; cbn. split.
  - intros H. assert (wa = wb /\ ta = tb) as (-> & ->) by lia. reflexivity.
  - intros H. injection H as -> ->. lia.
Qed.

Lemma gst_eqb_refl a : gst_eqb a a = true.
Proof. now apply gst_eqb_eq. Qed.

Lemma gst_eqb_neq a b : gst_eqb a b = false <-> a <> b.
Proof. rewrite <- gst_eqb_eq. destruct (gst_eqb a b); split; congruence. Qed.

Lemma gst_cmp_time a b : gst_ok a -> gst_ok b -> gst_cmp a b = (time_of a ?= time_of b).
Proof.
  destruct a as [wa ta], b as [wb tb]. unfold gst_ok, time_of, gst_cmp; cbn [g_wn g_tow]. intros.
  destruct (wa ?= wb) eqn:E; [apply Z.compare_eq_iff in E; subst wb|..].
  - destruct (ta ?= tb) eqn:E; symmetry.
    + apply Z.compare_eq_iff in E. apply Z.compare_eq_iff. lia.
    + apply (proj1 (Z.compare_lt_iff _ _)) in E. apply Z.compare_lt_iff. lia.
    + apply (proj1 (Z.compare_gt_iff _ _)) in E. apply Z.compare_gt_iff. lia.
  - symmetry. apply (proj1 (Z.compare_lt_iff _ _)) in E. apply Z.compare_lt_iff. lia.
  - symmetry. apply (proj1 (Z.compare_gt_iff _ _)) in E. apply Z.compare_gt_iff. lia.
Qed.

Lemma gst_ltb_time a b : gst_ok a -> gst_ok b -> (gst_ltb a b = true <-> time_of a < time_of b).
Proof.
  intros Ha Hb. unfold gst_ltb. rewrite gst_cmp_time by auto.
  destruct (Z.compare_spec (time_of a) (time_of b)); split; intros; try discriminate; lia.
Qed.

(** What [add_seconds] computes. *)
Lemma add_seconds_eq {B : build} g s :
  gst_ok g -> -604800 < s < 2147483648 ->
  add_seconds g s =
  let t := time_of g + s in
  if (0 <=? t) && (t <? 65536 * 604800) then Ok (mkGst (t / 604800) (t mod 604800))
  else if overflow_checks then Panic
  else Ok (mkGst ((t / 604800) mod 65536) (t mod 604800)).
Proof.
  destruct g as [w t]. unfold gst_ok; cbn [g_wn g_tow]. intros (Hw & Ht) Hs.
  unfold add_seconds, secs_in_week, time_of; cbn [g_wn g_tow].
  rewrite quot_week by lia.
  destruct (s <? 0) eqn:Es.
  - replace (0 * 604800) with 0 by lia. rewrite Z.sub_0_r.
    change ((0 <=? 0) && (0 <? 65536)) with true. cbn [bind].
    unfold u16_arith at 1. replace ((0 <=? w + 0) && (w + 0 <? 65536)) with true by lia.
    cbn [bind].
    destruct (t + s <? 0) eqn:E1.
    + unfold u16_arith.
      destruct ((0 <=? w + 0 - 1) && (w + 0 - 1 <? 65536)) eqn:E2; cbn [bind].
      * unfold assert_. replace ((0 <=? t + s + 604800) && (t + s + 604800 <? 604800)) with true by lia.
        cbn [bind].
        replace ((0 <=? 604800 * w + t + s) && (604800 * w + t + s <? 65536 * 604800)) with true by lia.
        f_equal. f_equal; lia.
      * replace ((0 <=? 604800 * w + t + s) && (604800 * w + t + s <? 65536 * 604800)) with false by lia.
        destruct overflow_checks; cbn [bind]; [reflexivity|].
        unfold assert_. replace ((0 <=? t + s + 604800) && (t + s + 604800 <? 604800)) with true by lia.
        cbn [bind]. f_equal. f_equal; lia.
    + replace (604800 <=? t + s) with false by lia. cbn [bind].
      unfold assert_. replace ((0 <=? t + s) && (t + s <? 604800)) with true by lia. cbn [bind].
      replace ((0 <=? 604800 * w + t + s) && (604800 * w + t + s <? 65536 * 604800)) with true by lia.
      f_equal. f_equal; lia.
  - set (q := s / 604800). assert (Hq : 0 <= q < 3551) by lia.
    set (r := s - q * 604800). assert (Hr : 0 <= r < 604800) by lia.
    replace ((0 <=? q) && (q <? 65536)) with true by lia. cbn [bind].
    replace (604800 * w + t + s) with (604800 * (w + q) + (t + r)) by lia.
    clearbody r q. clear s Hs Es.
    unfold u16_arith at 1.
    replace (t + r <? 0) with false by lia.
    destruct ((0 <=? w + q) && (w + q <? 65536)) eqn:E1; cbn [bind].
    + destruct (604800 <=? t + r) eqn:E2.
      * unfold u16_arith.
        destruct ((0 <=? w + q + 1) && (w + q + 1 <? 65536)) eqn:E3; cbn [bind].
        -- unfold assert_. replace ((0 <=? t + r - 604800) && (t + r - 604800 <? 604800)) with true by lia.
           cbn [bind].
           replace ((0 <=? 604800 * (w + q) + (t + r)) && (604800 * (w + q) + (t + r) <? 65536 * 604800))
             with true by lia.
           f_equal. f_equal; lia.
        -- replace ((0 <=? 604800 * (w + q) + (t + r)) && (604800 * (w + q) + (t + r) <? 65536 * 604800))
             with false by lia.
           destruct overflow_checks; cbn [bind]; [reflexivity|].
           unfold assert_. replace ((0 <=? t + r - 604800) && (t + r - 604800 <? 604800)) with true by lia.
           cbn [bind]. f_equal. f_equal; lia.
      * cbn [bind]. unfold assert_. replace ((0 <=? t + r) && (t + r <? 604800)) with true by lia.
        cbn [bind].
        replace ((0 <=? 604800 * (w + q) + (t + r)) && (604800 * (w + q) + (t + r) <? 65536 * 604800))
          with true by lia.
        f_equal. f_equal; lia.
    + replace ((0 <=? 604800 * (w + q) + (t + r)) && (604800 * (w + q) + (t + r) <? 65536 * 604800))
        with false by lia.
      destruct overflow_checks; cbn [bind]; [reflexivity|].
      set (w' := (w + q) mod 65536). assert (Hw' : w' = w + q - 65536) by lia.
      destruct (604800 <=? t + r) eqn:E2.
      * unfold u16_arith. replace ((0 <=? w' + 1) && (w' + 1 <? 65536)) with true by lia.
        cbn [bind].
        unfold assert_. replace ((0 <=? t + r - 604800) && (t + r - 604800 <? 604800)) with true by lia.
        cbn [bind]. f_equal. f_equal; lia.
      * cbn [bind]. unfold assert_. replace ((0 <=? t + r) && (t + r <? 604800)) with true by lia.
        cbn [bind]. f_equal. f_equal; lia.
Qed.

Lemma add_seconds_low {B : build} g s : s <= -604800 -> add_seconds g s = Panic.
Proof.
  intros H. unfold add_seconds, secs_in_week. pose proof (quot_week_low s H).
  replace (0 <=? Z.quot s 604800) with false by lia. reflexivity.
Qed.

Lemma add_seconds_exact {B : build} g s g' :
  gst_ok g -> -2147483648 <= s < 2147483648 -> add_seconds g s = Ok g' ->
  gst_ok g' /\ time_of g' = (time_of g + s) mod (65536 * 604800) /\
  (representable (time_of g + s) -> time_of g' = time_of g + s) /\
  (overflow_checks = true -> time_of g' = time_of g + s).
Proof.
  intros Hg Hs H.
  destruct (Z_le_gt_dec s (-604800)); [now rewrite add_seconds_low in H by lia|].
  rewrite add_seconds_eq in H by (auto; lia).
  assert (Ht : 0 <= time_of g < 65536 * 604800)
    by (destruct g as [wg tg]; unfold gst_ok, time_of in *; cbn [g_wn g_tow] in *; lia).
  cbv zeta in H. set (t := time_of g + s) in *.
  destruct ((0 <=? t) && (t <? 65536 * 604800)) eqn:E.
  - injection H as <-. unfold gst_ok, time_of, representable; cbn [g_wn g_tow]. lia.
  - destruct overflow_checks; [discriminate|]. injection H as <-.
    unfold gst_ok, time_of, representable; cbn [g_wn g_tow].
    repeat split; try lia; try discriminate.
Qed.

Lemma add_seconds_panic {B : build} g s :
  gst_ok g -> -2147483648 <= s < 2147483648 ->
  (add_seconds g s = Panic <->
   s <= -604800 \/ overflow_checks = true /\ ~ representable (time_of g + s)).
Proof.
  intros Hg Hs. destruct (Z_le_gt_dec s (-604800)).
  - rewrite add_seconds_low by lia. tauto.
  - rewrite add_seconds_eq by (auto; lia). cbv zeta. unfold representable.
    destruct ((0 <=? time_of g + s) && (time_of g + s <? 65536 * 604800)) eqn:E.
    + split; [discriminate|]. intros [|(_ & H)]; lia.
    + destruct overflow_checks; split; try discriminate; auto.
      * intros _. right. split; auto. lia.
      * intros [|(? & _)]; [lia|discriminate].
Qed.

Lemma add_seconds_in {B : build} g s :
  gst_ok g -> -604800 < s < 2147483648 -> representable (time_of g + s) ->
  exists g', add_seconds g s = Ok g' /\ gst_ok g' /\ time_of g' = time_of g + s.
Proof.
  intros Hg Hs Hr. destruct (add_seconds g s) as [g'|] eqn:E.
  - exists g'. apply add_seconds_exact in E; auto; [|lia]. intuition.
  - apply add_seconds_panic in E; auto; [|lia]. destruct E as [|(_ & E)]; [lia|contradiction].
Qed.

Lemma add_subframes_exact {B : build} g n g' :
  gst_ok g -> -2147483648 <= 30 * n < 2147483648 -> add_subframes g n = Ok g' ->
  gst_ok g' /\ time_of g' = (time_of g + 30 * n) mod (65536 * 604800) /\
  (representable (time_of g + 30 * n) -> time_of g' = time_of g + 30 * n) /\
  (overflow_checks = true -> time_of g' = time_of g + 30 * n).
Proof.
  intros Hg Hn H. unfold add_subframes, secs_per_subframe in H.
  unfold i32_arith in H. rewrite (Z.mul_comm n 30) in H.
  replace ((-2147483648 <=? 30 * n) && (30 * n <? 2147483648)) with true in H by lia.
  cbn [bind] in H. now apply add_seconds_exact.
Qed.

Lemma add_subframes_panic {B : build} g n :
  gst_ok g -> -2147483648 <= 30 * n < 2147483648 ->
  (add_subframes g n = Panic <->
   n <= -20160 \/ overflow_checks = true /\ ~ representable (time_of g + 30 * n)).
Proof.
  intros Hg Hn. unfold add_subframes, secs_per_subframe, i32_arith.
  rewrite (Z.mul_comm n 30).
  replace ((-2147483648 <=? 30 * n) && (30 * n <? 2147483648)) with true by lia.
  cbn [bind]. rewrite add_seconds_panic by auto.
  split; intros [H|H]; auto; left; lia.
Qed.

Lemma add_subframes_in {B : build} g n :
  gst_ok g -> -20160 < n -> 30 * n < 2147483648 -> representable (time_of g + 30 * n) ->
  exists g', add_subframes g n = Ok g' /\ gst_ok g' /\ time_of g' = time_of g + 30 * n.
Proof.
  intros Hg Hs Hs' Hr. destruct (add_subframes g n) as [g'|] eqn:E.
  - exists g'. apply add_subframes_exact in E; auto; [|lia]. intuition.
  - apply add_subframes_panic in E; auto; [|lia]. destruct E as [|(_ & E)]; [lia|contradiction].
Qed.

(** ** Subframes *)

Lemma gst_subframe_ok g : gst_ok g -> gst_ok (gst_subframe g).
Proof. destruct g as [wg tg]; unfold gst_ok, gst_subframe, secs_per_subframe; cbn [g_wn g_tow]. lia. Qed.

Lemma gst_subframe_largest g :
  gst_ok g ->
  subframe_start (time_of (gst_subframe g)) /\
  time_of (gst_subframe g) <= time_of g /\
  (forall t, subframe_start t -> t <= time_of g -> t <= time_of (gst_subframe g)).
Proof.
  destruct g as [w t]. unfold gst_ok, gst_subframe, time_of, subframe_start, secs_per_subframe.
  cbn [g_wn g_tow]. intros H. split; [|split].
  - exists (20160 * w + t / 30). lia.
  - lia.
  - intros t' (n & ->) Hle. lia.
Qed.

Lemma is_subframe_start g : is_subframe g = true <-> subframe_start (time_of g).
Proof.
  destruct g as [w t]. unfold is_subframe, time_of, subframe_start, secs_per_subframe.
  cbn [g_wn g_tow]. split.
  - intros H. exists (20160 * w + t / 30). lia.
  - intros (n & H). lia.
Qed.

Lemma is_subframe_fixed g : is_subframe g = true <-> gst_subframe g = g.
Proof.
  destruct g as [w t]. unfold is_subframe, gst_subframe, secs_per_subframe. cbn [g_wn g_tow]. split.
  - intros H. f_equal. lia.
  - intros H. injection H as H. lia.
Qed.

Lemma gst_subframe_idem g : gst_subframe (gst_subframe g) = gst_subframe g.
Proof. unfold gst_subframe, secs_per_subframe. cbn [g_wn g_tow]. f_equal. lia. Qed.

Lemma subframes_difference_exact a b :
  gst_ok a -> gst_ok b -> is_subframe a = true -> is_subframe b = true ->
  30 * subframes_difference a b = time_of a - time_of b.
Proof.
  destruct a as [wa ta], b as [wb tb].
  unfold gst_ok, is_subframe, subframes_difference, time_of, secs_in_week, secs_per_subframe.
  cbn [g_wn g_tow]. intros Ha Hb Ea Eb.
  change (604800 / 30) with 20160.
  assert (Hd : ta - tb = (ta / 30 - tb / 30) * 30) by lia.
  rewrite Hd, Z.quot_mul by lia. lia.
Qed.

Lemma subframes_difference_inverts {B : build} a b :
  gst_ok a -> gst_ok b -> is_subframe a = true -> is_subframe b = true ->
  -604800 < time_of a - time_of b < 2147483648 ->
  add_subframes b (subframes_difference a b) = Ok a.
Proof.
  intros Ha Hb Ea Eb Hr. pose proof (subframes_difference_exact a b Ha Hb Ea Eb) as Hd.
  assert (Hra : representable (time_of a))
    by (destruct a as [wg tg]; unfold representable, time_of, gst_ok in *; cbn [g_wn g_tow] in *; lia).
  destruct (add_subframes_in b (subframes_difference a b)) as (g' & E & Hok & Ht); auto; try lia.
  - rewrite Hd. replace (time_of b + (time_of a - time_of b)) with (time_of a) by lia. auto.
  - rewrite E. f_equal. apply time_of_inj; auto. lia.
Qed.

Lemma subframes_difference_add {B : build} g n g' :
  gst_ok g -> is_subframe g = true -> -2147483648 <= 30 * n < 2147483648 ->
  representable (time_of g + 30 * n) ->
  add_subframes g n = Ok g' -> subframes_difference g' g = n.
Proof.
  intros Hg Eg Hn Hr E. apply add_subframes_exact in E; auto. destruct E as (Hok & _ & Ht & _).
  specialize (Ht Hr).
  assert (Eg' : is_subframe g' = true).
  { apply is_subframe_start. apply is_subframe_start in Eg. destruct Eg as (k & Hk).
    exists (k + n). lia. }
  pose proof (subframes_difference_exact g' g Hok Hg Eg' Eg). lia.
Qed.

(** ** SVN *)

Lemma svn_try_from_iff v s : svn_try_from v = Some s <-> 1 <= v <= 36 /\ s = v.
Proof.
  unfold svn_try_from, num_svns. change (Z.of_nat 36) with 36.
  destruct ((1 <=? v) && (v <=? 36)) eqn:E; split.
  - intros H; injection H as <-; lia.
  - intros (_ & ->); reflexivity.
  - discriminate.
  - lia.
Qed.

Lemma svn_iter_in s : In s svn_iter <-> 1 <= s <= 36.
Proof.
  unfold svn_iter. rewrite in_map_iff. unfold num_svns. split.
  - intros (n & <- & H). apply in_seq in H. lia.
  - intros H. exists (Z.to_nat s). split; [lia|]. apply in_seq. lia.
Qed.

Lemma svn_iter_nodup : NoDup svn_iter.
Proof.
  unfold svn_iter. apply FinFun.Injective_map_NoDup.
  - intros x y H. lia.
  - apply seq_NoDup.
Qed.

Lemma svn_iter_sorted : StronglySorted Z.lt svn_iter.
Proof.
  unfold svn_iter, num_svns. cbn [seq map].
  repeat constructor; lia.
Qed.

(** Properties C37 to C41: time arithmetic and satellite numbers. *)
From Coq Require Import ZArith List Bool Lia ZifyBool Sorting.Sorted.
From Verif Require Import Model.Prelude Model.Params Model.Gst Model.Svn
  Spec.TimeSpec Proofs.Base Proofs.GstProofs.
Import ListNotations.
Open Scope Z_scope.

(** ** C37 *)

(** A result of [add_seconds] is a valid GST.  It is the exact sum if this can be written,
    and always in a build with overflow checks; in a build without them the week number
    wraps around. *)
Theorem C37_add_seconds_exact : forall (B : build) g s g',
  gst_ok g -> -2147483648 <= s < 2147483648 -> add_seconds g s = Ok g' ->
  gst_ok g' /\ time_of g' = (time_of g + s) mod (65536 * 604800) /\
  (representable (time_of g + s) -> time_of g' = time_of g + s) /\
  (overflow_checks = true -> time_of g' = time_of g + s).
Proof. exact @add_seconds_exact. Qed.

Theorem C37_add_seconds_panics_iff : forall (B : build) g s,
  gst_ok g -> -2147483648 <= s < 2147483648 ->
  (add_seconds g s = Panic <->
   s <= -604800 \/ overflow_checks = true /\ ~ representable (time_of g + s)).
Proof. exact @add_seconds_panic. Qed.

Theorem C37_add_subframes_exact : forall (B : build) g n g',
  gst_ok g -> -2147483648 <= 30 * n < 2147483648 -> add_subframes g n = Ok g' ->
  gst_ok g' /\ time_of g' = (time_of g + 30 * n) mod (65536 * 604800) /\
  (representable (time_of g + 30 * n) -> time_of g' = time_of g + 30 * n) /\
  (overflow_checks = true -> time_of g' = time_of g + 30 * n).
Proof. exact @add_subframes_exact. Qed.

Theorem C37_add_subframes_panics_iff : forall (B : build) g n,
  gst_ok g -> -2147483648 <= 30 * n < 2147483648 ->
  (add_subframes g n = Panic <->
   n <= -20160 \/ overflow_checks = true /\ ~ representable (time_of g + 30 * n)).
Proof. exact @add_subframes_panic. Qed.

Definition debug_build : build := {| overflow_checks := true; feature_p521 := true |}.
Definition release_build : build := {| overflow_checks := false; feature_p521 := true |}.

(** Crossing the end of a week backwards. *)
Example C37_example :
  gst_ok (mkGst 1177 10) /\
  add_seconds (B := debug_build) (mkGst 1177 10) (-30) = Ok (mkGst 1176 604780) /\
  add_seconds (B := debug_build) (mkGst 0 10) (-30) = Panic /\
  add_seconds (B := release_build) (mkGst 0 10) (-30) = Ok (mkGst 65535 604780) /\
  add_subframes (B := debug_build) (mkGst 1177 0) (-3) = Ok (mkGst 1176 604710).
Proof. unfold gst_ok; cbn; repeat split; lia. Qed.

Print Assumptions C37_add_seconds_exact.
Print Assumptions C37_add_seconds_panics_iff.
Print Assumptions C37_add_subframes_exact.
Print Assumptions C37_add_subframes_panics_iff.

(** ** C38: false.  Going back one week or more always panics, in every build. *)
Theorem C38_add_seconds_total_refuted : forall (B : build),
  exists g s, gst_ok g /\ -2147483648 <= s < 2147483648 /\ representable (time_of g + s) /\
              add_seconds g s = Panic.
Proof.
  intros B. exists (mkGst 1177 3600), (-604800). unfold gst_ok, representable, time_of; cbn.
  repeat split; lia.
Qed.
Print Assumptions C38_add_seconds_total_refuted.

(** It does hold for every offset that is greater than minus one week. *)
Theorem C38_add_seconds_total_partial : forall (B : build) g s,
  gst_ok g -> -604800 < s < 2147483648 -> representable (time_of g + s) ->
  exists g', add_seconds g s = Ok g' /\ gst_ok g' /\ time_of g' = time_of g + s.
Proof. exact @add_seconds_in. Qed.
Print Assumptions C38_add_seconds_total_partial.

(** ** C39 *)

Theorem C39_gst_subframe_largest : forall g,
  gst_ok g ->
  subframe_start (time_of (gst_subframe g)) /\
  time_of (gst_subframe g) <= time_of g /\
  (forall t, subframe_start t -> t <= time_of g -> t <= time_of (gst_subframe g)).
Proof. exact gst_subframe_largest. Qed.

Theorem C39_gst_subframe_idempotent : forall g,
  (gst_ok g -> gst_ok (gst_subframe g)) /\
  gst_subframe (gst_subframe g) = gst_subframe g /\
  (is_subframe g = true <-> subframe_start (time_of g)) /\
  (is_subframe g = true <-> gst_subframe g = g).
Proof.
  intros g. exact (conj (gst_subframe_ok g) (conj (gst_subframe_idem g)
    (conj (is_subframe_start g) (is_subframe_fixed g)))).
Qed.

Theorem C39_subframes_difference_exact : forall a b,
  gst_ok a -> gst_ok b -> subframe_start (time_of a) -> subframe_start (time_of b) ->
  30 * subframes_difference a b = time_of a - time_of b.
Proof.
  intros a b Ha Hb Ea Eb.
  exact (subframes_difference_exact a b Ha Hb
    (proj2 (is_subframe_start a) Ea) (proj2 (is_subframe_start b) Eb)).
Qed.

Theorem C39_subframes_difference_inverts : forall (B : build) a b,
  gst_ok a -> gst_ok b -> subframe_start (time_of a) -> subframe_start (time_of b) ->
  -604800 < time_of a - time_of b < 2147483648 ->
  add_subframes b (subframes_difference a b) = Ok a.
Proof.
  intros B a b Ha Hb Ea Eb.
  exact (subframes_difference_inverts a b Ha Hb
    (proj2 (is_subframe_start a) Ea) (proj2 (is_subframe_start b) Eb)).
Qed.

Theorem C39_subframes_difference_add : forall (B : build) g n g',
  gst_ok g -> subframe_start (time_of g) -> -2147483648 <= 30 * n < 2147483648 ->
  representable (time_of g + 30 * n) ->
  add_subframes g n = Ok g' -> subframes_difference g' g = n.
Proof.
  intros B g n g' Hg Eg.
  exact (subframes_difference_add g n g' Hg (proj2 (is_subframe_start g) Eg)).
Qed.

Theorem C39_order_is_time_order : forall a b,
  gst_ok a -> gst_ok b ->
  (gst_ltb a b = true <-> time_of a < time_of b) /\ (gst_eqb a b = true <-> time_of a = time_of b) /\
  gst_cmp a b = (time_of a ?= time_of b).
Proof.
  intros a b Ha Hb. split; [exact (gst_ltb_time a b Ha Hb)|split; [|exact (gst_cmp_time a b Ha Hb)]].
  rewrite gst_eqb_eq. split; [congruence|]. now apply time_of_inj.
Qed.

Example C39_example :
  gst_ok (mkGst 1177 37) /\ gst_subframe (mkGst 1177 37) = mkGst 1177 30 /\
  subframes_difference (mkGst 1178 0) (mkGst 1177 604770) = 1 /\
  subframe_start (time_of (mkGst 1178 0)) /\ subframe_start (time_of (mkGst 1177 604770)) /\
  gst_ltb (mkGst 1177 604770) (mkGst 1178 0) = true.
Proof.
  unfold gst_ok, subframe_start, time_of; cbn [g_wn g_tow]; repeat split; try lia.
  - exists 23748480. reflexivity.
  - exists 23748479. reflexivity.
Qed.

Print Assumptions C39_gst_subframe_largest.
Print Assumptions C39_gst_subframe_idempotent.
Print Assumptions C39_subframes_difference_exact.
Print Assumptions C39_subframes_difference_inverts.
Print Assumptions C39_subframes_difference_add.
Print Assumptions C39_order_is_time_order.

(** ** C40: false for times that are not aligned.  One second after the end of the last
    subframe of a week, the difference with a time inside that subframe is wrong whether the
    quotient is rounded down or towards zero (it is 1 for an elapsed time of 1 s, and 0 for
    59 s elapsed on the other side). *)
Theorem C40_subframes_difference_unaligned_refuted :
  exists a b, gst_ok a /\ gst_ok b /\ time_of a - time_of b = 1 /\
              subframes_difference a b <> (time_of a - time_of b) / 30 /\
              subframes_difference a b <> Z.quot (time_of a - time_of b) 30.
Proof.
  exists (mkGst 1 0), (mkGst 0 604799). unfold gst_ok, time_of; cbn. repeat split; lia.
Qed.
Print Assumptions C40_subframes_difference_unaligned_refuted.

(** What does hold for all times: the error is less than one subframe. *)
Theorem C40_subframes_difference_error : forall a b,
  gst_ok a -> gst_ok b ->
  -30 < 30 * subframes_difference a b - (time_of a - time_of b) < 30.
Proof.
  intros [wa ta] [wb tb]. unfold gst_ok, subframes_difference, time_of, secs_in_week, secs_per_subframe.
  cbn [g_wn g_tow]. intros Ha Hb. change (604800 / 30) with 20160.
  pose proof (Z.quot_rem' (ta - tb) 30) as Hqr.
  pose proof (Z.rem_bound_abs (ta - tb) 30 ltac:(lia)) as Hr. lia.
Qed.
Print Assumptions C40_subframes_difference_error.

(** ** C41 *)

(** The comparison is made in the integer type; all twelve types can hold 36, so it is the
    comparison of numbers. *)
Theorem C41_try_from_iff : forall v s, svn_try_from v = Some s <-> 1 <= v <= 36 /\ s = v.
Proof. exact svn_try_from_iff. Qed.

Theorem C41_round_trip : forall v s, svn_try_from v = Some s -> svn_into s = v /\ svn_ok s.
Proof. intros v s H. apply svn_try_from_iff in H. unfold svn_into, svn_ok. lia. Qed.

Theorem C41_iter_exact :
  (forall s, In s svn_iter <-> 1 <= s <= 36) /\ NoDup svn_iter /\ StronglySorted Z.lt svn_iter.
Proof. exact (conj svn_iter_in (conj svn_iter_nodup svn_iter_sorted)). Qed.

Example C41_example : svn_try_from 11 = Some 11 /\ svn_try_from 37 = None /\ svn_try_from 0 = None
  /\ svn_try_from (-1) = None /\ length svn_iter = 36%nat.
Proof. repeat split. Qed.

Print Assumptions C41_try_from_iff.
Print Assumptions C41_round_trip.
Print Assumptions C41_iter_exact.

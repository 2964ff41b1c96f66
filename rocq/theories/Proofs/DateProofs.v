(** Proofs about the date in the name of a file of test vectors. *)
From Coq Require Import ZArith String List Bool Lia ZifyBool ZifyNat.
From Verif Require Import Model.Prelude Model.Params Model.Gst Model.Transport Model.Apps Model.Serial Model.TestVectors Model.FileName
  Spec.TimeSpec Spec.AppsSpec Spec.VectorsSpec Spec.DateSpec Proofs.Base Proofs.VectorsProofs.
Import ListNotations.
Open Scope list_scope.
Open Scope Z_scope.
Ltac Zify.zify_post_hook ::= Z.div_mod_to_equations.

(** ** The calendar *)

Lemma is_leap_iff y : is_leap y = true <-> leap_year y.
Proof.
  unfold is_leap, leap_year. rewrite andb_true_iff, orb_true_iff, negb_true_iff, !Z.eqb_eq, Z.eqb_neq.
  rewrite <- !Z.mod_divide by lia. reflexivity.
Qed.

Definition months : list Z := [1; 2; 3; 4; 5; 6; 7; 8; 9; 10; 11; 12].
Lemma month_cases m : In m months -> m = 1 \/ m = 2 \/ m = 3 \/ m = 4 \/ m = 5 \/ m = 6 \/ m = 7 \/ m = 8 \/ m = 9 \/ m = 10 \/ m = 11 \/ m = 12.
Proof. unfold months. cbn [In]. lia. Qed.

Lemma has_days_iff y m n : has_days y m n <-> (In m months /\ n = days_in_month y m).
Proof.
  unfold days_in_month. split.
  - intros [m' Hm|m' Hm|Hl|Hl].
    + cbn [In] in Hm. intuition subst; cbn; auto 20.
    + cbn [In] in Hm. intuition subst; cbn; auto 20.
    + apply is_leap_iff in Hl. rewrite Hl. split; [cbn; auto|reflexivity].
    + destruct (is_leap y) eqn:E; [exfalso; apply Hl; now apply is_leap_iff|]. split; [cbn; auto|reflexivity].
  - intros (Hm & ->). apply month_cases in Hm.
    destruct Hm as [-> | [-> | [-> | [-> | [-> | [-> | [-> | [-> | [-> | [-> | [-> | ->]]]]]]]]]]];
      try (apply hd_31; cbn; tauto); try (apply hd_30; cbn; tauto).
    destruct (is_leap y) eqn:E; [apply hd_29; now apply is_leap_iff|apply hd_28; rewrite <- is_leap_iff; congruence].
Qed.

Lemma days_in_month_bounds y m : 28 <= days_in_month y m <= 31.
Proof. unfold days_in_month. destruct (is_leap y); destruct m as [|[p|p|]|p]; try lia; repeat (destruct p; try lia). Qed.

(** A day of the calendar. *)
Definition day_number (x : date) : Z := days_before_year (year x) + days_before_month (year x) (month x) + (day x - 1).

Lemma next_month y m : In m months -> m < 12 -> days_before_month y (m + 1) = days_before_month y m + days_in_month y m.
Proof.
  intros Hm Hlt. unfold days_before_month, days_in_month. apply month_cases in Hm.
  destruct Hm as [-> | [-> | [-> | [-> | [-> | [-> | [-> | [-> | [-> | [-> | [-> | ->]]]]]]]]]]]; try lia; destruct (is_leap y); reflexivity.
Qed.
Lemma next_year y : days_before_year (y + 1) = days_before_year y + days_before_month y 12 + 31.
Proof.
  unfold days_before_year, days_before_month. change (nth (Z.to_nat (12 - 1)) [0; 31; 59; 90; 120; 151; 181; 212; 243; 273; 304; 334] 0) with 334.
  change (3 <=? 12) with true. cbn [andb]. unfold is_leap.
  destruct (y mod 4 =? 0) eqn:E4; destruct (y mod 100 =? 0) eqn:E100; destruct (y mod 400 =? 0) eqn:E400; cbn [andb orb negb]; lia.
Qed.
Lemma day_number_next x x' : next_day x x' -> day_number x' = day_number x + 1.
Proof.
  intros [y m d n Hd Hn|y m n Hd Hm|y]; unfold day_number; cbn [year month day].
  - lia.
  - apply has_days_iff in Hd. destruct Hd as (Hin & ->). rewrite next_month by auto. lia.
  - rewrite next_year. change (days_before_month (y + 1) 1) with 0. lia.
Qed.
Lemma days_after_number n x y : days_after x n y -> day_number y = day_number x + n.
Proof. intros H. induction H as [|n b c _ IH Hn]; [lia|]. apply day_number_next in Hn. lia. Qed.

Definition valid (x : date) : Prop := In (month x) months /\ 1 <= day x <= days_in_month (year x) (month x).
Lemma valid_iff x : valid_date x <-> valid x.
Proof.
  unfold valid_date, valid. split.
  - intros (n & Hn & Hd). apply has_days_iff in Hn. destruct Hn as (Hm & ->). auto.
  - intros (Hm & Hd). exists (days_in_month (year x) (month x)). split; [|exact Hd]. apply has_days_iff. auto.
Qed.
Lemma valid_next x y : next_day x y -> valid y.
Proof.
  intros [y' m d n Hd Hn|y' m n Hd Hm|y']; unfold valid; cbn [year month day].
  - apply has_days_iff in Hd. destruct Hd as (Hin & ->). split; [exact Hin|lia].
  - apply has_days_iff in Hd. destruct Hd as (Hin & _). pose proof (days_in_month_bounds y' (m + 1)). split; [|lia].
    apply month_cases in Hin. unfold months. cbn [In]. lia.
  - split; [cbn; auto|cbn; lia].
Qed.
Lemma valid_after x n y : valid x -> days_after x n y -> valid y.
Proof. intros Hx [|n' b c _ H]; [exact Hx|]. now apply valid_next in H. Qed.

(** The year is at least as far as the number of days says. *)
Lemma days_before_month_bounds y m : In m months -> 0 <= days_before_month y m <= 335.
Proof.
  intros Hm. unfold days_before_month. apply month_cases in Hm.
  destruct Hm as [-> | [-> | [-> | [-> | [-> | [-> | [-> | [-> | [-> | [-> | [-> | ->]]]]]]]]]]]; destruct (is_leap y); vm_compute; split; discriminate.
Qed.
Lemma day_number_year x : valid x -> 365 * (year x - 1) + (year x - 1) / 4 - (year x - 1) / 100 + (year x - 1) / 400 <= day_number x.
Proof.
  intros (Hm & Hd). unfold day_number, days_before_year. pose proof (days_before_month_bounds (year x) _ Hm). lia.
Qed.

(** ** Scanning the name *)

Lemma digit_value n : 0 <= n < 10 -> (48 <=? digit n) && (digit n <=? 57) = true /\ digit n - 48 = n.
Proof. unfold digit. lia. Qed.
Lemma skip_digit n r : 0 <= n < 10 -> skip_space (digit n :: r) = digit n :: r.
Proof. intros H. cbn [skip_space]. unfold is_space, digit. replace (((9 <=? 48 + n) && (48 + n <=? 13)) || (48 + n =? 32)) with false by lia. reflexivity. Qed.
Lemma scan_two_ok n r : 0 <= n < 100 -> scan_two (two_digits n ++ r) = Some (n, r).
Proof.
  intros H. unfold scan_two, two_digits. cbn [app]. rewrite skip_digit by lia. cbn [scan_digits].
  destruct (digit_value (n / 10) ltac:(lia)) as (-> & ->). destruct (digit_value (n mod 10) ltac:(lia)) as (-> & ->).
  f_equal. f_equal. lia.
Qed.
Lemma scan_year_ok n r : 0 <= n < 10000 -> scan_year (four_digits n ++ r) = Some (n, r).
Proof.
  intros H. unfold scan_year, four_digits, two_digits. cbn [app]. rewrite skip_digit by lia.
  replace (digit (n / 100 / 10) =? 45) with false by (unfold digit; lia). replace (digit (n / 100 / 10) =? 43) with false by (unfold digit; lia).
  cbn [scan_digits].
  destruct (digit_value (n / 100 / 10) ltac:(lia)) as (-> & ->). destruct (digit_value (n / 100 mod 10) ltac:(lia)) as (-> & ->).
  destruct (digit_value (n mod 100 / 10) ltac:(lia)) as (-> & ->). destruct (digit_value ((n mod 100) mod 10) ltac:(lia)) as (-> & ->).
  f_equal. f_equal. lia.
Qed.
Lemma scan_month_ok m r : In m months -> scan_month (month_name m ++ r) = Some (m, r).
Proof.
  intros Hm. apply month_cases in Hm.
  destruct Hm as [-> | [-> | [-> | [-> | [-> | [-> | [-> | [-> | [-> | [-> | [-> | ->]]]]]]]]]]]; reflexivity.
Qed.
Lemma scan_text_ok t r : scan_text t (t ++ r) = Some r.
Proof. induction t as [|a t IH]; cbn [app scan_text]; [destruct r; reflexivity|]. rewrite Z.eqb_refl. exact IH. Qed.

Lemma parse_file_name x h mi s : In (month x) months -> 0 <= day x < 100 -> 0 <= year x < 10000 ->
  0 <= h < 100 -> 0 <= mi < 100 -> 0 <= s < 100 ->
  parse_date (file_name x h mi s) =
    if (1 <=? day x) && (day x <=? days_in_month (year x) (month x)) && (h <=? 23) && (mi <=? 59) && (s <=? 60)
    then Some (timestamp (year x) (month x) (day x) h mi s) else None.
Proof.
  intros Hm Hd Hy Hh Hmi Hs. unfold parse_date, file_name.
  rewrite scan_two_ok by lia. cbv beta iota. rewrite scan_text_ok. rewrite scan_month_ok by exact Hm. cbv beta iota. rewrite scan_text_ok.
  rewrite scan_year_ok by lia. cbv beta iota. rewrite scan_text_ok. rewrite scan_two_ok by lia. cbv beta iota. rewrite scan_text_ok.
  rewrite scan_two_ok by lia. cbv beta iota. rewrite scan_text_ok. rewrite scan_two_ok by lia. cbv beta iota.
  rewrite <- (app_nil_r (text ".csv")), scan_text_ok.
  replace (-262143 <=? year x) with true by lia. replace (year x <=? 262142) with true by lia. now rewrite !andb_true_r.
Qed.

(** ** The time *)

Lemma timestamp_day x h mi s : 0 <= s < 60 -> timestamp (year x) (month x) (day x) h mi s - 935280000
  = 86400 * (day_number x - day_number galileo_start) + 3600 * h + 60 * mi + s.
Proof.
  intros Hs. unfold timestamp. fold (day_number x).
  replace (days_before_year (year x) + days_before_month (year x) (month x) + (day x - 1)) with (day_number x) by reflexivity.
  change (day_number galileo_start) with 729987. lia.
Qed.

Lemma years_written x n : days_after galileo_start n x -> 0 <= n -> n < 65536 * 7 -> valid x /\ 0 <= year x < 10000.
Proof.
  intros H H0 Hn. assert (Hv : valid x).
  { apply (valid_after galileo_start n); [|exact H]. split; [cbn; tauto|cbn; lia]. }
  split; [exact Hv|]. pose proof (days_after_number _ _ _ H) as E. change (day_number galileo_start) with 729987 in E.
  pose proof (day_number_year x Hv) as Hb. destruct Hv as (Hm & Hd).
  pose proof (days_before_month_bounds (year x) _ Hm) as Hbm. pose proof (days_in_month_bounds (year x) (month x)) as Hdm.
  assert (E' : day_number x = 365 * (year x - 1) + (year x - 1) / 4 - (year x - 1) / 100 + (year x - 1) / 400
                 + days_before_month (year x) (month x) + (day x - 1)) by reflexivity.
  clear - H0 Hn E Hb Hbm Hdm Hd E'. lia.
Qed.

Lemma days_after_nonneg x n y : days_after x n y -> 0 <= n.
Proof. intros H. induction H; lia. Qed.

Lemma parse_name_time x n h mi s : days_after galileo_start n x -> n < 65536 * 7 ->
  0 <= h < 24 -> 0 <= mi < 60 -> 0 <= s < 60 ->
  exists t, parse_date (file_name x h mi s) = Some t /\ t - 935280000 = 86400 * n + 3600 * h + 60 * mi + s.
Proof.
  intros H Hn Hh Hmi Hs. pose proof (days_after_nonneg _ _ _ H) as H0.
  destruct (years_written x n H H0 Hn) as (Hv & Hy). destruct Hv as (Hm & Hd).
  pose proof (days_in_month_bounds (year x) (month x)) as Hdm.
  exists (timestamp (year x) (month x) (day x) h mi s). split.
  - rewrite parse_file_name by (auto; lia).
    replace ((1 <=? day x) && (day x <=? days_in_month (year x) (month x)) && (h <=? 23) && (mi <=? 59) && (s <=? 60)) with true by lia. reflexivity.
  - rewrite timestamp_day by lia. rewrite (days_after_number _ _ _ H). lia.
Qed.

Theorem name_to_gst x n h mi s : days_after galileo_start n x -> n < 65536 * 7 ->
  0 <= h < 24 -> 0 <= mi < 60 -> 0 <= s < 60 ->
  exists g, filename_to_gst (file_name x h mi s) = Ok (ROk g) /\ gst_ok g /\ time_of g = 86400 * n + 3600 * h + 60 * mi + s.
Proof.
  intros H Hn Hh Hmi Hs. destruct (parse_name_time x n h mi s H Hn Hh Hmi Hs) as (t & E & Et).
  pose proof (days_after_nonneg _ _ _ H) as H0.
  unfold filename_to_gst. rewrite E, vectors_start_eq by lia. cbn [bind]. eexists. split; [reflexivity|].
  rewrite Et. unfold gst_ok, time_of, gst_at. cbn [g_wn g_tow]. lia.
Qed.

Theorem no_such_date x h mi s : In (month x) months -> 0 <= day x < 100 -> 0 <= year x < 10000 ->
  0 <= h < 100 -> 0 <= mi < 100 -> 0 <= s < 100 -> ~ (valid_date x /\ h < 24 /\ mi < 60 /\ s <= 60) ->
  parse_date (file_name x h mi s) = None.
Proof.
  intros Hm Hd Hy Hh Hmi Hs Hn. rewrite parse_file_name by auto.
  destruct ((1 <=? day x) && (day x <=? days_in_month (year x) (month x)) && (h <=? 23) && (mi <=? 59) && (s <=? 60)) eqn:E; [|reflexivity].
  exfalso. apply Hn. rewrite valid_iff. unfold valid. split; [split; [exact Hm|lia]|lia].
Qed.

(** The second 60 of a leap second is taken as the second 59. *)
Lemma leap_second x h mi : In (month x) months -> 0 <= day x < 100 -> 0 <= year x < 10000 -> 0 <= h < 100 -> 0 <= mi < 100 ->
  parse_date (file_name x h mi 60) = parse_date (file_name x h mi 59).
Proof. intros Hm Hd Hy Hh Hmi. rewrite !parse_file_name by (auto; lia). reflexivity. Qed.

Theorem before_the_start x n h mi s : days_after x n galileo_start -> 0 < n -> 0 <= year x -> valid_date x ->
  0 <= h < 24 -> 0 <= mi < 60 -> 0 <= s < 60 ->
  filename_to_gst (file_name x h mi s) = Panic.
Proof.
  intros H Hn Hy Hv Hh Hmi Hs. apply valid_iff in Hv. pose proof (day_number_year x Hv) as Hb. pose proof (days_after_number _ _ _ H) as Ed.
  change (day_number galileo_start) with 729987 in Ed. assert (Hy2 : year x < 10000) by (clear - Hn Hb Ed; lia). destruct Hv as (Hm & Hd).
  pose proof (days_in_month_bounds (year x) (month x)) as Hdm.
  unfold filename_to_gst. rewrite parse_file_name by (auto; lia).
  replace ((1 <=? day x) && (day x <=? days_in_month (year x) (month x)) && (h <=? 23) && (mi <=? 59) && (s <=? 60)) with true by lia.
  rewrite vectors_start_panics; [reflexivity|]. rewrite timestamp_day by lia. rewrite (days_after_number _ _ _ H). lia.
Qed.

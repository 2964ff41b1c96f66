(** Property C77: the date in the name of a file of test vectors. *)
From Coq Require Import ZArith String List Bool Lia.
From Verif Require Import Model.Prelude Model.Params Model.Gst Model.Nav Model.Osnma Model.Transport Model.Apps Model.Serial Model.TestVectors
  Model.Protobuf Model.Config Model.FileName
  Spec.TimeSpec Spec.PanicSpec Spec.CompleteSpec Spec.TransportSpec Spec.AppsSpec Spec.VectorsSpec Spec.ConfigSpec Spec.EndSpec Spec.DateSpec
  Proofs.Base Proofs.GstProofs Proofs.TransportProofs Proofs.AppsProofs Proofs.VectorsProofs Proofs.DateProofs
  Examples.Toy Examples.Transmit Props.VectorsProps Props.HonestProps Props.ConfigProps Props.EndProps.
Import ListNotations.
Open Scope list_scope.
Open Scope Z_scope.

(** ** C77 *)

(** The name of a file, of the date [x], [n] days after 22 August 1999 in the Gregorian calendar,
    gives the Galileo time that is [n] days and the time of the day after the start of week 0, for all
    dates whose week number has 16 bits. *)
Theorem C77_name_gives_time :
  forall x n h m s, days_after galileo_start n x -> n < 65536 * 7 -> 0 <= h < 24 -> 0 <= m < 60 -> 0 <= s < 60 ->
  exists g, filename_to_gst (file_name x h m s) = Ok (ROk g) /\ gst_ok g /\
    time_of g = 86400 * n + 3600 * h + 60 * m + s.
Proof. exact name_to_gst. Qed.

(** All the pages in the file get their times from this: the program writes the packets of
    the pages, the first ones with the time in the name. *)
Theorem C77_conversion :
  forall (B : build) (K : codec message) x n h m s file rows before,
  days_after galileo_start n x -> 0 <= h < 24 -> 0 <= m < 60 -> 0 <= s < 60 -> file_says file rows ->
  let start := 86400 * n + 3600 * h + 60 * m + s in
  start + 2 * Z.of_nat (longest rows) < 65536 * 604800 ->
  Forall fits (map (page_packet start) (schedule rows)) ->
  vectors_program (file_name x h m s) (Some file) (mkSink before None)
  = Ok (ROk tt, mkSink (before ++ concat (map frame (map (page_packet start) (schedule rows)))) None).
Proof.
  intros B K x n h m s file rows before Hx Hh Hm Hs Hf start Hr Hfit.
  destruct (parse_name_time x n h m s Hx ltac:(lia) Hh Hm Hs) as (t & E & Et). fold start in Et.
  pose proof (days_after_nonneg _ _ _ Hx) as H0.
  unfold vectors_program. rewrite E. change 935280000 with galileo_epoch in Et. rewrite <- Et in *.
  apply (C50_conversion t file rows before); [unfold start in Et; unfold galileo_epoch in *; lia|exact Hf|exact Hr|exact Hfit].
Qed.

(** C75 from the name of the file: osnma-test-vectors-to-galmon and galmon-osnma in a pipe, on a file
    with this name.  If the first [d] pages of each satellite, received from the time in the name on,
    have what authenticates the data, this data is logged last at the time of these pages. *)
Theorem C77_from_the_name_to_the_log :
  forall {C : crypto} {B : build} {S : storage} {F : key_files C}, crypto_ok C -> storage_ok S ->
  forall a root user pk slow t x n h m s file rows d k svn bits,
  configures a root user slow -> days_after galileo_start n x -> 0 <= h < 24 -> 0 <= m < 60 -> 0 <= s < 60 ->
  file_says file rows -> satellites_exist rows ->
  let start := 86400 * n + 3600 * h + 60 * m + s in
  start + 2 * Z.of_nat (longest rows) < 65536 * 604800 ->
  receives root user pk t (flat_map (page_calls start) (schedule rows)) -> (d <= longest rows)%nat ->
  gives_data root user pk slow t k svn bits (flat_map (page_calls start) (first_pages rows d)) ->
  exists out z log1 log2, vectors_program (K := message_codec) (file_name x h m s) (Some file) (mkSink [] None) = Ok (ROk tt, out) /\
    galmon_program (K := message_codec) a (mkSource (k_bytes out) false) = Ok (ROk (ROk tt, z)) /\ z_log z = log1 ++ log2 /\
    last_logged k svn log1 = Some bits.
Proof.
  intros C B S F HC HS a root user pk slow t x n h m s file rows d k svn bits Ha Hx Hh Hm Hs Hf Hsat start Hlen Hrec Hd Hg.
  destruct (parse_name_time x n h m s Hx ltac:(lia) Hh Hm Hs) as (time & E & Et). fold start in Et.
  pose proof (days_after_nonneg _ _ _ Hx) as H0. change 935280000 with galileo_epoch in Et. rewrite <- Et in *.
  unfold vectors_program. rewrite E. apply (C75_test_vectors HC HS a root user pk slow t time file rows d k svn bits); try assumption.
  unfold start in Et. lia.
Qed.

(** A day that does not exist (such as 29 February 2023), an hour, minute or second that does
    not exist: there is an error, and nothing is written. *)
Theorem C77_no_such_date :
  forall (B : build) (K : codec message) x h m s file k, 1 <= month x <= 12 -> 0 <= day x < 100 -> 0 <= year x < 10000 ->
  0 <= h < 100 -> 0 <= m < 100 -> 0 <= s < 100 -> ~ (valid_date x /\ h < 24 /\ m < 60 /\ s <= 60) ->
  filename_to_gst (file_name x h m s) = Ok (RErr tt) /\
  vectors_program (file_name x h m s) file k = Ok (RErr tt, k).
Proof.
  intros B K x h m s file k Hmo Hd Hy Hh Hm Hs Hn. assert (Hin : In (month x) months) by (unfold months; cbn [In]; lia).
  unfold filename_to_gst, vectors_program. rewrite (no_such_date x h m s Hin Hd Hy Hh Hm Hs Hn). split; reflexivity.
Qed.

(** The second 60, a leap second, is taken as the second before it. *)
Theorem C77_leap_second :
  forall (B : build) (K : codec message) x h m file k, 1 <= month x <= 12 -> 0 <= day x < 100 -> 0 <= year x < 10000 ->
  0 <= h < 100 -> 0 <= m < 100 ->
  filename_to_gst (file_name x h m 60) = filename_to_gst (file_name x h m 59) /\
  vectors_program (file_name x h m 60) file k = vectors_program (file_name x h m 59) file k.
Proof.
  intros B K x h m file k Hmo Hd Hy Hh Hm. assert (Hin : In (month x) months) by (unfold months; cbn [In]; lia).
  unfold filename_to_gst, vectors_program. rewrite (leap_second x h m Hin Hd Hy Hh Hm). split; reflexivity.
Qed.
Example C77_example_leap_second : file_name (mkDate 2016 12 31) 23 59 60 = text "31_DEC_2016_GST_23_59_60.csv" /\
  filename_to_gst (text "31_DEC_2016_GST_23_59_60.csv") = Ok (ROk (mkGst 905 604799)) /\
  filename_to_gst (text "01_JAN_2017_GST_00_00_00.csv") = Ok (ROk (mkGst 906 0)).
Proof. repeat split; vm_compute; reflexivity. Qed.

(** With a date before 22 August 1999 the program panics instead. *)
Theorem C77_before_the_start_panics :
  forall (B : build) (K : codec message) x n h m s file k, days_after x n galileo_start -> 0 < n -> 0 <= year x -> valid_date x ->
  0 <= h < 24 -> 0 <= m < 60 -> 0 <= s < 60 ->
  filename_to_gst (file_name x h m s) = Panic /\ vectors_program (file_name x h m s) file k = Panic.
Proof.
  intros B K x n h m s file k Hx Hn Hy Hv Hh Hm Hs. pose proof (before_the_start x n h m s Hx Hn Hy Hv Hh Hm Hs) as E.
  split; [exact E|]. unfold filename_to_gst in E. unfold vectors_program, vectors_main.
  destruct (parse_date (file_name x h m s)) as [t|]; [|discriminate]. destruct (vectors_start t); [discriminate|reflexivity].
Qed.

(** *** The hypotheses can be met *)

(** A function that finds the next day. *)
Definition c77_leap (y : Z) : bool := (y mod 4 =? 0) && (negb (y mod 100 =? 0) || (y mod 400 =? 0)).
Definition c77_next (x : date) : date :=
  let n := if month x =? 2 then (if c77_leap (year x) then 29 else 28) else if existsb (Z.eqb (month x)) [4; 6; 9; 11] then 30 else 31 in
  if day x <? n then mkDate (year x) (month x) (day x + 1)
  else if month x <? 12 then mkDate (year x) (month x + 1) 1 else mkDate (year x + 1) 1 1.
Lemma c77_next_ok x : valid_date x -> next_day x (c77_next x).
Proof.
  intros Hv. apply valid_iff in Hv. destruct x as [y m d]. destruct Hv as (Hm & Hd). cbn [year month day] in *.
  assert (En : (if m =? 2 then (if c77_leap y then 29 else 28) else if existsb (Z.eqb m) [4; 6; 9; 11] then 30 else 31) = days_in_month y m).
  { apply month_cases in Hm. destruct Hm as [-> | [-> | [-> | [-> | [-> | [-> | [-> | [-> | [-> | [-> | [-> | ->]]]]]]]]]]]; reflexivity. }
  unfold c77_next. cbn [year month day]. rewrite En. destruct (d <? days_in_month y m) eqn:E.
  - apply (nd_day y m d (days_in_month y m)); [apply has_days_iff; auto|lia].
  - assert (d = days_in_month y m) by lia. subst d. destruct (m <? 12) eqn:E2.
    + apply nd_month; [apply has_days_iff; auto|lia].
    + assert (m = 12). { apply month_cases in Hm. lia. } subst m. apply nd_year.
Qed.
Lemma c77_after x n : valid_date x -> days_after x (Z.of_nat n) (Nat.iter n c77_next x) /\ valid_date (Nat.iter n c77_next x).
Proof.
  intros Hx. induction n as [|n (IH & Hv)]; [split; [constructor|exact Hx]|].
  pose proof (c77_next_ok _ Hv) as Hn. split.
  - replace (Z.of_nat (S n)) with (Z.of_nat n + 1) by lia. exact (da_next x _ _ _ IH Hn).
  - apply valid_iff. exact (valid_next _ _ Hn).
Qed.

(** The first of the files that utils/run_test_vectors.sh uses. *)
Example C77_example : days_after galileo_start 8760 (mkDate 2023 8 16) /\
  file_name (mkDate 2023 8 16) 5 0 1 = text "16_AUG_2023_GST_05_00_01.csv" /\
  filename_to_gst (text "16_AUG_2023_GST_05_00_01.csv") = Ok (ROk (mkGst 1251 277201)).
Proof.
  split; [|split; reflexivity].
  assert (Hv : valid_date galileo_start) by (apply valid_iff; split; [cbn; tauto|cbn; lia]).
  pose proof (proj1 (c77_after galileo_start (Z.to_nat 8760) Hv)) as H.
  assert (E : Nat.iter (Z.to_nat 8760) c77_next galileo_start = mkDate 2023 8 16) by (vm_compute; reflexivity).
  rewrite E in H. rewrite Z2Nat.id in H by lia. exact H.
Qed.
(** Days that do not exist, and the last day before Galileo time. *)
Example C77_example_errors :
  ~ valid_date (mkDate 2023 2 29) /\ valid_date (mkDate 2024 2 29) /\ ~ valid_date (mkDate 2100 2 29) /\
  filename_to_gst (text "29_FEB_2023_GST_05_00_01.csv") = Ok (RErr tt) /\
  days_after (mkDate 1999 8 21) 1 galileo_start /\ filename_to_gst (text "21_AUG_1999_GST_23_59_59.csv") = Panic /\
  filename_to_gst (text "22_AUG_1999_GST_00_00_00.csv") = Ok (ROk (mkGst 0 0)).
Proof.
  split; [rewrite valid_iff; unfold valid; cbn; lia|]. split; [apply valid_iff; split; [cbn; tauto|cbn; lia]|].
  split; [rewrite valid_iff; unfold valid; cbn; lia|]. split; [reflexivity|]. split; [|split; reflexivity].
  replace 1 with (0 + 1) by reflexivity. apply (da_next _ 0 (mkDate 1999 8 21)); [constructor|].
  apply (nd_day 1999 8 21 31); [apply has_days_iff; split; [cbn; tauto|reflexivity]|lia].
Qed.
(** The file of C50 under this name; its packets are the same as in the example of C50. *)
Example C77_example_program : file_says c50_file c50_rows /\
  86400 * 8760 + 3600 * 5 + 60 * 0 + 1 + 2 * Z.of_nat (longest c50_rows) < 65536 * 604800.
Proof. split; [exact c50_file_says|vm_compute; reflexivity]. Qed.

(** The file of the example of C75 under its name; the other hypotheses of
    [C77_from_the_name_to_the_log] are shown in [C75_example_test_vectors]. *)
Example C77_example_pipe : days_after galileo_start 8400 (mkDate 2022 8 21) /\
  86400 * 8400 + 3600 * 1 + 60 * 59 + 30 = c75_time - galileo_epoch /\
  file_name (mkDate 2022 8 21) 1 59 30 = text "21_AUG_2022_GST_01_59_30.csv".
Proof.
  split; [|split; reflexivity].
  assert (Hv : valid_date galileo_start) by (apply valid_iff; split; [cbn; tauto|cbn; lia]).
  pose proof (proj1 (c77_after galileo_start (Z.to_nat 8400) Hv)) as H.
  assert (E : Nat.iter (Z.to_nat 8400) c77_next galileo_start = mkDate 2022 8 21) by (vm_compute; reflexivity).
  rewrite E in H. rewrite Z2Nat.id in H by lia. exact H.
Qed.
Print Assumptions C77_from_the_name_to_the_log.
Print Assumptions C77_name_gives_time.
Print Assumptions C77_conversion.
Print Assumptions C77_no_such_date.
Print Assumptions C77_before_the_start_panics.
Print Assumptions C77_leap_second.

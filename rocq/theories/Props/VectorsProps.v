(** Property C50: the conversion of OSNMA test vectors to a Galmon stream. *)
From Coq Require Import ZArith String List Bool Lia Permutation Sorted.
From Verif Require Import Model.Prelude Model.Params Model.Gst Model.Merkle Model.Nav Model.Osnma Model.Transport Model.Apps
  Model.Serial Model.TestVectors
  Spec.TimeSpec Spec.CollectSpec Spec.SystemSpec Spec.TransportSpec Spec.AppsSpec Spec.VectorsSpec
  Proofs.Base Proofs.GstProofs Proofs.TransportProofs Proofs.AppsProofs Proofs.VectorsProofs
  Props.SystemProps Props.AppsProps Examples.Toy Examples.Vectors.
Import ListNotations.
Open Scope list_scope.
Open Scope Z_scope.

(** In these theorems [t] is the time in the name of the file, in seconds since the start of 1970;
    Galileo time is counted from 22 August 1999. *)
Definition galileo_epoch : Z := 935280000.

(** All pages of the file are for existing satellites. *)
Definition satellites_exist (rows : list row) : Prop := Forall (fun r => 1 <= fst r <= 36) rows.

(** The packet made of a page has the word, the OSNMA data and the other fields of the page. *)
Theorem C50_page_fields : forall svn p start n, page_ok p -> 0 <= start ->
  page_message svn (gst_at (start + 2 * Z.of_nat n)) (page_bytes p) = page_packet start (n, svn, p).
Proof. intros svn p start n Hp Hs. now apply page_message_packet. Qed.

Section Program.
Context {B : build} {K : codec message}.

(** For a valid file, the packets of all the pages are written, in turns, two seconds apart. *)
Theorem C50_conversion : forall t file rows before, galileo_epoch <= t -> file_says file rows ->
  t - galileo_epoch + 2 * Z.of_nat (longest rows) < 65536 * 604800 ->
  Forall fits (map (page_packet (t - galileo_epoch)) (schedule rows)) ->
  vectors_main (Some t) (Some file) (mkSink before None)
  = Ok (ROk tt, mkSink (before ++ concat (map frame (map (page_packet (t - galileo_epoch)) (schedule rows)))) None).
Proof. intros t file rows before Ht. apply main_says. unfold galileo_epoch in Ht. lia. Qed.

(** If the output fails after [n] bytes, before everything is written, there is an error, and
    the output has the first [n] bytes. *)
Theorem C50_output_error : forall t file rows n, galileo_epoch <= t -> file_says file rows ->
  t - galileo_epoch + 2 * Z.of_nat (longest rows) < 65536 * 604800 ->
  Forall fits (map (page_packet (t - galileo_epoch)) (schedule rows)) ->
  let bytes := concat (map frame (map (page_packet (t - galileo_epoch)) (schedule rows))) in
  (n < List.length bytes)%nat ->
  vectors_main (Some t) (Some file) (mkSink [] (Some n)) = Ok (RErr tt, mkSink (firstn n bytes) (Some 0%nat)).
Proof. intros t file rows n Ht Hs Hl Hf bytes Hn. apply main_room; [unfold galileo_epoch in Ht; lia|exact Hs|exact Hl|exact Hf|exact Hn]. Qed.

(** For a file that is not valid there is an error, and nothing is written. *)
Theorem C50_invalid_file : forall t file k, galileo_epoch <= t ->
  t - galileo_epoch + Z.of_nat (List.length file) < 65536 * 604800 ->
  (~ exists rows, file_says file rows) -> vectors_main (Some t) (Some file) k = Ok (RErr tt, k).
Proof.
  intros t file k Ht Hl Hn. destruct (main_cases t file k) as [H|H]; [unfold galileo_epoch in *; lia..|contradiction|exact H].
Qed.

(** The program panics if the time is before the start of Galileo time or its week number has more
    than 16 bits. *)
Theorem C50_time_range : forall t file k, ~ 0 <= t - galileo_epoch < 65536 * 604800 ->
  vectors_main (Some t) file k = Panic.
Proof. intros t file k H. unfold vectors_main. now rewrite vectors_start_panics. Qed.

(** What is written can be read, and it is all there is in the file: every page once, ordered by
    time. *)
Theorem C50_read_back : forall t file rows, galileo_epoch <= t -> file_says file rows ->
  t - galileo_epoch + 2 * Z.of_nat (longest rows) < 65536 * 604800 ->
  Forall readable (map (page_packet (t - galileo_epoch)) (schedule rows)) ->
  exists k, vectors_main (Some t) (Some file) (mkSink [] None) = Ok (ROk tt, k) /\
    forall n, reads (reader_new (mkSource (k_bytes k) false)) (List.length (schedule rows) + n)
    = Ok (map (fun x => ROk (Some (page_packet (t - galileo_epoch) x))) (schedule rows) ++ repeat (ROk None) n).
Proof.
  intros t file rows Ht Hfile Hlen Hf. eexists.
  split; [exact (C50_conversion t file rows [] Ht Hfile Hlen (Forall_impl _ (fun p H => proj1 H) Hf))|].
  intros n. cbn [k_bytes app].
  pose proof (round_trip (map (page_packet (t - galileo_epoch)) (schedule rows)) n false (reader_new _) Hf (reader_new_ok _) eq_refl eq_refl) as H.
  rewrite map_length in H. rewrite H, map_map. reflexivity.
Qed.
End Program.

Theorem C50_every_page_once : forall rows, Permutation (schedule rows) (all_pages rows).
Proof. exact schedule_all. Qed.

Theorem C50_time_order : forall rows start,
  StronglySorted (fun x y => page_time start x <= page_time start y) (schedule rows).
Proof.
  intros rows start. unfold schedule. generalize (longest rows) as d. intros d. generalize 0%nat as n.
  induction d as [|d IH]; intros n; cbn [seq flat_map]; [constructor|].
  assert (H : forall l, (forall x, In x l -> fst (fst x) = n) ->
    StronglySorted (fun x y => page_time start x <= page_time start y) (l ++ flat_map (fun n => flat_map (nth_page n) rows) (seq (S n) d))).
  { induction l as [|x l IHl]; intros Hl; cbn [app]; [apply IH|]. constructor; [apply IHl; intros y Hy; apply Hl; now right|].
    apply Forall_app. unfold page_time. rewrite (Hl x (or_introl eq_refl)). split; apply Forall_forall; intros y Hy.
    - rewrite (Hl y (or_intror Hy)). lia.
    - apply in_flat_map in Hy. destruct Hy as (m & Hm & Hy). apply in_seq in Hm. apply round_index in Hy. lia. }
  apply H. intros x. apply round_index.
Qed.

Lemma says_pages_ok file rows : file_says file rows -> satellites_exist rows -> Forall row_ok rows.
Proof.
  intros (header & lines & _ & H). unfold satellites_exist. induction H as [|line r lines rows Hl _ IH]; intros Hs; [constructor|].
  apply Forall_cons_iff in Hs. destruct Hs as [Hs1 Hs2]. constructor; [|now apply IH]. split; [exact Hs1|].
  destruct Hl as (a & b & c & rest & _ & _ & _ & _ & _ & _ & Hp & _). exact Hp.
Qed.

Lemma schedule_in rows n svn p : In (n, svn, p) (schedule rows) -> (n < longest rows)%nat /\ exists r, In r rows /\ svn = fst r /\ In p (snd r).
Proof.
  intros H. apply in_flat_map in H. destruct H as (m & Hm & H). apply in_seq in Hm. apply in_flat_map in H. destruct H as (r & Hr & H).
  unfold nth_page in H. destruct (nth_error (snd r) m) as [q|] eqn:E; [|destruct H]. destruct H as [H|[]].
  apply pair_equal_spec in H. destruct H as [H ->]. apply pair_equal_spec in H. destruct H as [-> <-].
  split; [lia|]. exists r. apply nth_error_In in E. auto.
Qed.

Lemma page_packets_ok file rows start : file_says file rows -> satellites_exist rows -> 0 <= start ->
  start + 2 * Z.of_nat (longest rows) < 65536 * 604800 ->
  Forall message_ok (map (page_packet start) (schedule rows)).
Proof.
  intros Hf Hs H0 Ht. pose proof (says_pages_ok _ _ Hf Hs) as Hr. apply Forall_forall. intros m Hm. apply in_map_iff in Hm.
  destruct Hm as ([[n svn] p] & <- & Hx). destruct (schedule_in _ _ _ _ Hx) as (Hn & r & Hin & -> & Hp).
  destruct (proj1 (Forall_forall _ _) Hr r Hin) as [Hv Hps].
  destruct (proj1 (Forall_forall _ _) Hps p Hp) as (Bw & _ & Bo & _).
  intros q Hq. unfold page_packet in Hq. cbn [m_gi] in Hq. apply (f_equal (fun o => match o with Some x => x | None => q end)) in Hq. subst q.
  unfold inav_ok. cbn [p_wn p_tow p_sv p_contents p_reserved1].
  assert (H1 : 0 <= start + 2 * Z.of_nat n < 65536 * 604800) by lia. set (tt := start + 2 * Z.of_nat n) in *.
  pose proof (Z.mod_pos_bound tt 604800). pose proof (Z.div_le_upper_bound tt 604800 65536). pose proof (Z.div_pos tt 604800).
  split; [lia|]. split; [lia|]. split; [lia|]. split; [exact Bw|]. intros d Hd. congruence.
Qed.

Section Fed.
Context {C : crypto} {B : build} {S : storage} {K : codec message}.

(** galmon-osnma, reading this, feeds exactly the words and OSNMA data of the pages to the library,
    with their times and satellites and in this order, except for the dummy pages: no page is taken
    for an old one, and no time is changed. *)
Theorem C50_fed_to_the_library : forall start file rows, 0 <= start -> file_says file rows -> satellites_exist rows ->
  start + 2 * Z.of_nat (longest rows) < 65536 * 604800 ->
  exists a, galmon_all_calls app_new (map (page_packet start) (schedule rows))
            = Ok (a, flat_map (page_calls start) (schedule rows)).
Proof.
  intros start file rows Hs Hf Hv Ht. unfold schedule.
  apply (galmon_rounds start rows (says_pages_ok _ _ Hf Hv) Hs (longest rows) 0 app_new); [apply Nat.le_refl|exact Ht|]. now left.
Qed.

(** The two programs in a pipe. *)
Theorem C50_pipe : crypto_ok C -> storage_ok S -> forall root user slow t file rows k e z,
  galileo_epoch <= t -> file_says file rows -> satellites_exist rows ->
  t - galileo_epoch + 2 * Z.of_nat (longest rows) < 65536 * 604800 ->
  Forall readable (map (page_packet (t - galileo_epoch)) (schedule rows)) ->
  vectors_main (Some t) (Some file) (mkSink [] None) = Ok (ROk tt, k) ->
  galmon_main (osnma_new root user slow) (mkSource (k_bytes k) false) = Ok (e, z) ->
  e = ROk tt /\
  run (osnma_new root user slow) (flat_map (page_calls (t - galileo_epoch)) (schedule rows)) = Ok (z_osnma z).
Proof.
  intros HC HS root user slow t file rows k e z Ht Hfile Hv Hlen Hf Hk Hz.
  rewrite (C50_conversion t file rows [] Ht Hfile Hlen (Forall_impl _ (fun p H => proj1 H) Hf)) in Hk. apply ok_inj, pair_equal_spec in Hk. destruct Hk as [_ <-].
  cbn [k_bytes app] in Hz. rewrite <- (app_nil_r (concat _)) in Hz.
  assert (H0 : 0 <= t - galileo_epoch) by lia.
  destruct (C44_program HC HS root user slow _ [] false (ROk tt) z Hf (page_packets_ok _ _ _ Hfile Hv H0 Hlen)
              (or_introl (conj eq_refl (conj eq_refl eq_refl))) e Hz) as (-> & l & Hl & Hrun).
  split; [reflexivity|]. destruct (C50_fed_to_the_library _ _ _ H0 Hfile Hv Hlen) as [a Ha]. rewrite Ha in Hl.
  apply ok_inj, pair_equal_spec in Hl. destruct Hl as [_ ->]. exact Hrun.
Qed.
End Fed.

(** * Example *)

(** Two satellites, one of them with two pages.  The lines end in different ways. *)
Definition c50_page (a : Z) : page :=
  mkPage (map (fun i => (a + 7 * Z.of_nat i) mod 256) (seq 0 16)) [a; a + 1; a + 2; a + 3; a + 4]
    (map (fun i => Z.testbit a (Z.of_nat i)) (seq 0 22)) [true; false] [1; 2; 3] 43
    [false; false] [false; false; false; false; false; false] [true; false] [false; false; false; false; false; true].
Definition c50_rows : list row := Eval vm_compute in [(11, [c50_page 17; c50_page 100]); (5, [c50_page 65])].
Definition c50_line1 : list Z := Eval vm_compute in text "11,480," ++ hex_encode (concat (map page_bytes [c50_page 17; c50_page 100])).
Definition c50_line2 : list Z := Eval vm_compute in text "+05,240," ++ hex_encode (concat (map page_bytes [c50_page 65])) ++ text ",note".
Definition c50_file : list Z := Eval vm_compute in
  text "SVID,NumNavBits,NavBitsHEX" ++ [13; 10] ++ c50_line1 ++ [10] ++ c50_line2.

Definition page_okb (p : page) : bool :=
  forallb (fun b => (0 <=? b) && (b <? 256)) (pg_word p) && (List.length (pg_word p) =? 16)%nat &&
  forallb (fun b => (0 <=? b) && (b <? 256)) (pg_osnma p) && (List.length (pg_osnma p) =? 5)%nat &&
  (List.length (pg_sar p) =? 22)%nat && (List.length (pg_spare p) =? 2)%nat &&
  forallb (fun b => (0 <=? b) && (b <? 256)) (pg_crc p) && (List.length (pg_crc p) =? 3)%nat && ((0 <=? pg_ssp p) && (pg_ssp p <? 256)) &&
  (List.length (pg_even p) =? 2)%nat && (List.length (pg_even_tail p) =? 6)%nat &&
  (List.length (pg_odd p) =? 2)%nat && (List.length (pg_odd_tail p) =? 6)%nat.
Lemma page_okb_ok p : page_okb p = true -> page_ok p.
Proof.
  assert (HB : forall l, forallb (fun b => (0 <=? b) && (b <? 256)) l = true -> Forall is_byte l).
  { intros l Hl. rewrite forallb_forall in Hl. apply Forall_forall. intros b Hb. specialize (Hl b Hb). unfold is_byte. lia. }
  unfold page_okb, page_ok. intros H. repeat (apply andb_true_iff in H; destruct H as [H ?]). rewrite ?Nat.eqb_eq in *.
  repeat (split; [first [now auto | unfold is_byte; lia]|]); auto.
Qed.

Lemma pages_okb_ok l : forallb page_okb l = true -> Forall page_ok l.
Proof. intros H. rewrite forallb_forall in H. apply Forall_forall. intros p Hp. apply page_okb_ok, H, Hp. Qed.

Lemma c50_file_says : file_says c50_file c50_rows.
Proof.
  exists (text "SVID,NumNavBits,NavBitsHEX"), [c50_line1; c50_line2]. split.
  - apply lines_of_iff. vm_compute. reflexivity.
  - constructor; [|constructor; [|constructor]].
    + exists (text "11"), (text "480"), (skipn 7 c50_line1), []. split; [vm_compute; reflexivity|].
      split; [vm_compute; intuition discriminate|]. split; [vm_compute; intuition discriminate|].
      split; [vm_compute; intuition discriminate|]. split; [now left|].
      split; [apply parse_number; vm_compute; reflexivity|].
      split; [apply pages_okb_ok; vm_compute; reflexivity|].
      apply hex_decode_text. vm_compute. reflexivity.
    + exists (text "+05"), (text "240"), (firstn 60 (skipn 8 c50_line2)), (text ",note"). split; [vm_compute; reflexivity|].
      split; [vm_compute; intuition discriminate|]. split; [vm_compute; intuition discriminate|].
      split; [vm_compute; intuition discriminate|]. split; [right; exists (text "note"); reflexivity|].
      split; [apply parse_number; vm_compute; reflexivity|].
      split; [apply pages_okb_ok; vm_compute; reflexivity|].
      apply hex_decode_text. vm_compute. reflexivity.
Qed.

(** 16 August 2023, 05:00:01. *)
Example C50_example :
  file_says c50_file c50_rows /\ satellites_exist c50_rows /\ longest c50_rows = 2%nat /\
  map (fun x => (fst x)) (schedule c50_rows) = [(0%nat, 11); (0%nat, 5); (1%nat, 11)] /\
  Forall (readable (K := demo_codec)) (map (page_packet (1692162001 - galileo_epoch)) (schedule c50_rows)) /\
  flat_map (page_calls (1692162001 - galileo_epoch)) (schedule c50_rows)
  = [FeedInav (pg_word (c50_page 17)) 11 (mkGst 1251 277201) E1B; FeedOsnma [17; 18; 19; 20; 21] 11 (mkGst 1251 277201);
     FeedInav (pg_word (c50_page 65)) 5 (mkGst 1251 277201) E1B; FeedOsnma [65; 66; 67; 68; 69] 5 (mkGst 1251 277201);
     FeedInav (pg_word (c50_page 100)) 11 (mkGst 1251 277203) E1B; FeedOsnma [100; 101; 102; 103; 104] 11 (mkGst 1251 277203)].
Proof.
  split; [exact c50_file_says|]. split; [|split; [reflexivity|]; split; [reflexivity|]; split].
  - unfold satellites_exist, c50_rows. constructor; [cbn [fst]; lia|]. constructor; [cbn [fst]; lia|constructor].
  - assert (H : forall l, forallb (fun p => Z.of_nat (List.length (encode (codec := demo_codec) p)) <? 65536) l = true ->
                          Forall (readable (K := demo_codec)) l).
    { intros l Hl. rewrite forallb_forall in Hl. apply Forall_forall. intros p Hp. split; [apply Z.ltb_lt, Hl, Hp|apply demo_round_trips]. }
    apply H. vm_compute. reflexivity.
  - vm_compute. reflexivity.
Qed.
(** A file that is not valid: the number of the satellite has 33 bits. *)
Example C50_invalid_example : ~ exists rows, file_says ([104; 10] ++ text "4294967296,0,") rows.
Proof.
  intros (rows & header & lines & Hl & Hr). apply lines_of_iff in Hl. vm_compute in Hl.
  assert (E : lines = [text "4294967296,0,"]) by (vm_compute; congruence). subst lines.
  inversion Hr as [|line r lines rows' Hs _]; subst.
  assert (K := csv_line_says (B := Vectors.debug_build) _ r 0 Hs (Z.le_refl 0)).
  pose proof (line_length _ _ Hs) as Hlen.
  replace (csv_line_to_pages (B := Vectors.debug_build) (text "4294967296,0,") (gst_at 0)) with (Ok (RErr (A := list message) tt)) in K by (vm_compute; reflexivity).
  assert (Hlen2 : 0 + 2 * Z.of_nat (List.length (snd r)) < 65536 * 604800).
  { change (List.length (text "4294967296,0,")) with 13%nat in Hlen. lia. }
  specialize (K Hlen2). discriminate.
Qed.

Print Assumptions C50_page_fields.
Print Assumptions C50_conversion.
Print Assumptions C50_output_error.
Print Assumptions C50_invalid_file.
Print Assumptions C50_time_range.
Print Assumptions C50_read_back.
Print Assumptions C50_every_page_once.
Print Assumptions C50_time_order.
Print Assumptions C50_fed_to_the_library.
Print Assumptions C50_pipe.

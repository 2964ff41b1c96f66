(** Property C75: from the signal to what the programs show. *)
From Coq Require Import ZArith String List Bool Lia.
From Verif Require Import Model.Prelude Model.Params Model.Gst Model.Svn Model.Bitfields Model.Tesla Model.Merkle
  Model.Dsm Model.MackStore Model.Nav Model.Osnma Model.Transport Model.Apps Model.Serial Model.TestVectors Model.Protobuf Model.Config
  Spec.TimeSpec Spec.CollectSpec Spec.NavSpec Spec.TeslaSpec Spec.KrootSpec Spec.KeySpec Spec.SystemSpec Spec.StoredSpec
  Spec.CompleteSpec Spec.PanicSpec Spec.HonestSpec Spec.TransportSpec Spec.StreamSpec Spec.AppsSpec Spec.VectorsSpec Spec.SerialSpec
  Spec.ConfigSpec Spec.ReportSpec Spec.EndSpec
  Proofs.Base Proofs.TransportProofs Proofs.ProtobufMain Proofs.ProtobufTrip Proofs.ProtobufUse Proofs.StreamProofs Proofs.ConfigProofs
  Proofs.AppsProofs Proofs.VectorsProofs Proofs.HonestProofs Proofs.SerialProofs Proofs.EndProofs
  Examples.Vectors Examples.Demo Examples.Toy Examples.Transmit
  Props.KeyProps Props.CompleteProps Props.HonestProps Props.AppsProps Props.SerialProps Props.VectorsProps Props.ProtobufProps Props.ConfigProps Props.ReportProps.
Import ListNotations.
Open Scope list_scope.
Open Scope Z_scope.

Section End.
Context {C : crypto} {B : build} {S : storage} {F : key_files C}.
Notation program := (galmon_program (K := message_codec)).

(** * C75 *)

(** galmon-osnma, with the right trusted data on its command line, reads a stream of packets, possibly
    with others before, in between and after, from the reception of a transmission.  If the packets
    [ms1] have what authenticates the data of a satellite, then the program does not panic, and at this
    point the last that it has logged about this satellite is this data. *)
Theorem C75_galmon_osnma : crypto_ok C -> storage_ok S ->
  forall a root user pk slow t s fails ms1 ms2 calls1 calls k svn bits,
  configures a root user slow -> Forall is_byte s -> all_messages (K := message_codec) s (ms1 ++ ms2) ->
  no_bad_packet (ms1 ++ ms2) -> feeds_all [] (inav_packets (ms1 ++ ms2)) calls -> feeds_all [] (inav_packets ms1) calls1 ->
  receives root user pk t calls -> gives_data root user pk slow t k svn bits calls1 ->
  exists e z log1 log2, program a (mkSource s fails) = Ok (ROk (e, z)) /\ z_log z = log1 ++ log2 /\
    last_logged k svn log1 = Some bits.
Proof.
  intros HC HS a root user pk slow t s fails ms1 ms2 calls1 calls k svn bits Ha Hs Hms Hnb Hf Hf1 Hrec Hg.
  assert (Hok : Forall AppsSpec.message_ok (ms1 ++ ms2)).
  { apply (starts_ok (K := message_codec) s (ms1 ++ ms2)); [|exact Hs|exact (proj1 Hms)]. intros b m Hb Hm. apply message_fits_ok. exact (message_decoded b m Hb Hm). }
  destruct (galmon_shows HC HS root user slow pk t ms1 ms2 calls1 calls k svn bits Hok Hnb Hf Hf1 Hrec Hg) as (z & log1 & log2 & Hz & Hl & Hb).
  destruct (C58_program_completes a root user slow s fails _ z Hs Ha Hms Hz) as (e & E).
  exists e, z, log1, log2. auto.
Qed.

(** The two programs in a pipe, on a file of test vectors: osnma-test-vectors-to-galmon writes
    packets, and galmon-osnma reads them until their end.  If the first [d] pages of each satellite
    have what authenticates the data, this data is logged last at the time of these pages. *)
Theorem C75_test_vectors : crypto_ok C -> storage_ok S ->
  forall a root user pk slow t time file rows d k svn bits,
  configures a root user slow -> galileo_epoch <= time -> file_says file rows -> satellites_exist rows ->
  time - galileo_epoch + 2 * Z.of_nat (longest rows) < 65536 * 604800 ->
  receives root user pk t (flat_map (page_calls (time - galileo_epoch)) (schedule rows)) -> (d <= longest rows)%nat ->
  gives_data root user pk slow t k svn bits (flat_map (page_calls (time - galileo_epoch)) (first_pages rows d)) ->
  exists out z log1 log2, vectors_main (K := message_codec) (Some time) (Some file) (mkSink [] None) = Ok (ROk tt, out) /\
    program a (mkSource (k_bytes out) false) = Ok (ROk (ROk tt, z)) /\ z_log z = log1 ++ log2 /\
    last_logged k svn log1 = Some bits.
Proof.
  intros HC HS a root user pk slow t time file rows d k svn bits Ha Htime Hfile Hsat Hlen Hrec Hd Hg.
  assert (H0 : 0 <= time - galileo_epoch) by lia. set (start := time - galileo_epoch) in *.
  assert (Hread : Forall (readable (K := message_codec)) (map (page_packet start) (schedule rows))) by now apply (C59_test_vectors_readable _ file).
  pose proof (page_packets_ok _ _ _ Hfile Hsat H0 Hlen) as Hok.
  destruct (C50_fed_to_the_library start file rows H0 Hfile Hsat Hlen) as (av & Hav).
  assert (Hw : Forall week_fits (inav_packets (map (page_packet start) (schedule rows)))).
  { apply Forall_forall. intros p Hp. unfold inav_packets in Hp. apply in_flat_map in Hp. destruct Hp as (m & Hm & Hp). apply in_map_iff in Hm.
    destruct Hm as (((n & sv) & pg) & <- & Hin). unfold page_packet in Hp. cbn [m_gi p_sigid] in Hp. destruct Hp as [<-|[]].
    apply schedule_in in Hin. destruct Hin as (Hn & _). unfold week_fits, raw_time. cbn [p_wn p_tow].
    pose proof (Z.div_mod (start + 2 * Z.of_nat n) 604800). lia. }
  destruct (C44_calls B _ Hok (or_intror Hw)) as [(a' & l & H1 & H2 & H3)|(H1 & _)]; [|congruence].
  assert (El : l = flat_map (page_calls start) (schedule rows)) by congruence. subst l.
  assert (Er : exists r2, schedule rows = first_pages rows d ++ r2).
  { unfold schedule, first_pages. replace (longest rows) with (d + (longest rows - d))%nat by lia. rewrite seq_app, flat_map_app. now eexists. }
  destruct Er as (r2 & Er).
  assert (Hcalls1 : feeds_all [] (inav_packets (map (page_packet start) (first_pages rows d))) (flat_map (page_calls start) (first_pages rows d))).
  { destruct (galmon_rounds start rows (says_pages_ok _ _ Hfile Hsat) H0 d 0 app_new) as (a1 & X1); [lia|exact Hlen|now left|].
    fold (first_pages rows d) in X1.
    rewrite Er, map_app in Hok. apply Forall_app in Hok. destruct Hok as [Hok1 _].
    rewrite Er, map_app in Hw. unfold inav_packets in Hw. rewrite flat_map_app in Hw. apply Forall_app in Hw. destruct Hw as [Hw1 _].
    destruct (C44_calls B _ Hok1 (or_intror Hw1)) as [(a2 & l1 & X2 & X3 & _)|(X2 & _)]; [|congruence].
    replace (flat_map (page_calls start) (first_pages rows d)) with l1 by congruence. exact X3. }
  rewrite Er, map_app in Hok, H2, H3. rewrite flat_map_app in H2. rewrite Er, flat_map_app in Hrec.
  destruct (galmon_shows HC HS root user slow pk t _ _ _ _ k svn bits Hok H3 H2 Hcalls1 Hrec Hg) as (z & log1 & log2 & Hz & Hl & Hb).
  eexists. exists z, log1, log2.
  split; [exact (C50_conversion time file rows [] Htime Hfile Hlen (Forall_impl _ (fun p H => proj1 H) Hread))|].
  split; [|auto]. cbn [k_bytes app]. unfold galmon_program. rewrite (proj1 (C58_configuration a) _ _ _ Ha). cbn [bind]. unfold galmon_main.
  rewrite (loop_frames (K := message_codec) galmon_step _ _ Hread), Er, map_app. fold start. rewrite Hz. reflexivity.
Qed.

(** The client and the firmware: packets are read by the client, sent in lines, and the firmware
    reports.  Whatever the interleaving, when nothing more can happen the client has printed a
    report that names the satellite, namely the answer to the call number [n], if the calls up to it
    have what authenticates the data and it is not the last. *)
Theorem C75_client_and_firmware : crypto_ok C -> storage_ok S ->
  forall root user pk slow t ms a calls n k svn bits,
  Forall AppsSpec.message_ok ms -> galmon_all_calls app_new ms = Ok (a, calls) ->
  receives root user pk t calls -> (n + 1 < List.length calls)%nat ->
  gives_data root user pk slow t k svn bits (firstn (n + 1) calls) ->
  exists lines, client_all_lines app_new ms = Ok (a, lines) /\
    forall printed u, line_prints (line_new lines (osnma_new root user slow)) printed u -> stuck u ->
    exists before r after, concat printed = before ++ r ++ after /\ reports k svn r /\
      exists o x, nth_error calls n = Some x /\ run (osnma_new root user slow) (firstn (n + 1) calls) = Ok o /\ response o x r.
Proof.
  intros HC HS root user pk slow t ms a calls n k svn bits Hms Hc Hrec Hn Hg.
  destruct (C45_client ms a calls Hc) as (lines & Hl & Hcar). exists lines. split; [exact Hl|].
  destruct (C44_valid_and_ordered B ms a calls Hms Hc) as [Hops Hord]. intros printed u Hp Hst.
  exact (board_shows HC HS root user slow pk t calls lines n k svn bits printed u Hcar Hops Hord Hrec Hn Hg Hp Hst).
Qed.
End End.

(** * Example *)

(** A file of test vectors of eight satellites.  Satellites 1 and 2 send their words in the first
    subframe, the others dummy pages; all send the DSM-KROOT in the second subframe, satellite 1 with
    tags; satellite 1 goes on with the third subframe and one page of the fourth. *)
Definition c75_page (w o : list Z) : page :=
  mkPage w o (repeat false 22) [false; false] [1; 2; 3] 43 [false; false] (repeat false 6) [true; false] (repeat false 6).
Definition c75_dummy : page := c75_page (252 :: repeat 0 15) (repeat 0 5).
Definition c75_words (nav : list (list Z)) : list page := map (fun w => c75_page w (repeat 0 5)) (firstn 7 nav) ++ repeat c75_dummy 8.
Definition c75_subframe (l : list op) (svn : Z) : list page :=
  flat_map (fun x => match x with FeedOsnma d s _ => if s =? svn then [c75_page (repeat 0 16) d] else [] | _ => [] end) l.
Definition c75_rows : list row := Eval vm_compute in
  [(1, c75_words demo_nav1 ++ c75_subframe c55_M 1 ++ c75_subframe (c55_p ++ [c55_x]) 1 ++ [c75_page (repeat 0 16) (repeat 0 5)]);
   (2, c75_words demo_nav2 ++ c75_subframe c55_M 2)]
  ++ map (fun s => (s, repeat c75_dummy 15 ++ c75_subframe c55_M s)) [3; 4; 5; 6; 7; 8].
Definition c75_time : Z := galileo_epoch + tx_t0 - 30.
(** The calls, in the four subframes. *)
Definition c75_calls : list op := Eval vm_compute in flat_map (page_calls (c75_time - galileo_epoch)) (schedule c75_rows).
Definition c75_N : list op := Eval vm_compute in firstn 28 c75_calls.
Definition c75_M : list op := Eval vm_compute in firstn 240 (skipn 28 c75_calls).
Definition c75_p : list op := Eval vm_compute in firstn 29 (skipn 268 c75_calls).
Definition c75_M1 : list op := Eval vm_compute in firstn 225 c75_M.
Definition c75_M2 : list op := Eval vm_compute in skipn 226 c75_M.
Definition c75_h : list op := [] ++ c75_N ++ c75_M ++ c75_p ++ c55_x :: [].
Example c75_parts : c75_h ++ skipn 298 c75_calls = c75_calls /\ firstn (297 + 1) c75_calls = c75_h /\ List.length c75_calls = 300%nat /\
  flat_map (page_calls (c75_time - galileo_epoch)) (first_pages c75_rows 45) = c75_h /\ longest c75_rows = 46%nat /\
  nth_error c75_M 225 = Some (FeedOsnma c55_data 1 (gst_at (tx_t0 + 28))).
Proof. vm_compute. repeat split; reflexivity. Qed.
Lemma c75_receives : receives None (Some c55_pk) c55_pk c55_t c75_calls.
Proof.
  split; [exact c55_transmission|]. split.
  - apply hears_pubkey; [apply honestb_ok; vm_compute; reflexivity|now left].
  - assert (H : forallb (fun w => 1 <=? g_wn (nw_gst w)) (inav_words c75_calls) = true) by (vm_compute; reflexivity).
    rewrite forallb_forall in H. intros w Hw. specialize (H w Hw). now apply Z.leb_le.
Qed.
Definition carries_nothing (k : nav_kind) (svn : Z) (w : nword) : bool :=
  negb (nw_svn w =? svn) || forallb (fun f => negb (NavSpec.carries k f w)) (icd_fields k).
Lemma carries_nothing_ok k svn bits ws : forallb (carries_nothing k svn) ws = true -> repeats k svn bits ws.
Proof.
  intros H w i f Hw Hs Hf Hc. exfalso. rewrite forallb_forall in H. specialize (H w Hw). unfold carries_nothing in H.
  rewrite Hs, Z.eqb_refl in H. cbn [negb orb] in H. rewrite forallb_forall in H. specialize (H f (nth_error_In _ _ Hf)).
  rewrite Hc in H. discriminate H.
Qed.
Lemma c75_gives : gives_data (S := small_storage) None (Some c55_pk) c55_pk false c55_t Ced 2 c55_bits c75_h.
Proof.
  assert (Hh : honest c55_t ([] ++ c75_N ++ c75_M ++ c75_p ++ [c55_x])) by (apply honestb_ok; vm_compute; reflexivity).
  apply (gives (S := small_storage) None (Some c55_pk) c55_pk false c55_t Ced 2 c55_bits [] c75_N c75_M c75_p c55_x []
    (gst_at (tx_t0 - 30)) (gst_at tx_t0) (gst_at (tx_t0 + 30)) 30 0 1 (c33_tag 1) 1 c55_hk1 c33_mack c33_hk c33_mack_x).
  - exists [1; 2; 3; 4; 5; 6; 7; 8; 9; 10; 11; 12]. split; [vm_compute; repeat constructor|]. apply inb_ok. vm_compute. reflexivity.
  - reflexivity.
  - reflexivity.
  - apply no_long_gap_pubkey. apply (short_no_long_gap c55_pk); [exact c55_transmission|exact Hh|cbn; lia].
  - lia.
  - left. repeat split.
  - discriminate.
  - lia.
  - apply Nat.leb_le. reflexivity.
  - apply all_in_subframe. vm_compute. reflexivity.
  - vm_compute. reflexivity.
  - apply all_in_subframe. vm_compute. reflexivity.
  - reflexivity.
  - exists c75_M1, c55_data, (gst_at (tx_t0 + 28)), c75_M2. split; [reflexivity|]. eexists _, _, _. split; [reflexivity|]. split; vm_compute; reflexivity.
  - split; [right; reflexivity|]. split; [exact c33_mack_valid|exact c33_tag_fast].
  - reflexivity.
  - eexists _, _, _. split; [reflexivity|]. split; vm_compute; reflexivity.
  - apply received_pubkey, kroot_receivedb_ok. vm_compute. reflexivity.
  - intros y Hy. rewrite (all_in_subframe c75_p (gst_at (tx_t0 + 30)) ltac:(vm_compute; reflexivity) y Hy). reflexivity.
  - intros y [].
  - apply carries_nothing_ok. vm_compute. reflexivity.
Qed.

(** The text of the file. *)
Definition c75_line (r : row) : list Z := [48 + fst r] ++ [44] ++ [48] ++ [44] ++ hex_encode (concat (map page_bytes (snd r))) ++ [].
Definition c75_lines : list (list Z) := Eval vm_compute in map c75_line c75_rows.
Definition c75_file : list Z := Eval vm_compute in concat (map (fun l => l ++ [10]) (text "SVID,NumNavBits,NavBitsHEX" :: c75_lines)).
Definition c75_row_okb (r : row) : bool :=
  match parse 4294967295 [48 + fst r] with Some n => n =? fst r | None => false end && negb (48 + fst r =? 44) &&
  forallb page_okb (snd r) && forallb (fun c => negb (c =? 44)) (hex_encode (concat (map page_bytes (snd r)))) &&
  match hex_decode (hex_encode (concat (map page_bytes (snd r)))) with Some l => bytes_eqb l (concat (map page_bytes (snd r))) | None => false end.

Lemma c75_row_ok r : c75_row_okb r = true -> line_says (c75_line r) r.
Proof.
  unfold c75_row_okb. intros H. rewrite !andb_true_iff in H. destruct H as ((((H0 & H1) & H2) & H3) & H4).
  destruct (parse 4294967295 [48 + fst r]) as [n|] eqn:En; [|discriminate H0]. apply Z.eqb_eq in H0. subst n.
  apply negb_true_iff, Z.eqb_neq in H1.
  destruct (hex_decode _) as [l|] eqn:Eh; [|discriminate H4]. apply bytes_eqb_eq in H4. subst l.
  exists [48 + fst r], [48], (hex_encode (concat (map page_bytes (snd r)))), [].
  split; [reflexivity|]. split; [intros [X|[]]; congruence|]. split; [intros [X|[]]; discriminate X|].
  split; [intros X; rewrite forallb_forall in H3; specialize (H3 _ X); discriminate H3|]. split; [now left|].
  split; [now apply parse_number|]. split; [now apply pages_okb_ok|]. now apply hex_decode_text.
Qed.
Lemma c75_file_says : file_says c75_file c75_rows.
Proof.
  exists (text "SVID,NumNavBits,NavBitsHEX"), c75_lines. split; [apply lines_of_iff; vm_compute; reflexivity|].
  assert (E : c75_lines = map c75_line c75_rows) by (vm_compute; reflexivity). rewrite E.
  assert (H : forallb c75_row_okb c75_rows = true) by (vm_compute; reflexivity). rewrite forallb_forall in H. clear E.
  induction c75_rows as [|r rows IH]; [constructor|]. cbn [map]. constructor; [apply c75_row_ok, H; now left|]. apply IH. intros y Hy. apply H. now right.
Qed.

(** The hypotheses of the three theorems. *)
Example C75_example_test_vectors :
  configures (C := toy_crypto) (F := toy_files) c58_args None (Some c55_pk) false /\ galileo_epoch <= c75_time /\
  file_says c75_file c75_rows /\ satellites_exist c75_rows /\
  c75_time - galileo_epoch + 2 * Z.of_nat (longest c75_rows) < 65536 * 604800 /\
  receives None (Some c55_pk) c55_pk c55_t (flat_map (page_calls (c75_time - galileo_epoch)) (schedule c75_rows)) /\
  (45 <= longest c75_rows)%nat /\
  gives_data (S := small_storage) None (Some c55_pk) c55_pk false c55_t Ced 2 c55_bits
    (flat_map (page_calls (c75_time - galileo_epoch)) (first_pages c75_rows 45)).
Proof.
  destruct c75_parts as (_ & _ & _ & E1 & E2 & _).
  split; [exact c58_configures|]. split; [vm_compute; discriminate|]. split; [exact c75_file_says|].
  split; [unfold satellites_exist, c75_rows; repeat (constructor; [cbn [fst]; lia|]); constructor|].
  split; [rewrite E2; reflexivity|]. split.
  - assert (E : flat_map (page_calls (c75_time - galileo_epoch)) (schedule c75_rows) = c75_calls) by (vm_compute; reflexivity). rewrite E. exact c75_receives.
  - split; [rewrite E2; lia|]. rewrite E1. exact c75_gives.
Qed.
Definition c75_packets : list message := Eval vm_compute in map (page_packet (c75_time - galileo_epoch)) (schedule c75_rows).
Example C75_example_client :
  Forall AppsSpec.message_ok c75_packets /\ (exists a, galmon_all_calls app_new c75_packets = Ok (a, c75_calls)) /\
  (297 + 1 < List.length c75_calls)%nat /\ receives None (Some c55_pk) c55_pk c55_t c75_calls /\
  gives_data (S := small_storage) None (Some c55_pk) c55_pk false c55_t Ced 2 c55_bits (firstn (297 + 1) c75_calls).
Proof.
  destruct c75_parts as (_ & E1 & E2 & _).
  split. { apply message_okb_ok. vm_compute. reflexivity. }
  split. { eexists. vm_compute. reflexivity. }
  split; [rewrite E2; lia|]. split; [exact c75_receives|]. rewrite E1. exact c75_gives.
Qed.
Definition c75_packets1 : list message := Eval vm_compute in map (page_packet (c75_time - galileo_epoch)) (first_pages c75_rows 45).
Definition c75_packets2 : list message := Eval vm_compute in skipn (List.length c75_packets1) c75_packets.
Definition c75_bytes : list Z := Eval vm_compute in concat (map (frame (K := message_codec)) c75_packets).
Lemma c75_feeds ms l : Forall AppsSpec.message_ok ms -> forallb (fun p => raw_time p <? 65536 * 604800) (inav_packets ms) = true ->
  (exists a, galmon_all_calls app_new ms = Ok (a, l)) -> feeds_all [] (inav_packets ms) l /\ no_bad_packet ms.
Proof.
  intros Hok Hw (a & Ha). rewrite forallb_forall in Hw.
  destruct (C44_calls debug_build ms Hok) as [(a1 & l1 & H1 & H2 & H3)|(H1 & _)]; [right|split|congruence].
  - apply Forall_forall. intros p Hp. specialize (Hw p Hp). unfold week_fits. lia.
  - replace l with l1 by congruence. exact H2.
  - exact H3.
Qed.
Example C75_example_galmon_osnma :
  crypto_ok toy_crypto /\ storage_ok small_storage /\ configures (C := toy_crypto) (F := toy_files) c58_args None (Some c55_pk) false /\
  Forall is_byte c75_bytes /\ all_messages (K := message_codec) c75_bytes (c75_packets1 ++ c75_packets2) /\
  no_bad_packet (c75_packets1 ++ c75_packets2) /\ feeds_all [] (inav_packets (c75_packets1 ++ c75_packets2)) c75_calls /\
  feeds_all [] (inav_packets c75_packets1) c75_h /\ receives None (Some c55_pk) c55_pk c55_t c75_calls /\
  gives_data (S := small_storage) None (Some c55_pk) c55_pk false c55_t Ced 2 c55_bits c75_h.
Proof.
  assert (Ep : c75_packets1 ++ c75_packets2 = c75_packets) by (vm_compute; reflexivity). rewrite Ep.
  destruct C75_example_client as (Hok & Hc & _).
  split; [exact toy_crypto_ok|]. split; [exact small_storage_ok|]. split; [exact c58_configures|].
  split. { apply bytesb_ok. vm_compute. reflexivity. }
  split.
  { assert (E : c75_bytes = concat (map (frame (K := message_codec)) c75_packets)) by (vm_compute; reflexivity). rewrite E. apply frames_all.
    assert (E2 : c75_packets = map (page_packet (c75_time - galileo_epoch)) (schedule c75_rows)) by (vm_compute; reflexivity). rewrite E2.
    apply (C59_test_vectors_readable _ c75_file); [vm_compute; discriminate|exact c75_file_says|vm_compute; reflexivity]. }
  destruct (c75_feeds c75_packets c75_calls Hok ltac:(vm_compute; reflexivity) Hc) as [H1 H2].
  split; [exact H2|]. split; [exact H1|]. split; [|split; [exact c75_receives|exact c75_gives]].
  rewrite <- Ep in Hok. apply Forall_app in Hok.
  apply (c75_feeds c75_packets1 c75_h (proj1 Hok)); [vm_compute; reflexivity|]. eexists. vm_compute. reflexivity.
Qed.

Print Assumptions C75_galmon_osnma.
Print Assumptions C75_test_vectors.
Print Assumptions C75_client_and_firmware.

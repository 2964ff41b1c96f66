(** C59: the encoding of the packets, and the programs with it. *)
From Coq Require Import ZArith String List Bool Lia ZifyBool ZifyNat.
From Verif Require Import Model.Prelude Model.Params Model.Gst Model.Merkle Model.Nav Model.Osnma Model.Transport Model.Apps
  Model.Serial Model.TestVectors Model.Protobuf
  Spec.TimeSpec Spec.CollectSpec Spec.SystemSpec Spec.TransportSpec Spec.StreamSpec Spec.AppsSpec Spec.VectorsSpec Spec.ProtobufSpec Spec.NavmonProto
  Proofs.Base Proofs.GstProofs Proofs.TransportProofs Proofs.AppsProofs Proofs.VectorsProofs
  Proofs.ProtobufProofs Proofs.ProtobufMain Proofs.ProtobufTrip Proofs.StreamProofs Proofs.ProtobufUse
  Props.SystemProps Props.AppsProps Props.VectorsProps Examples.Toy Examples.Vectors.
Import ListNotations.
Open Scope list_scope.
Open Scope Z_scope.

(** * The codec *)

(** The fields of all messages are those that the file navmon.proto declares. *)
Theorem C59_fields_of_the_file : file_fields navmon_proto = Some navmon_fields.
Proof. vm_compute. reflexivity. Qed.

(** Decoding succeeds exactly on the encodings that the specification describes, with the values
    that it gives. *)
Theorem C59_decoder : forall s m, Forall is_byte s ->
  (decode (codec := navmon_codec) s = Some m <-> exists rs, wire 100 s rs /\ message_says 100 navmon_fields rs m).
Proof. intros s m Hs. apply (decode_fields_spec 2); [exact navmon_ok|lia|exact Hs]. Qed.

(** The same for the fields that the programs use. *)
Theorem C59_packet_fields : forall s m, Forall is_byte s -> decode (codec := message_codec) s = Some m -> packet_says s m.
Proof. exact packet_fields. Qed.

(** The encoding has exactly the values of the message, each once and in the order of the fields. *)
Theorem C59_encoder : forall m : navmon, conforms (Message navmon_fields) (Msg m) ->
  Z.of_nat (List.length (encode (codec := navmon_codec) m)) < 2 ^ 64 ->
  exists rs, wire 1 (encode (codec := navmon_codec) m) rs /\ fields_written navmon_fields m rs.
Proof. intros m Hc Hl. exact (encoder_spec 2 navmon_fields m navmon_ok Hc Hl). Qed.

(** All values of the types can be encoded and decoded again. *)
Theorem C59_round_trip : forall m : navmon, conforms (Message navmon_fields) (Msg m) ->
  Z.of_nat (List.length (encode (codec := navmon_codec) m)) + 10 < 2 ^ 64 ->
  decode (codec := navmon_codec) (encode (codec := navmon_codec) m) = Some m.
Proof. exact navmon_round_trip. Qed.
Theorem C59_packet_round_trip : forall m, message_fits m -> Z.of_nat (List.length (encode (codec := message_codec) m)) < 65536 ->
  decode (codec := message_codec) (encode (codec := message_codec) m) = Some m.
Proof. exact message_round_trip. Qed.

(** What is decoded has values of its types. *)
Theorem C59_decoded_values : forall s, Forall is_byte s ->
  (forall m, decode (codec := navmon_codec) s = Some m -> conforms (Message navmon_fields) (Msg m)) /\
  (forall m, decode (codec := message_codec) s = Some m -> message_fits m).
Proof. intros s Hs. split; [exact (fun m => navmon_decoded s m Hs)|exact (fun m => message_decoded s m Hs)]. Qed.

(** Fields with unknown numbers do not matter, nor does the order of fields with different
    numbers. *)
Theorem C59_unknown_fields_and_order : forall s s' rs rs', Forall is_byte s -> Forall is_byte s' -> wire 100 s rs -> wire 100 s' rs' ->
  (forall tag, 1 <= tag <= 22 -> payloads tag rs = payloads tag rs') ->
  decode (codec := navmon_codec) s = decode (codec := navmon_codec) s'.
Proof.
  intros s s' rs rs' Hs Hs' Hw Hw' H. unfold navmon_codec, decode. apply (decode_same 2 _ _ _ rs rs'); auto; [exact navmon_ok|lia|].
  intros tag Ht. apply H. clear - Ht. cbn in Ht. intuition lia.
Qed.

(** * The programs with this codec, on any bytes *)

(** galmon-filter-inav writes the packets with an INAV word, in their order, of all packets before
    the end or the first error.  It panics only for such a packet that has more than 65535 bytes
    when it is encoded again. *)
Theorem C59_filter : forall s fails, Forall is_byte s ->
  match filter_main (K := navmon_codec) navmon_has_inav (mkSource s fails) (mkSink [] None) with
  | Ok (_, k) => exists ms, all_messages (K := navmon_codec) s ms /\
      k = mkSink (concat (map (frame (K := navmon_codec)) (filter navmon_has_inav ms))) None
  | Panic => exists ms m, starts_with (K := navmon_codec) s (ms ++ [m]) /\ navmon_has_inav m = true /\
      65535 < Z.of_nat (List.length (encode (codec := navmon_codec) m))
  end.
Proof.
  intros s fails Hs. pose proof (filter_any (K := navmon_codec) navmon_has_inav s fails Hs) as X.
  destruct (filter_main _ _ _) as [[r k]|].
  - destruct X as (ms & A & _ & Hk). exists ms. auto.
  - destruct X as (ms & m & A & Hi & Hf). exists ms, m. split; [exact A|]. split; [exact Hi|]. unfold fits in Hf. lia.
Qed.
(** A packet has an INAV word if a field with the number 5 (`gi` in navmon.proto) is in its bytes. *)
Theorem C59_filter_selects : forall s m, Forall is_byte s -> decode (codec := navmon_codec) s = Some m ->
  exists rs, wire 100 s rs /\ (navmon_has_inav m = true <-> exists p, In (5, p) rs).
Proof.
  intros s m Hs E. apply (C59_decoder s m Hs) in E. destruct E as (rs & W & F). exists rs. split; [exact W|exact (has_inav_says rs m F)].
Qed.
(** What it writes can be read: the packets with an INAV word are all that is in it. *)
Theorem C59_filter_output : forall s fails r k, Forall is_byte s ->
  filter_main (K := navmon_codec) navmon_has_inav (mkSource s fails) (mkSink [] None) = Ok (r, k) ->
  exists ms, all_messages (K := navmon_codec) s ms /\ all_messages (K := navmon_codec) (k_bytes k) (filter navmon_has_inav ms).
Proof.
  intros s fails r k Hs E. pose proof (filter_any (K := navmon_codec) navmon_has_inav s fails Hs) as X. rewrite E in X.
  destruct X as (ms & A & Hf & ->). exists ms. split; [exact A|]. cbn [k_bytes]. destruct A as (A & _).
  assert (C : Forall (fun m => conforms (Message navmon_fields) (Msg m)) (filter navmon_has_inav ms)).
  { clear Hf E. induction A as [s|a b body m s ms Hl Hd A IH]; [constructor|]. rewrite !Forall_app in Hs. specialize (IH (proj2 (proj2 Hs))).
    cbn [filter]. destruct (navmon_has_inav m); [constructor; [|exact IH]|exact IH]. exact (navmon_decoded body m (proj1 (proj2 Hs)) Hd). }
  assert (R : Forall (readable (K := navmon_codec)) (filter navmon_has_inav ms)).
  { revert Hf C. generalize (filter navmon_has_inav ms). intros l Hf C. induction Hf as [|m l Hm _ IH]; [constructor|].
    apply Forall_cons_iff in C. destruct C as (C1 & C2). constructor; [|exact (IH C2)]. split; [exact Hm|]. apply C59_round_trip; [exact C1|]. unfold fits in Hm. lia. }
  exact (frames_all _ R).
Qed.

(** It should not panic for a packet that can be read, but it does for this one: missing fields
    take more space when they are written with their default. *)
Theorem C59_filter_can_panic : exists s, Forall is_byte s /\ Z.of_nat (List.length s) = 12012 /\
  filter_main (K := navmon_codec) navmon_has_inav (mkSource s false) (mkSink [] None) = Panic.
Proof. exact filter_panics. Qed.

(** * Test vectors *)

Lemma number_text_pos s n : number_text s n -> 0 <= n < 2 ^ 32.
Proof.
  intros (ds & _ & _ & Hd & -> & Hn). split; [|exact Hn]. clear Hn.
  assert (X : forall l a, 0 <= a -> Forall (fun c => 48 <= c <= 57) l -> 0 <= fold_left (fun v c => 10 * v + (c - 48)) l a).
  { induction l as [|c l IH]; intros a Ha Hl; [exact Ha|]. apply Forall_cons_iff in Hl. destruct Hl as (Hc & Hl). cbn [fold_left]. apply IH; [lia|exact Hl]. }
  now apply X.
Qed.
Lemma bytes_of_bits_are_bytes n : forall l, (List.length l <= n)%nat -> Forall is_byte (bytes_of_bits l).
Proof.
  induction n as [|n IH]; intros l Hl.
  - destruct l; [constructor|cbn in Hl; lia].
  - destruct l as [|b7 [|b6 [|b5 [|b4 [|b3 [|b2 [|b1 [|b0 l]]]]]]]]; try constructor.
    + pose proof (load_be_range [b7; b6; b5; b4; b3; b2; b1; b0]) as R. cbn [List.length] in R. split; [lia|]. change (2 ^ Z.of_nat 8) with 256 in R. lia.
    + apply IH. cbn [List.length] in Hl. lia.
Qed.
Lemma page_packet_fits start n svn p : page_ok p -> 0 <= svn < 2 ^ 32 -> 0 <= start -> start + 2 * Z.of_nat n < 65536 * 604800 ->
  message_fits (page_packet start (n, svn, p)).
Proof.
  intros (P1 & _ & P3 & _ & _ & P6 & P7 & _ & P9 & _) Hv H0 Ht. unfold message_fits, page_packet.
  cbn [m_source_id m_type m_utc_seconds m_utc_nanoseconds m_gi]. split; [lia|]. split; [lia|]. split; [lia|]. split; [lia|].
  intros q Hq. apply some_inj in Hq. subst q. cbn [p_wn p_tow p_id p_sv p_contents p_sigid p_ssp p_reserved1 p_reserved2 p_sar p_spare p_crc].
  set (t := start + 2 * Z.of_nat n) in *. assert (T : 0 <= t < 65536 * 604800) by (unfold t in *; lia). clearbody t.
  pose proof (Z.mod_pos_bound t 604800). pose proof (Z.div_le_upper_bound t 604800 65536). pose proof (Z.div_pos t 604800).
  split; [lia|]. split; [lia|]. split; [lia|]. split; [exact Hv|]. split.
  { unfold is_byte in P9. intros k [Hk|Hk]; apply some_inj in Hk; subst k; lia. }
  split; [exact P1|]. intros l Hl. cbn [In] in Hl.
  destruct Hl as [Hl|[Hl|[Hl|[Hl|[Hl|[]]]]]]; apply some_inj in Hl; subst l; [exact P3|constructor; [exact P9|constructor]| | |exact P7].
  - now apply (bytes_of_bits_are_bytes (List.length (pg_sar p ++ pg_spare p))).
  - constructor; [|constructor]. pose proof (load_be_range (pg_spare p)) as R. rewrite P6 in R. change (2 ^ Z.of_nat 2) with 4 in R. unfold is_byte. lia.
Qed.
Lemma page_packet_readable start n svn p : page_ok p -> 0 <= svn < 2 ^ 32 -> 0 <= start -> start + 2 * Z.of_nat n < 65536 * 604800 ->
  readable (K := message_codec) (page_packet start (n, svn, p)).
Proof.
  intros Hp Hv H0 Ht. pose proof (page_packet_fits start n svn p Hp Hv H0 Ht) as F. apply message_readable; [exact F|].
  pose proof (packet_size _ _ F eq_refl) as X. cbn [p_contents p_reserved1 p_reserved2 p_sar p_spare p_crc opt_length List.length] in X.
  destruct Hp as (_ & P2 & _ & P4 & P5 & P6 & _ & P8 & _). rewrite P2, P4, P8 in X.
  assert (L : List.length (bytes_of_bits (pg_sar p ++ pg_spare p)) = 3%nat) by (apply length_bytes_of_bits; rewrite app_length, P5, P6; reflexivity).
  rewrite L in X. lia.
Qed.

(** The packets of a valid file can all be written and read again. *)
Theorem C59_test_vectors_readable : forall start file rows, 0 <= start -> file_says file rows ->
  start + 2 * Z.of_nat (longest rows) < 65536 * 604800 ->
  Forall (readable (K := message_codec)) (map (page_packet start) (schedule rows)).
Proof.
  intros start file rows H0 (header & lines & _ & Hr) Ht. apply Forall_forall. intros m Hm. apply in_map_iff in Hm.
  destruct Hm as ([[n svn] p] & <- & Hx). destruct (schedule_in _ _ _ _ Hx) as (Hn & r & Hin & -> & Hp).
  assert (X : forall r, In r rows -> exists line, line_says line r).
  { clear - Hr. induction Hr as [|line r lines rows Hl _ IH]; intros r' Hi; [destruct Hi|]. destruct Hi as [E|H]; [subst; now exists line|now apply IH]. }
  destruct (X r Hin) as (line & a & b & c & rest & _ & _ & _ & _ & _ & Hnum & Hpg & _).
  apply page_packet_readable; [exact (proj1 (Forall_forall _ _) Hpg p Hp)|exact (number_text_pos _ _ Hnum)|exact H0|lia].
Qed.

(** So with this encoding the conversion and the pipe to galmon-osnma do what they should (C50), for
    every valid file. *)
Theorem C59_test_vectors : forall {B : build} t file rows, galileo_epoch <= t -> file_says file rows ->
  t - galileo_epoch + 2 * Z.of_nat (longest rows) < 65536 * 604800 ->
  exists k, vectors_main (K := message_codec) (Some t) (Some file) (mkSink [] None) = Ok (ROk tt, k) /\
    forall n, reads (K := message_codec) (reader_new (mkSource (k_bytes k) false)) (List.length (schedule rows) + n)
    = Ok (map (fun x => ROk (Some (page_packet (t - galileo_epoch) x))) (schedule rows) ++ repeat (ROk None) n).
Proof.
  intros B t file rows Ht Hf Hl. apply (C50_read_back (K := message_codec) t file rows Ht Hf Hl). apply (C59_test_vectors_readable _ file); [lia|exact Hf|exact Hl].
Qed.
Theorem C59_pipe : forall {C : crypto} {B : build} {S : storage}, crypto_ok C -> storage_ok S -> forall root user slow t file rows k e z,
  galileo_epoch <= t -> file_says file rows -> satellites_exist rows ->
  t - galileo_epoch + 2 * Z.of_nat (longest rows) < 65536 * 604800 ->
  vectors_main (K := message_codec) (Some t) (Some file) (mkSink [] None) = Ok (ROk tt, k) ->
  galmon_main (K := message_codec) (osnma_new root user slow) (mkSource (k_bytes k) false) = Ok (e, z) ->
  e = ROk tt /\
  run (osnma_new root user slow) (flat_map (page_calls (t - galileo_epoch)) (schedule rows)) = Ok (z_osnma z).
Proof.
  intros C B S HC HS root user slow t file rows k e z Ht Hf Hv Hl Hk Hz.
  refine (C50_pipe (K := message_codec) HC HS root user slow t file rows k e z Ht Hf Hv Hl _ Hk Hz).
  apply (C59_test_vectors_readable _ file); [lia|exact Hf|exact Hl].
Qed.

(** * Examples *)

(** A packet with an INAV word of satellite 11, and its encoding. *)
Definition c59_packet : message :=
  mkMessage 0 3 0 300 (Some (mkInav 1251 277201 2 11 [1; 2; 3] (Some 1) (Some [17; 18; 19; 20; 21]) None (Some []) None None (Some 43))).
Definition c59_bytes : list Z :=
  [8; 0; 16; 3; 24; 0; 32; 172; 2;
   42; 29; 8; 227; 9; 16; 209; 245; 16; 24; 2; 32; 11; 42; 3; 1; 2; 3; 48; 1; 58; 5; 17; 18; 19; 20; 21; 74; 0; 96; 43].
Example C59_example : message_fits c59_packet /\ Forall is_byte c59_bytes /\
  encode (codec := message_codec) c59_packet = c59_bytes /\ decode (codec := message_codec) c59_bytes = Some c59_packet.
Proof.
  assert (E : decode (codec := message_codec) c59_bytes = Some c59_packet) by (vm_compute; reflexivity).
  assert (Hb : Forall is_byte c59_bytes) by (apply bytesb_ok; vm_compute; reflexivity).
  split; [exact (message_decoded _ _ Hb E)|]. split; [exact Hb|]. split; [vm_compute; reflexivity|exact E].
Qed.
(** The same with the fields in another order, the word in two parts, a number given twice and
    written with more bytes than needed, an unknown number and an unknown group. *)
Definition c59_other : list Z :=
  [42; 12; 8; 1; 16; 209; 245; 16; 24; 2; 32; 11; 48; 0;
   155; 3; 16; 5; 156; 3; 160; 31; 7; 32; 172; 130; 0;
   42; 21; 8; 227; 9; 42; 3; 1; 2; 3; 48; 1; 58; 5; 17; 18; 19; 20; 21; 74; 0; 96; 43;
   16; 1; 16; 3].
Example C59_other_example : Forall is_byte c59_other /\ decode (codec := message_codec) c59_other = Some c59_packet.
Proof. split; [apply bytesb_ok; vm_compute; reflexivity|vm_compute; reflexivity]. Qed.
(** A message with several values of a field, one with the negative number -3. *)
Definition c59_offset (n : Z) : value := Msg [[Num 1]; [Num n]; [Num 7]; [Num 1]; []; [Num 9]; []; []; []].
Definition c59_offsets : navmon :=
  [[Num 1]; [Num 17]; [Num 2]; [Num 3]] ++ repeat [] 15 ++ [[Msg [[Num 4]; [c59_offset (-3); c59_offset 3]]]; []; []].
Definition c59_offsets_bytes : list Z :=
  [8; 1; 16; 17; 24; 2; 32; 3; 162; 1; 35; 8; 4;
   18; 19; 8; 1; 16; 253; 255; 255; 255; 255; 255; 255; 255; 255; 1; 24; 7; 32; 1; 48; 9;
   18; 10; 8; 1; 16; 3; 24; 7; 32; 1; 48; 9].
Example C59_encoder_example : conforms (Message navmon_fields) (Msg c59_offsets) /\
  encode (codec := navmon_codec) c59_offsets = c59_offsets_bytes.
Proof.
  split; [|vm_compute; reflexivity]. apply (navmon_decoded c59_offsets_bytes); [apply bytesb_ok|]; vm_compute; reflexivity.
Qed.
(** Not encodings: a wrong wire type, a length beyond the end, the end of another group, number 0,
    a varint of 11 bytes, text that is not UTF-8. *)
Example C59_errors : map (decode (codec := navmon_codec))
  [[9; 0; 0; 0; 0; 0; 0; 0; 0]; [42; 5; 8; 1]; [155; 3; 148; 3]; [0; 1]; 8 :: repeat 128 10 ++ [0]; [122; 4; 10; 2; 192; 128]] = repeat None 6.
Proof. vm_compute. reflexivity. Qed.
(** A stream of two packets, the second without INAV word, and then something else. *)
Example C59_filter_example :
  let s := [98; 101; 114; 116; 0; 40] ++ c59_bytes ++ [98; 101; 114; 116; 0; 2; 8; 5] ++ [1; 2; 3] in
  Forall is_byte s /\
  match filter_main (K := navmon_codec) navmon_has_inav (mkSource s false) (mkSink [] None) with
  | Ok (_, k) => k_bytes k = [98; 101; 114; 116; 0; 40] ++ c59_bytes
  | Panic => False
  end.
Proof. split; [apply bytesb_ok; vm_compute; reflexivity|vm_compute; reflexivity]. Qed.
(** The file of C50. *)
Example C59_vectors_example : galileo_epoch <= 1692162001 /\ file_says c50_file c50_rows /\ satellites_exist c50_rows /\
  1692162001 - galileo_epoch + 2 * Z.of_nat (longest c50_rows) < 65536 * 604800 /\ List.length (schedule c50_rows) = 3%nat.
Proof.
  split; [unfold galileo_epoch; lia|]. split; [exact c50_file_says|]. split; [|split; [vm_compute|]; reflexivity].
  unfold satellites_exist, c50_rows. constructor; [cbn [fst]; lia|]. constructor; [cbn [fst]; lia|constructor].
Qed.

Print Assumptions C59_fields_of_the_file.
Print Assumptions C59_decoder.
Print Assumptions C59_packet_fields.
Print Assumptions C59_encoder.
Print Assumptions C59_round_trip.
Print Assumptions C59_packet_round_trip.
Print Assumptions C59_decoded_values.
Print Assumptions C59_unknown_fields_and_order.
Print Assumptions C59_filter.
Print Assumptions C59_filter_selects.
Print Assumptions C59_filter_output.
Print Assumptions C59_filter_can_panic.
Print Assumptions C59_test_vectors_readable.
Print Assumptions C59_test_vectors.
Print Assumptions C59_pipe.

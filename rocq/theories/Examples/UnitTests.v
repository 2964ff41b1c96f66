(** The unit tests of the repository that are not in Vectors.v, on the model.  Like those, they
    are tests of its faithfulness and not proofs of properties.  The packets are real ones, so
    that they test the model of the protobuf encoding. *)
From Coq Require Import ZArith String List Bool.
From Verif Require Import Model.Prelude Model.Params Model.Gst Model.Svn Model.Bitfields Model.Maclt Model.Subframe
  Model.Transport Model.Protobuf Examples.Sha256 Examples.Vectors.
Import ListNotations.
Open Scope Z_scope.

(** ** galmon/mod.rs *)

(** [GALMON_PACKETS], galmon/transport/test/data.rs:3-57 *)
Open Scope string_scope.
Definition galmon_text : string :=
   "62 65 72 74 00 2a 08 01 10 01 18 cb a3 97 91 06 " ++
   "20 af ca 8d bb 02 32 18 08 00 10 0a 18 00 20 19 " ++
   "28 aa 02 31 00 00 00 00 00 00 00 00 40 00 48 00 " ++
   "62 65 72 74 00 2a 08 01 10 01 18 cb a3 97 91 06 " ++
   "20 af ca 8d bb 02 32 18 08 00 10 0c 18 00 20 37 " ++
   "28 d9 01 31 00 00 00 00 00 00 00 00 40 00 48 00 " ++
   "62 65 72 74 00 2a 08 01 10 01 18 cb a3 97 91 06 " ++
   "20 af ca 8d bb 02 32 18 08 00 10 0d 18 00 20 1c " ++
   "28 85 01 31 00 00 00 00 00 00 00 00 40 00 48 00 " ++
   "62 65 72 74 00 2a 08 01 10 01 18 cb a3 97 91 06 " ++
   "20 af ca 8d bb 02 32 18 08 00 10 0f 18 00 20 37 " ++
   "28 a2 01 31 00 00 00 00 00 00 00 00 40 00 48 00 " ++
   "62 65 72 74 00 29 08 01 10 01 18 cb a3 97 91 06 " ++
   "20 af ca 8d bb 02 32 17 08 00 10 11 18 00 20 16 " ++
   "28 35 31 00 00 00 00 00 00 00 00 40 00 48 00 62 " ++
   "65 72 74 00 29 08 01 10 01 18 cb a3 97 91 06 20 " ++
   "af ca 8d bb 02 32 17 08 00 10 13 18 00 20 1f 28 " ++
   "4d 31 00 00 00 00 00 00 00 00 40 00 48 00 62 65 " ++
   "72 74 00 2a 08 01 10 01 18 cb a3 97 91 06 20 af " ++
   "ca 8d bb 02 32 18 08 00 10 17 18 00 20 20 28 84 " ++
   "02 31 00 00 00 00 00 00 00 00 40 00 48 00 62 65 " ++
   "72 74 00 2a 08 01 10 01 18 cb a3 97 91 06 20 af " ++
   "ca 8d bb 02 32 18 08 00 10 18 18 00 20 48 28 d6 " ++
   "02 31 00 00 00 00 00 00 00 00 40 00 48 00 62 65 " ++
   "72 74 00 2a 08 01 10 01 18 cb a3 97 91 06 20 af " ++
   "ca 8d bb 02 32 18 08 00 10 19 18 00 20 11 28 e2 " ++
   "01 31 00 00 00 00 00 00 00 00 40 00 48 00 62 65 " ++
   "72 74 00 2a 08 01 10 01 18 cb a3 97 91 06 20 af " ++
   "ca 8d bb 02 32 18 08 02 10 01 18 00 20 06 28 e8 " ++
   "01 31 00 00 00 00 00 00 00 00 40 00 48 00 62 65 " ++
   "72 74 00 2a 08 01 10 01 18 cb a3 97 91 06 20 af " ++
   "ca 8d bb 02 32 18 08 02 10 07 18 00 20 18 28 94 " ++
   "01 31 00 00 00 00 00 00 00 00 40 00 48 00 62 65 " ++
   "72 74 00 29 08 01 10 01 18 cb a3 97 91 06 20 af " ++
   "ca 8d bb 02 32 17 08 02 10 12 18 00 20 1d 28 53 " ++
   "31 00 00 00 00 00 00 00 00 40 00 48 00 62 65 72 " ++
   "74 00 2a 08 01 10 01 18 cb a3 97 91 06 20 af ca " ++
   "8d bb 02 32 18 08 02 10 13 18 00 20 33 28 b2 02 " ++
   "31 00 00 00 00 00 00 00 00 40 00 48 00 62 65 72 " ++
   "74 00 2a 08 01 10 01 18 cb a3 97 91 06 20 af ca " ++
   "8d bb 02 32 18 08 02 10 15 18 00 20 35 28 eb 01 " ++
   "31 00 00 00 00 00 00 00 00 40 00 48 00 62 65 72 " ++
   "74 00 29 08 01 10 01 18 cb a3 97 91 06 20 af ca " ++
   "8d bb 02 32 17 08 02 10 1b 18 00 20 45 28 2a 31 " ++
   "00 00 00 00 00 00 00 00 40 00 48 00 62 65 72 74 " ++
   "00 29 08 01 10 01 18 cb a3 97 91 06 20 af ca 8d " ++
   "bb 02 32 17 08 02 10 1e 18 00 20 0e 28 32 31 00 " ++
   "00 00 00 00 00 00 00 40 00 48 00 62 65 72 74 00 " ++
   "3f 08 01 10 02 18 cb a3 97 91 06 20 af ca 8d bb " ++
   "02 42 2d 09 ec 51 b8 de f3 76 52 41 11 8f c2 f5 " ++
   "28 96 19 13 c1 19 33 33 33 13 59 80 4f 41 21 e1 " ++
   "7a 14 ae 47 21 30 40 29 00 00 00 00 00 00 00 00 ".
Open Scope list_scope.
Open Scope Z_scope.
Definition galmon_packets : list Z := Eval vm_compute in hex galmon_text.
Example galmon_packets_length : List.length galmon_packets = 832%nat.
Proof. vm_compute. reflexivity. Qed.

#[local] Existing Instance navmon_codec.

(** Reads packets until there is none, [fuel] at most: them, and the result and the reader after
    them. *)
Fixpoint read_all (fuel : nat) (t : reader) : outcome (list navmon * result unit io_error * reader) :=
  match fuel with
  | O => Ok ([], ROk tt, t)
  | Datatypes.S fuel =>
      '(r, t) <- read_packet t ;;
      match r with
      | ROk (Some p) => '(l, e, t) <- read_all fuel t ;; Ok (p :: l, e, t)
      | ROk None => Ok ([], ROk tt, t)
      | RErr e => Ok ([], RErr e, t)
      end
  end.
Definition read_packets : outcome (list navmon * result unit io_error * reader) :=
  read_all 100 (reader_new (mkSource galmon_packets false)).

(** [read_packets], mod.rs:148-156: there are 17 packets.  Their type is in the second field:
    16 of reception data, 1 of observer position. *)
Example test_read_packets :
  match read_packets with
  | Ok (l, ROk tt, t) => (List.length l =? 17)%nat && match s_bytes (r_read t) with [] => true | _ => false end &&
      forallb (fun m => num (nth 1 m []) =? 1) (firstn 16 l) && (num (nth 1 (nth 16 l []) []) =? 2)
  | _ => false
  end = true.
Proof. vm_compute. reflexivity. Qed.

(** [bad_magic], mod.rs:158-163 *)
Example test_bad_magic :
  match read_packet (reader_new (mkSource (skipn 2 galmon_packets) false)) with
  | Ok (RErr InvalidData, _) => true
  | _ => false
  end = true.
Proof. vm_compute. reflexivity. Qed.

(** [short_packet], mod.rs:165-170 *)
Example test_short_packet :
  match read_packet (reader_new (mkSource (firstn 10 galmon_packets) false)) with
  | Ok (RErr UnexpectedEof, _) => true
  | _ => false
  end = true.
Proof. vm_compute. reflexivity. Qed.

(** [read_packets_write_packets], mod.rs:172-186: written again, they are the same bytes. *)
Example test_read_packets_write_packets :
  match read_packets with
  | Ok (l, _, _) =>
      match fold_outcome (fun x p => '(r, k) <- write_packet (snd x) p ;;
                                     match r with ROk n => Ok (fst x + n, k) | RErr _ => Panic end) l (0, mkSink [] None) with
      | Ok (n, k) => (n =? 832) && bytes_eqb (k_bytes k) galmon_packets
      | Panic => false
      end
  | Panic => false
  end = true.
Proof. vm_compute. reflexivity. Qed.

(** ** maclt.rs *)

(** [lookups], maclt.rs:273-280, [lookup_wrong_msg] and [lookup_wrong_tag_number], 282-292 *)
Example test_lookups :
  get_maclt_entry 34 0 1 = Ok (ROk FLX) /\ get_maclt_entry 34 0 2 = Ok (ROk F04S) /\ get_maclt_entry 34 1 5 = Ok (ROk F12E) /\
  get_maclt_entry 26 0 1 = Ok (RErr InvalidMaclt) /\ get_maclt_entry 34 0 6 = Ok (RErr InvalidTagNumber) /\
  get_maclt_entry 34 2 1 = Panic /\ get_maclt_entry 34 0 0 = Panic.
Proof. repeat split. Qed.

(** [max_flx_entries], maclt.rs:294-314; the constant 4 is in maclt.rs:21 *)
Example test_max_flx_entries :
  fold_left Nat.max (map (fun e => fold_left Nat.max (map (fun s => List.length (filter is_flex (firstn (lt_nt e - 1) s))) (lt_sequence e)) 0%nat)
    maclt_table) 0%nat = 4%nat.
Proof. reflexivity. Qed.

(** [flx_indices], maclt.rs:316-322 *)
Example test_flx_indices :
  get_flx_indices 34 0 = Ok (ROk [1; 3]%nat) /\ get_flx_indices 34 1 = Ok (ROk [1]%nat).
Proof. split; reflexivity. Qed.

(** ** svn.rs *)

(** [from_int], svn.rs:108-117, and [iterator], svn.rs:125-133 *)
Example test_svn :
  map svn_try_from svn_iter = map Some svn_iter /\ svn_try_from 0 = None /\ svn_try_from 37 = None /\
  svn_iter = map Z.of_nat (seq 1 36).
Proof. repeat split. Qed.

(** ** subframe.rs *)

(** [collect], subframe.rs:130-180: data of a satellite from the middle of a subframe on; the
    next subframe is complete with its last page. *)
Definition collect_page (i : nat) : list Z * gst :=
  let counter := Z.of_nat i in (Z.lxor counter 255 :: repeat counter 4, mkGst 1234 (123 * 30 + 5 + 2 * counter)).
Definition collect_pages_1 : list (list Z * gst) := map collect_page (seq 0 13).
Definition collect_pages_2 : list (list Z * gst) :=
  map (fun i => let counter := Z.of_nat (13 + i) in
    (Z.lxor counter 255 :: repeat counter 4, mkGst 1234 (124 * 30 + 2 * Z.of_nat i))) (seq 0 15).
Definition collect_run : outcome (collect_subframe * list (option (list Z * list Z * gst))) :=
  fold_outcome (fun x p => '(st, r) <- subframe_feed (fst x) (fst p) 1 (snd p) ;; Ok (st, snd x ++ [r]))
    (collect_pages_1 ++ collect_pages_2) (subframe_new, []).
Example test_collect :
  match collect_run with
  | Ok (_, l) => l = repeat None 27 ++
      [Some (map (fun j => Z.lxor (13 + Z.of_nat j) 255) (seq 0 15),
             flat_map (fun j => repeat (13 + Z.of_nat j) 4) (seq 0 15), mkGst 1234 (124 * 30))]
  | Panic => False
  end.
Proof. vm_compute. reflexivity. Qed.

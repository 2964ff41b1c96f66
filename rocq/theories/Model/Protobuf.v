(** Model of the messages of galileo-osnma/src/galmon/navmon.proto and of their encoding.

    The Rust code is generated from that file by prost (galileo-osnma/build.rs:3-8), and the
    encoding is done by prost 0.14 (Cargo.lock:1029-1037), whose source is not part of the
    repository: encoder and decoder are written here from the protobuf encoding and from the
    behaviour of prost: missing fields that are required get their default, the last of several
    values of a field counts but messages are merged, unknown fields are skipped, and a field
    with the wrong wire type is an error.  All errors are [None].  Fields with several values that
    are not messages do not occur in the file and are left out. *)
From Coq Require Import ZArith List Bool.
From Verif Require Import Model.Prelude Model.Transport Model.Apps.
Import ListNotations.
Open Scope Z_scope.

(** ** Types and values *)

(** Types of a field.  An enumeration has as default its first value. *)
Inductive scalar : Type := Uint32 | Uint64 | Int32 | Boolean | Enum (first : Z) | Double | Text | Bytes.
Inductive label : Type := Required | Optional | Repeated.
(** A type of messages is given by the numbers, labels and types of its fields. *)
Inductive ftype : Type := Scalar (s : scalar) | Message (fs : list (Z * label * ftype)).
Definition field : Type := (Z * label * ftype)%type.

(** Values.  A [f64] is its 8 bytes, a text its UTF-8 bytes.  A message has for each field the
    values that are there: one if it is required, none or one if it is optional. *)
Inductive value : Type := Num (z : Z) | Str (l : list Z) | Msg (slots : list (list value)).

Definition default_scalar (s : scalar) : value :=
  match s with
  | Uint32 | Uint64 | Int32 | Boolean => Num 0
  | Enum first => Num first
  | Double => Str (repeat 0 8)
  | Text | Bytes => Str []
  end.
Fixpoint default_value (t : ftype) : value :=
  match t with
  | Scalar s => default_scalar s
  | Message fs => Msg (map (fun f => match f with
                                     | (_, Required, t) => [default_value t]
                                     | (_, _, t) => []
                                     end) fs)
  end.
Definition default_slots (fs : list field) : list (list value) :=
  map (fun f => match f with (_, Required, t) => [default_value t] | (_, _, t) => [] end) fs.

(** ** Encoding *)

(** [encode_varint]: at most 10 bytes, for a [u64]. *)
Fixpoint put_varint_n (n : nat) (v : Z) : list Z :=
  match n with
  | O => []
  | S n => if v <? 128 then [v] else (128 + v mod 128) :: put_varint_n n (v / 128)
  end.
Definition put_varint (v : Z) : list Z := put_varint_n 10 v.

(** Wire types: 0 varint, 1 eight bytes, 2 with a length, 3 and 4 start and end of a group,
    5 four bytes. *)
Definition wire_type (t : ftype) : Z :=
  match t with
  | Scalar (Uint32 | Uint64 | Int32 | Boolean | Enum _) => 0
  | Scalar Double => 1
  | Scalar (Text | Bytes) | Message _ => 2
  end.
Definition put_key (tag wt : Z) : list Z := put_varint (8 * tag + wt).

(** A value without its key; an [i32] is extended to 64 bits. *)
Definition put_scalar (s : scalar) (v : value) : list Z :=
  match s, v with
  | (Uint32 | Uint64 | Boolean), Num z => put_varint z
  | (Int32 | Enum _), Num z => put_varint (z mod 2 ^ 64)
  | Double, Str l => l
  | (Text | Bytes), Str l => put_varint (Z.of_nat (length l)) ++ l
  | _, _ => []
  end.
Fixpoint put_value (t : ftype) (v : value) : list Z :=
  match t, v with
  | Scalar s, _ => put_scalar s v
  | Message fs, Msg slots =>
      let body := (fix put_fields (fs : list field) (slots : list (list value)) : list Z :=
        match fs, slots with
        | (tag, _, t) :: fs, vs :: slots =>
            flat_map (fun v => put_key tag (wire_type t) ++ put_value t v) vs ++ put_fields fs slots
        | _, _ => []
        end) fs slots in
      put_varint (Z.of_nat (length body)) ++ body
  | Message _, _ => []
  end.
(** [Message::encode] *)
Fixpoint put_fields (fs : list field) (slots : list (list value)) : list Z :=
  match fs, slots with
  | (tag, _, t) :: fs, vs :: slots =>
      flat_map (fun v => put_key tag (wire_type t) ++ put_value t v) vs ++ put_fields fs slots
  | _, _ => []
  end.

(** ** Decoding *)

(** [decode_varint] *)
Fixpoint get_varint_n (n : nat) (s : list Z) : option (Z * list Z) :=
  match n, s with
  | S n, b :: s =>
      if b <? 128 then
        if (n =? 0)%nat && (2 <=? b) then None else Some (b, s)
      else
        match get_varint_n n s with
        | Some (v, s) => Some (b mod 128 + 128 * v, s)
        | None => None
        end
  | _, _ => None
  end.
Definition get_varint (s : list Z) : option (Z * list Z) := get_varint_n 10 s.

(** [decode_key]: the number and the wire type *)
Definition get_key (s : list Z) : option (Z * Z * list Z) :=
  match get_varint s with
  | Some (v, s) =>
      if (2 ^ 32 <=? v) || (5 <? v mod 8) || (v / 8 <? 1) then None else Some (v / 8, v mod 8, s)
  | None => None
  end.

(** The next [n] bytes, or an error if there are not so many *)
Definition get_bytes (n : Z) (s : list Z) : option (list Z * list Z) :=
  if Z.of_nat (length s) <? n then None else Some (firstn (Z.to_nat n) s, skipn (Z.to_nat n) s).
Definition get_delimited (s : list Z) : option (list Z * list Z) :=
  match get_varint s with Some (n, s) => get_bytes n s | None => None end.

(** [core::str::from_utf8] *)
Definition continues (b : Z) : bool := (128 <=? b) && (b <=? 191).
Fixpoint utf8 (fuel : nat) (l : list Z) : bool :=
  match fuel, l with
  | _, [] => true
  | O, _ => false
  | S fuel, b :: l =>
      if b <? 128 then utf8 fuel l
      else if (194 <=? b) && (b <=? 223) then
        match l with
        | c :: l => continues c && utf8 fuel l
        | _ => false
        end
      else if (224 <=? b) && (b <=? 239) then
        match l with
        | c :: d :: l =>
            continues c && (if b =? 224 then 160 <=? c else true) && (if b =? 237 then c <=? 159 else true)
            && continues d && utf8 fuel l
        | _ => false
        end
      else if (240 <=? b) && (b <=? 244) then
        match l with
        | c :: d :: e :: l =>
            continues c && (if b =? 240 then 144 <=? c else true) && (if b =? 244 then c <=? 143 else true)
            && continues d && continues e && utf8 fuel l
        | _ => false
        end
      else false
  end.

(** [value as i32] *)
Definition as_i32 (v : Z) : Z := if v mod 2 ^ 32 <? 2 ^ 31 then v mod 2 ^ 32 else v mod 2 ^ 32 - 2 ^ 32.

Definition get_scalar (s : scalar) (wt : Z) (l : list Z) : option (value * list Z) :=
  if negb (wt =? wire_type (Scalar s)) then None else
  match s with
  | Uint32 => match get_varint l with Some (v, l) => Some (Num (v mod 2 ^ 32), l) | None => None end
  | Uint64 => match get_varint l with Some (v, l) => Some (Num v, l) | None => None end
  | Int32 | Enum _ => match get_varint l with Some (v, l) => Some (Num (as_i32 v), l) | None => None end
  | Boolean => match get_varint l with Some (v, l) => Some (Num (if v =? 0 then 0 else 1), l) | None => None end
  | Double => match get_bytes 8 l with Some (b, l) => Some (Str b, l) | None => None end
  | Text => match get_delimited l with Some (b, l) => if utf8 (length b) b then Some (Str b, l) else None | None => None end
  | Bytes => match get_delimited l with Some (b, l) => Some (Str b, l) | None => None end
  end.

(** [skip_field], and the loop in it for a group.  [depth] is the count of the [DecodeContext];
    [fuel] has to be more than twice the number of bytes. *)
Fixpoint skip_field (fuel : nat) (depth : nat) (wt tag : Z) (s : list Z) : option (list Z) :=
  match fuel, depth with
  | S fuel, S depth =>
      if wt =? 0 then match get_varint s with Some (_, s) => Some s | None => None end
      else if wt =? 1 then match get_bytes 8 s with Some (_, s) => Some s | None => None end
      else if wt =? 5 then match get_bytes 4 s with Some (_, s) => Some s | None => None end
      else if wt =? 2 then match get_delimited s with Some (_, s) => Some s | None => None end
      else if wt =? 3 then skip_group fuel depth tag s
      else None
  | _, _ => None
  end
with skip_group (fuel : nat) (depth : nat) (tag : Z) (s : list Z) : option (list Z) :=
  match fuel with
  | S fuel =>
      match get_key s with
      | Some (tag', wt', s) =>
          if wt' =? 4 then if tag' =? tag then Some s else None
          else
            match skip_field fuel depth wt' tag' s with
            | Some s => skip_group fuel depth tag s
            | None => None
            end
      | None => None
      end
  | O => None
  end.

(** The generated [merge_field] in the loop over the fields.  For a message inside, prost reads
    on in the same buffer and gives an error if the message does not end at its length; here its
    bytes are cut out first, so that a field that goes beyond them is an error. *)
Fixpoint merge_fields (fuel : nat) (depth : nat) (fs : list field) (slots : list (list value)) (s : list Z)
  : option (list (list value)) :=
  match s, fuel with
  | [], _ => Some slots
  | _, O => None
  | _, S fuel =>
      match get_key s with
      | None => None
      | Some (tag, wt, s) =>
          match position (fun f : field => fst (fst f) =? tag) fs with
          | None =>
              match skip_field (2 * length s + 2) depth wt tag s with
              | Some s => merge_fields fuel depth fs slots s
              | None => None
              end
          | Some i =>
              let slot := nth i slots [] in
              match nth_error fs i with
              | None => None
              | Some (_, lab, Scalar t) =>
                  match get_scalar t wt s with
                  | Some (v, s) => merge_fields fuel depth fs (put i [[v]] slots) s
                  | None => None
                  end
              | Some (_, lab, Message fs') =>
                  if negb (wt =? 2) || (depth =? 0)%nat then None else
                  match get_delimited s with
                  | None => None
                  | Some (body, s) =>
                      let '(before, current) :=
                        match lab, slot with
                        | Repeated, _ => (slot, default_slots fs')
                        | _, [Msg slots'] => ([], slots')
                        | _, _ => ([], default_slots fs')
                        end in
                      match merge_fields fuel (depth - 1) fs' current body with
                      | Some slots' => merge_fields fuel depth fs (put i [before ++ [Msg slots']] slots) s
                      | None => None
                      end
                  end
              end
          end
      end
  end.

(** [Message::decode]; the limit for recursion is 100. *)
Definition decode_fields (fs : list field) (s : list Z) : option (list (list value)) :=
  merge_fields (length s) 100 fs (default_slots fs) s.

(** ** navmon.proto *)

Definition req (n : Z) (s : scalar) : field := (n, Required, Scalar s).
Definition opt (n : Z) (s : scalar) : field := (n, Optional, Scalar s).

(** navmon.proto:31-45 *)
Definition galileo_inav_fields : list field :=
  [req 1 Uint32; req 2 Uint32; req 3 Uint32; req 4 Uint32; req 5 Bytes; opt 6 Uint32; opt 7 Bytes; opt 8 Bytes;
   opt 9 Bytes; opt 10 Bytes; opt 11 Bytes; opt 12 Uint32].
(** GalileoFnav, GalileoCnav and GPSCnav, navmon.proto:47-64, 193-201 *)
Definition other_nav_fields : list field :=
  [req 1 Uint32; req 2 Uint32; req 3 Uint32; req 4 Uint32; req 5 Bytes; req 6 Uint32].
(** GPSInav, BeidouInavD1 and BeidouInavD2, navmon.proto:66-93 *)
Definition other_inav_fields : list field :=
  [req 1 Uint32; req 2 Uint32; req 3 Uint32; req 4 Uint32; req 5 Bytes; opt 6 Uint32].
(** navmon.proto:95-101 *)
Definition glonass_fields : list field := [req 1 Uint32; req 2 Uint32; req 3 Uint32; req 4 Bytes; opt 5 Uint32].
(** navmon.proto:104-115; the fields are encoded in the order of their numbers *)
Definition reception_fields : list field :=
  [req 1 Uint32; req 2 Uint32; req 3 Uint32; req 4 Uint32; req 5 Uint32; req 6 Double; opt 7 Uint32; opt 8 Uint32;
   opt 9 Boolean].
(** navmon.proto:117-137 *)
Definition rf_fields : list field :=
  [req 1 Double; req 2 Uint32; req 3 Uint32; req 4 Uint32; req 5 Double; req 6 Double; req 7 Double; req 8 Double;
   req 9 Double; req 10 Double; req 11 Double; opt 12 Uint32; opt 13 Uint32; opt 14 Boolean; opt 15 Boolean;
   opt 16 Boolean; opt 17 Boolean; opt 18 Boolean].
(** navmon.proto:139-145 *)
Definition position_fields : list field := [req 1 Double; req 2 Double; req 3 Double; req 4 Double; opt 5 Double].
(** navmon.proto:147-155 *)
Definition sar_fields : list field :=
  [req 1 Uint32; req 2 Uint32; req 3 Uint32; req 4 Uint32; req 5 Bytes; req 6 Uint32; req 7 Bytes].
(** navmon.proto:157-160 *)
Definition debugging_fields : list field := [req 1 Uint32; req 2 Bytes].
(** navmon.proto:162-176 *)
Definition observer_fields : list field :=
  [req 1 Text; req 2 Text; req 3 Text; req 4 Text; req 5 Text; opt 6 Double; opt 7 Double; opt 8 Double; opt 9 Double;
   opt 10 Text; opt 11 Text; opt 12 Text; opt 13 Uint32].
(** navmon.proto:178-184 *)
Definition jamming_fields : list field := [req 1 Uint32; req 2 Uint32; req 3 Uint32; req 4 Uint32].
(** navmon.proto:186-190 *)
Definition sbas_fields : list field := [req 1 Uint32; req 2 Uint32; req 3 Bytes].
(** navmon.proto:204-206 *)
Definition rtcm_fields : list field := [req 5 Bytes].
(** navmon.proto:208-221 *)
Definition gnss_offset_fields : list field :=
  [req 1 Uint32; req 2 Int32; req 3 Uint32; req 4 Boolean; opt 5 Int32; req 6 Uint32; opt 7 Uint32; opt 8 Uint32;
   opt 9 Uint32].
(** navmon.proto:224-228 *)
Definition time_offset_fields : list field := [req 1 Uint32; (2, Repeated, Message gnss_offset_fields)].

(** [NavMonMessage], navmon.proto:3-29, 231-249; the first value of [Type] is 1. *)
Definition navmon_fields : list field :=
  [req 1 Uint64; req 2 (Enum 1); req 3 Uint64; req 4 Uint64;
   (5, Optional, Message galileo_inav_fields);
   (6, Optional, Message reception_fields);
   (7, Optional, Message rf_fields);
   (8, Optional, Message position_fields);
   (9, Optional, Message other_inav_fields);
   (10, Optional, Message other_inav_fields);
   (11, Optional, Message other_inav_fields);
   (12, Optional, Message glonass_fields);
   (13, Optional, Message sar_fields);
   (14, Optional, Message debugging_fields);
   (15, Optional, Message observer_fields);
   (16, Optional, Message jamming_fields);
   (17, Optional, Message sbas_fields);
   (18, Optional, Message other_nav_fields);
   (19, Optional, Message rtcm_fields);
   (20, Optional, Message time_offset_fields);
   (21, Optional, Message other_nav_fields);
   (22, Optional, Message other_nav_fields)].

(** The whole [NavMonMessage]. *)
Definition navmon : Type := list (list value).
Definition navmon_codec : codec navmon :=
  {| encode := put_fields navmon_fields; decode := decode_fields navmon_fields |}.
(** [packet.gi.is_some()], galmon-filter-inav.rs:11 *)
Definition navmon_has_inav (m : navmon) : bool := match nth 4 m [] with [] => false | _ => true end.

(** The part of it that the model of the programs has, and back, with no other field there. *)
Definition num (l : list value) : Z := match l with Num z :: _ => z | _ => 0 end.
Definition str (l : list value) : list Z := match l with Str s :: _ => s | _ => [] end.
Definition opt_num (l : list value) : option Z := match l with [] => None | _ => Some (num l) end.
Definition opt_str (l : list value) : option (list Z) := match l with [] => None | _ => Some (str l) end.
Definition inav_of (s : list (list value)) : galileo_inav :=
  let f i := nth i s [] in
  mkInav (num (f 0%nat)) (num (f 1%nat)) (num (f 2%nat)) (num (f 3%nat)) (str (f 4%nat)) (opt_num (f 5%nat))
    (opt_str (f 6%nat)) (opt_str (f 7%nat)) (opt_str (f 8%nat)) (opt_str (f 9%nat)) (opt_str (f 10%nat)) (opt_num (f 11%nat)).
Definition message_of (m : navmon) : message :=
  let f i := nth i m [] in
  mkMessage (num (f 0%nat)) (num (f 1%nat)) (num (f 2%nat)) (num (f 3%nat))
    (match f 4%nat with Msg s :: _ => Some (inav_of s) | _ => None end).
Definition nums (o : option Z) : list value := match o with Some z => [Num z] | None => [] end.
Definition strs (o : option (list Z)) : list value := match o with Some l => [Str l] | None => [] end.
Definition of_inav (p : galileo_inav) : list (list value) :=
  [[Num (p_wn p)]; [Num (p_tow p)]; [Num (p_id p)]; [Num (p_sv p)]; [Str (p_contents p)]; nums (p_sigid p);
   strs (p_reserved1 p); strs (p_reserved2 p); strs (p_sar p); strs (p_spare p); strs (p_crc p); nums (p_ssp p)].
Definition of_message (m : message) : navmon :=
  [[Num (m_source_id m)]; [Num (m_type m)]; [Num (m_utc_seconds m)]; [Num (m_utc_nanoseconds m)];
   match m_gi m with Some p => [Msg (of_inav p)] | None => [] end] ++ repeat [] 17.
Definition message_codec : codec message :=
  {| encode := fun m => put_fields navmon_fields (of_message m);
     decode := fun s => option_map message_of (decode_fields navmon_fields s) |}.

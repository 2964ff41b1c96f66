(** Specification of the protobuf encoding, after https://protobuf.dev/programming-guides/encoding/. *)
From Coq Require Import ZArith List Bool.
From Verif Require Import Model.Prelude Model.Params Model.Apps Model.Protobuf.
Import ListNotations.
Open Scope Z_scope.

(** ** The wire format *)

(** A varint: groups of 7 bits, the least significant first; the highest bit of a byte tells
    that there are more. *)
Inductive varint_text : list Z -> Z -> Prop :=
| varint_last b : 0 <= b < 128 -> varint_text [b] b
| varint_more b l v : 0 <= b < 128 -> varint_text l v -> varint_text (128 + b :: l) (b + 128 * v).
Definition is_varint (l : list Z) (v : Z) : Prop := varint_text l v /\ (length l <= 10)%nat /\ v < 2 ^ 64.

Definition is_key (l : list Z) (tag wt : Z) : Prop := is_varint l (8 * tag + wt) /\ 1 <= tag < 2 ^ 29.

(** What a field has on the wire. *)
Inductive payload : Type := PVarint (v : Z) | P64 (l : list Z) | PLen (l : list Z) | P32 (l : list Z) | PGroup.
Definition payload_type (p : payload) : Z :=
  match p with PVarint _ => 0 | P64 _ => 1 | PLen _ => 2 | PGroup => 3 | P32 _ => 5 end.
Definition delimited_text (l body : list Z) : Prop :=
  exists n, l = n ++ body /\ is_varint n (Z.of_nat (length body)).

(** A sequence of fields, with groups in groups not deeper than [d]. *)
Inductive wire : nat -> list Z -> list (Z * payload) -> Prop :=
| wire_none d : wire d [] []
| wire_more d k tag p l s rs : is_key k tag (payload_type p) -> payload_text d tag p l -> wire (S d) s rs ->
    wire (S d) (k ++ l ++ s) ((tag, p) :: rs)
with payload_text : nat -> Z -> payload -> list Z -> Prop :=
| text_varint d tag l v : is_varint l v -> payload_text d tag (PVarint v) l
| text_64 d tag l : length l = 8%nat -> payload_text d tag (P64 l) l
| text_32 d tag l : length l = 4%nat -> payload_text d tag (P32 l) l
| text_len d tag l body : delimited_text l body -> payload_text d tag (PLen body) l
| text_group d tag s rs e : wire d s rs -> is_key e tag 4 -> payload_text d tag PGroup (s ++ e).

(** ** What fields say *)

(** UTF-8: the bytes for a code point. *)
Definition code_point (c : Z) : Prop := 0 <= c < 55296 \/ 57344 <= c < 1114112.
Definition utf8_bytes (c : Z) : list Z :=
  if c <? 128 then [c]
  else if c <? 2048 then [192 + c / 64; 128 + c mod 64]
  else if c <? 65536 then [224 + c / 4096; 128 + c / 64 mod 64; 128 + c mod 64]
  else [240 + c / 262144; 128 + c / 4096 mod 64; 128 + c / 64 mod 64; 128 + c mod 64].
Definition utf8_text (l : list Z) : Prop := exists cs, Forall code_point cs /\ l = flat_map utf8_bytes cs.

(** The number of 32 bits in two's complement that is given by the lowest bits of [v]. *)
Definition low_i32 (v r : Z) : Prop := - 2 ^ 31 <= r < 2 ^ 31 /\ (r - v) mod 2 ^ 32 = 0.

Definition scalar_says (s : scalar) (p : payload) (v : value) : Prop :=
  match s, p with
  | Uint32, PVarint z => v = Num (z mod 2 ^ 32)
  | Uint64, PVarint z => v = Num z
  | (Int32 | Enum _), PVarint z => exists r, low_i32 z r /\ v = Num r
  | Boolean, PVarint z => v = Num (if z =? 0 then 0 else 1)
  | Double, P64 l => v = Str l
  | Text, PLen l => utf8_text l /\ v = Str l
  | Bytes, PLen l => v = Str l
  | _, _ => False
  end.

(** What the fields with a number have. *)
Definition payloads (tag : Z) (rs : list (Z * payload)) : list payload :=
  map snd (filter (fun r => fst r =? tag) rs).

(** The value of a required field that is not there: zero (the floating point number has eight
    zero bytes), the first value of an enumeration, nothing, and for a message that of each of its
    required fields. *)
Fixpoint absent_value (t : ftype) : value :=
  match t with
  | Scalar (Uint32 | Uint64 | Int32 | Boolean) => Num 0
  | Scalar (Enum first) => Num first
  | Scalar Double => Str [0; 0; 0; 0; 0; 0; 0; 0]
  | Scalar (Text | Bytes) => Str []
  | Message fs => Msg (map (fun f => match f with (_, Required, t) => [absent_value t] | _ => [] end) fs)
  end.

(** The value of a field for which [ps], at least one, are given: the last one counts, but the
    fields of messages are put together. *)
Fixpoint value_says (d : nat) (t : ftype) (ps : list payload) (v : value) : Prop :=
  match t with
  | Scalar s =>
      (forall p, In p ps -> exists v, scalar_says s p v) /\
      exists before p, ps = before ++ [p] /\ scalar_says s p v
  | Message fs =>
      exists bodies rss slots, ps = map PLen bodies /\ Forall2 (wire (d - 1)) bodies rss /\ v = Msg slots /\
        (fix fields_say (fs : list field) (slots : list (list value)) : Prop :=
           match fs, slots with
           | [], [] => True
           | (tag, lab, t) :: fs, slot :: slots =>
               match lab with
               | Repeated => Forall2 (fun p v => value_says (d - 1) t [p] v) (payloads tag (concat rss)) slot
               | Required =>
                   (payloads tag (concat rss) = [] /\ slot = [absent_value t]) \/
                   (payloads tag (concat rss) <> [] /\ exists v, slot = [v] /\ value_says (d - 1) t (payloads tag (concat rss)) v)
               | Optional =>
                   (payloads tag (concat rss) = [] /\ slot = []) \/
                   (payloads tag (concat rss) <> [] /\ exists v, slot = [v] /\ value_says (d - 1) t (payloads tag (concat rss)) v)
               end /\ fields_say fs slots
           | _, _ => False
           end) fs slots
  end.
(** The same for the fields of a message. *)
Definition field_says (d : nat) (f : field) (rs : list (Z * payload)) (slot : list value) : Prop :=
  let '(tag, lab, t) := f in
  match lab with
  | Repeated => Forall2 (fun p v => value_says d t [p] v) (payloads tag rs) slot
  | Required =>
      (payloads tag rs = [] /\ slot = [absent_value t]) \/
      (payloads tag rs <> [] /\ exists v, slot = [v] /\ value_says d t (payloads tag rs) v)
  | Optional =>
      (payloads tag rs = [] /\ slot = []) \/
      (payloads tag rs <> [] /\ exists v, slot = [v] /\ value_says d t (payloads tag rs) v)
  end.
Definition message_says (d : nat) (fs : list field) (rs : list (Z * payload)) (slots : list (list value)) : Prop :=
  Forall2 (fun f slot => field_says d f rs slot) fs slots.

(** ** Values of a type *)

Definition scalar_conforms (s : scalar) (v : value) : Prop :=
  match s, v with
  | Uint32, Num z => 0 <= z < 2 ^ 32
  | Uint64, Num z => 0 <= z < 2 ^ 64
  | (Int32 | Enum _), Num z => - 2 ^ 31 <= z < 2 ^ 31
  | Boolean, Num z => z = 0 \/ z = 1
  | Double, Str l => length l = 8%nat /\ Forall is_byte l
  | Text, Str l => utf8_text l
  | Bytes, Str l => Forall is_byte l
  | _, _ => False
  end.
Definition count_conforms {A} (lab : label) (l : list A) : Prop :=
  match lab with Required => length l = 1%nat | Optional => (length l <= 1)%nat | Repeated => True end.
Inductive conforms : ftype -> value -> Prop :=
| conforms_scalar s v : scalar_conforms s v -> conforms (Scalar s) v
| conforms_message fs slots :
    Forall2 (fun (f : field) slot => count_conforms (snd (fst f)) slot /\ Forall (conforms (snd f)) slot) fs slots ->
    conforms (Message fs) (Msg slots).

(** A type of messages: different numbers, and messages in it not deeper than [d]. *)
Inductive type_ok : nat -> ftype -> Prop :=
| type_scalar d s : (forall n, s = Enum n -> - 2 ^ 31 <= n < 2 ^ 31) -> type_ok d (Scalar s)
| type_message d fs : fields_ok d fs -> type_ok (S d) (Message fs)
with fields_ok : nat -> list field -> Prop :=
| fields_none d : fields_ok d []
| fields_more d tag lab t fs : 1 <= tag < 2 ^ 29 -> ~ In tag (map (fun f => fst (fst f)) fs) ->
    (lab = Repeated -> exists fs, t = Message fs) -> type_ok d t -> fields_ok d fs -> fields_ok d ((tag, lab, t) :: fs).

(** ** What is written *)

(** The encoding of a value: exactly this number, where a negative one is taken in 64 bits. *)
Definition scalar_written (s : scalar) (v : value) (p : payload) : Prop :=
  match s, v, p with
  | (Uint32 | Uint64 | Boolean), Num z, PVarint x => x = z
  | (Int32 | Enum _), Num z, PVarint x => x = if z <? 0 then z + 2 ^ 64 else z
  | Double, Str l, P64 l' => l' = l
  | (Text | Bytes), Str l, PLen l' => l' = l
  | _, _, _ => False
  end.
(** Each value that is there once, in the order of the fields of the type, and nothing else. *)
Inductive value_written : ftype -> value -> payload -> Prop :=
| written_scalar s v p : scalar_written s v p -> value_written (Scalar s) v p
| written_message fs slots body rs : wire 1 body rs -> fields_written fs slots rs ->
    value_written (Message fs) (Msg slots) (PLen body)
with fields_written : list field -> list (list value) -> list (Z * payload) -> Prop :=
| written_none : fields_written [] [] []
| written_more tag lab t fs slot slots ps rs : Forall2 (value_written t) slot ps -> fields_written fs slots rs ->
    fields_written ((tag, lab, t) :: fs) (slot :: slots) (map (fun p => (tag, p)) ps ++ rs).

(** ** The packets of the programs *)

(** A number and a string that have to be there, and a number and a string that may be there. *)
Definition number_field (d : nat) (rs : list (Z * payload)) (tag : Z) (s : scalar) (z : Z) : Prop :=
  field_says d (tag, Required, Scalar s) rs [Num z].
Definition bytes_field (d : nat) (rs : list (Z * payload)) (tag : Z) (l : list Z) : Prop :=
  field_says d (tag, Required, Scalar Bytes) rs [Str l].
Definition number_option (d : nat) (rs : list (Z * payload)) (tag : Z) (o : option Z) : Prop :=
  field_says d (tag, Optional, Scalar Uint32) rs (match o with Some z => [Num z] | None => [] end).
Definition bytes_option (d : nat) (rs : list (Z * payload)) (tag : Z) (o : option (list Z)) : Prop :=
  field_says d (tag, Optional, Scalar Bytes) rs (match o with Some l => [Str l] | None => [] end).

(** The fields of a Galileo INAV word. *)
Definition inav_says (d : nat) (rs : list (Z * payload)) (p : galileo_inav) : Prop :=
  number_field d rs 1 Uint32 (p_wn p) /\ number_field d rs 2 Uint32 (p_tow p) /\
  number_field d rs 3 Uint32 (p_id p) /\ number_field d rs 4 Uint32 (p_sv p) /\
  bytes_field d rs 5 (p_contents p) /\ number_option d rs 6 (p_sigid p) /\
  bytes_option d rs 7 (p_reserved1 p) /\ bytes_option d rs 8 (p_reserved2 p) /\
  bytes_option d rs 9 (p_sar p) /\ bytes_option d rs 10 (p_spare p) /\
  bytes_option d rs 11 (p_crc p) /\ number_option d rs 12 (p_ssp p).

(** The fields of a packet that are used; the word is field 5. *)
Definition packet_says (s : list Z) (m : message) : Prop :=
  exists rs, wire 100 s rs /\
    number_field 100 rs 1 Uint64 (m_source_id m) /\ number_field 100 rs 2 (Enum 1) (m_type m) /\
    number_field 100 rs 3 Uint64 (m_utc_seconds m) /\ number_field 100 rs 4 Uint64 (m_utc_nanoseconds m) /\
    match m_gi m with
    | None => payloads 5 rs = []
    | Some p => exists bodies rss, bodies <> [] /\ payloads 5 rs = map PLen bodies /\
        Forall2 (wire 99) bodies rss /\ inav_says 99 (concat rss) p
    end.

(** The message of the programs has the values of its types. *)
Definition message_fits (m : message) : Prop :=
  0 <= m_source_id m < 2 ^ 64 /\ - 2 ^ 31 <= m_type m < 2 ^ 31 /\ 0 <= m_utc_seconds m < 2 ^ 64 /\
  0 <= m_utc_nanoseconds m < 2 ^ 64 /\
  forall p, m_gi m = Some p ->
    0 <= p_wn p < 2 ^ 32 /\ 0 <= p_tow p < 2 ^ 32 /\ 0 <= p_id p < 2 ^ 32 /\ 0 <= p_sv p < 2 ^ 32 /\
    (forall n, p_sigid p = Some n \/ p_ssp p = Some n -> 0 <= n < 2 ^ 32) /\
    Forall is_byte (p_contents p) /\
    forall l, In (Some l) [p_reserved1 p; p_reserved2 p; p_sar p; p_spare p; p_crc p] -> Forall is_byte l.

(** The TESLA computations as written in the OSNMA ICD, over bits, bytes and absolute time. *)
From Coq Require Import ZArith List Bool.
From Verif Require Import Model.Prelude Model.Params Model.Bitfields Model.Tesla Spec.TimeSpec Model.Gst.
Import ListNotations.
Open Scope Z_scope.

(** [v] written with [n] bits, most significant first. *)
Fixpoint be (n : nat) (v : Z) : list bool :=
  match n with
  | O => []
  | S n' => be n' (v / 2) ++ [Z.odd v]
  end.

(** [m] is the list of bytes with these bits, filled with less than 8 zeros at the end. *)
Definition encodes (m : list Z) (bits : list bool) : Prop :=
  Forall is_byte m /\ exists z, (z < 8)%nat /\ bits_of_bytes m = bits ++ repeat false z.

(** The GST field: week number modulo 4096 (12 bits) and time of week (20 bits), of the time
    [t] in seconds since week 0. *)
Definition gst_field (t : Z) : list bool := be 12 (t / 604800) ++ be 20 (t mod 604800).

(** Code of the NMA status. *)
Definition nmas_code (s : nma_status_t) : Z :=
  match s with NmaReserved => 0 | NmaTest => 1 | NmaOperational => 2 | NmaDontUse => 3 end.

(** The message authenticated by a tag.  Tag 0 authenticates the transmitting satellite and
    does not include its number twice; other tags start with the number of the satellite
    that they authenticate. *)
Definition tag_bits (which : option Z) (prna t ctr : Z) (s : nma_status_t) (navdata : list bool)
  : list bool :=
  match which with Some prnd => be 8 prnd | None => [] end
  ++ be 8 prna ++ gst_field t ++ be 8 ctr ++ be 2 (nmas_code s) ++ navdata.

Section Crypto.
Context {C : crypto}.

Definition hash_of (h : hash_fn) (m : list Z) : list Z :=
  match h with HashSha256 => sha256 m | HashSha3_256 => sha3_256 m end.
Definition mac_of_fn (f : mac_fn) (key m : list Z) : list Z :=
  match f with MacHmacSha256 => hmac_sha256 key m | MacCmacAes => cmac_aes128 key m end.

(** [tag] is the truncated MAC of a bit string. *)
Definition tag_of (f : mac_fn) (key : list Z) (bits tag : list bool) : Prop :=
  exists m, encodes m bits /\ tag = firstn (length tag) (bits_of_bytes (mac_of_fn f key m)).

(** The key before [key], which is the one disclosed 30 s before [t]: the hash of the key, the
    time of the earlier subframe and alpha (48 bits), truncated to the size of the key. *)
Definition previous_key (c : chain) (key : list Z) (t : Z) (key' : list Z) : Prop :=
  exists m, encodes m (bits_of_bytes key ++ gst_field (t - 30) ++ be 48 (ch_alpha c)) /\
            key' = firstn (ch_key_bytes c) (hash_of (ch_hash c) m).

(** [n] subframes before. *)
Fixpoint key_before (c : chain) (n : nat) (key : list Z) (t : Z) (key0 : list Z) : Prop :=
  match n with
  | O => key0 = key
  | S n' => exists key', previous_key c key t key' /\ key_before c n' key' (t - 30) key0
  end.

End Crypto.

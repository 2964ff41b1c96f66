(** Parameters of the model: compile-time choices, storage sizes and the interface of
    the cryptographic crates. *)
From Coq Require Import ZArith List Bool.
From Verif Require Import Model.Prelude.
Import ListNotations.
Open Scope Z_scope.

(** Compile-time choices: whether integer overflow panics (debug profile) or wraps
    (release profile), and the Cargo feature [p521] (galileo-osnma/Cargo.toml). *)
Class build : Type := {
  overflow_checks : bool;
  feature_p521 : bool
}.

(** [trait StaticStorage], storage.rs:66-98. *)
Class storage : Type := {
  num_sats : nat;
  nav_depth : nat;
  nav_depth_sats : nat;
  mack_depth : nat;
  mack_depth_sats : nat
}.

(** The consistency rules for [StaticStorage] given in its documentation
    (storage.rs:59-98), which the type system does not check. *)
Definition storage_ok (S : storage) : Prop :=
  (0 < num_sats)%nat /\ (0 < nav_depth)%nat /\ (0 < mack_depth)%nat /\
  nav_depth_sats = (num_sats * nav_depth)%nat /\
  mack_depth_sats = (num_sats * mack_depth)%nat.

(** [FullStorage], storage.rs:106-114. *)
Definition full_storage : storage := {|
  num_sats := 36; nav_depth := 13; nav_depth_sats := 468;
  mack_depth := 12; mack_depth_sats := 432 |}.

(** [SmallStorage], storage.rs:123-131. *)
Definition small_storage : storage := {|
  num_sats := 12; nav_depth := 3; nav_depth_sats := 36;
  mack_depth := 2; mack_depth_sats := 24 |}.

(** Interface of the external crates sha2, sha3, hmac, cmac, aes, p256, p521, ecdsa.
    [p256_sig_parses] says whether [ecdsa::Signature::from_bytes] accepts the 64
    bytes (it rejects scalars that are zero or not smaller than the group order). *)
Class crypto : Type := {
  sha256 : list Z -> list Z;
  sha3_256 : list Z -> list Z;
  hmac_sha256 : list Z -> list Z -> list Z;    (* key, message *)
  cmac_aes128 : list Z -> list Z -> list Z;    (* key, message *)
  vk256 : Type;
  vk521 : Type;
  p256_from_sec1 : list Z -> option vk256;
  p521_from_sec1 : list Z -> option vk521;
  p256_sig_parses : list Z -> bool;
  p521_sig_parses : list Z -> bool;
  p256_verify : vk256 -> list Z -> list Z -> bool;   (* key, message, signature *)
  p521_verify : vk521 -> list Z -> list Z -> bool
}.

Definition is_byte (b : Z) : Prop := 0 <= b < 256.
Definition bytes_ok (n : nat) (l : list Z) : Prop := length l = n /\ Forall is_byte l.

(** The only facts assumed about the primitives: their output sizes. *)
Definition crypto_ok (C : crypto) : Prop :=
  (forall m, bytes_ok 32 (sha256 m)) /\
  (forall m, bytes_ok 32 (sha3_256 m)) /\
  (forall k m, bytes_ok 32 (hmac_sha256 k m)) /\
  (forall k m, bytes_ok 16 (cmac_aes128 k m)).

(** [enum VerifyingKey], types.rs: a P-256 or (feature p521) P-521 key. *)
Inductive verifying_key {C : crypto} : Type :=
| VkP256 (k : vk256)
| VkP521 (k : vk521).

(** [enum InavBand], types.rs. *)
Inductive band : Type := E1B | E5B.

(** [NUM_SVNS], types.rs. *)
Definition num_svns : nat := 36.

(** Keys that a receiver holds, and the messages that may change them. *)
From Coq Require Import ZArith List Bool.
From Verif Require Import Model.Prelude Model.Params Model.Gst Model.Bitfields Model.Tesla Model.Merkle
  Model.Dsm Model.Osnma
  Spec.TimeSpec Spec.TeslaSpec Spec.KrootSpec Spec.MerkleSpec.
Import ListNotations.
Open Scope Z_scope.

(** A TESLA key in the key store, and the id of its chain. *)
Definition held (ks : key_store) (k : tkey) : Prop := ks_k0 ks = Some k \/ ks_k1 ks = Some k.
Definition chain_of (k : tkey) : Z := ch_id (k_chain k).

(** The fields of the NMA header, a byte: two bits of status, two bits for the id of the chain
    in force, three bits of chain and public key status (CPKS). *)
Definition header_status (hd : Z) : Z := hd / 64.
Definition header_chain (hd : Z) : Z := hd / 16 mod 4.
Definition header_cpks (hd : Z) : Z := hd / 2 mod 8.
Definition status_dont_use : Z := 3.
Definition cpks_chain_revoked : Z := 3.
Definition cpks_public_key_revoked : Z := 5.
Definition cpks_alert : Z := 7.

Section Crypto.
Context {C : crypto} {B : build} {S : storage}.

(** A public key in the public key store. *)
Definition held_pub (ps : pubkey_store) (pk : public_key) : Prop :=
  ps_current ps = Some pk \/ ps_next ps = Some pk.

(** The receiver holds nothing that data could be authenticated with. *)
Definition no_trust (o : osnma) : Prop :=
  o_merkle o = None /\ (forall pk, ~ held_pub (o_pub o) pk) /\ (forall k, ~ held (o_keys o) k).

(** The Merkle tree root, the public keys, the TESLA keys and the chain in force are the same. *)
Definition same_trust (o o' : osnma) : Prop :=
  o_merkle o' = o_merkle o /\ o_pub o' = o_pub o /\ o_keys o' = o_keys o.

(** The Merkle tree root, the public keys and the chain in force are the same, and of each TESLA
    chain there is the same key or a later one of the same chain. *)
Definition keys_advanced (o o' : osnma) : Prop :=
  o_merkle o' = o_merkle o /\ o_pub o' = o_pub o /\ ks_cif (o_keys o') = ks_cif (o_keys o) /\
  (forall k', held (o_keys o') k' -> exists k, held (o_keys o) k /\ k_chain k' = k_chain k /\
     time_of (k_gst k) <= time_of (k_gst k')) /\
  (forall k, held (o_keys o) k -> exists k', held (o_keys o') k' /\ k_chain k' = k_chain k).

(** The DSM-KROOT [d], received with the NMA header [hd], verifies with the held public key
    [pk], whose id it names. *)
Definition kroot_verifies (o : osnma) (d : list Z) (hd : Z) (f : kroot_fields) (pk : public_key) : Prop :=
  kroot_layout d f /\ held_pub (o_pub o) pk /\ pk_id pk = kf_pkid f /\ kroot_verified hd f (pk_key pk).

(** The DSM-PKR [d] leads to the Merkle tree root that is held. *)
Definition pkr_verifies (o : osnma) (d : list Z) (f : pkr_fields) : Prop :=
  exists root, o_merkle o = Some root /\ pkr_layout d f /\ sha256 (path_input f 4) = root.

(** The message verifies. *)
Definition dsm_verifies (o : osnma) (d : dsm) (hd : Z) : Prop :=
  match dm_type d with
  | DsmKroot => exists f pk, kroot_verifies o (dm_data d) hd f pk
  | DsmPkr => exists f, pkr_verifies o (dm_data d) f
  end.

End Crypto.

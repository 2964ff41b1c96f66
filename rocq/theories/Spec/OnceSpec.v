(** Counting each tag once. *)
From Coq Require Import ZArith List Bool.
From Verif Require Import Model.Prelude Model.Params Model.Gst Model.Bitfields Model.Tesla Model.Merkle
  Model.Nav Model.Osnma Spec.TimeSpec Spec.NavSpec Spec.TeslaSpec Spec.KrootSpec Spec.SystemSpec Spec.KeySpec.
Import ListNotations.
Open Scope Z_scope.

(** Which tag: the chain that it was made with, the satellite and the subframe it was sent in,
    its ADKD and its position in the MACK message. *)
Record tag_id : Type := mkTagId {
  ti_chain : Z; ti_sat : Z; ti_gst : gst; ti_adkd : Z; ti_pos : nat }.

Section Crypto.
Context {C : crypto} {B : build} {S : storage}.

(** The tag [i] was received and verified for the data at some point of the history, and its
    bits are [tag]. *)
Definition tag_verified (root : option (list Z)) (user : option public_key) (only_slow : bool)
    (h : list op) (k : nav_kind) (svn : Z) (bits : list bool) (i : tag_id) (tag : list bool) : Prop :=
  exists h1 h2 delay cop gn key hkroot mack, h = h1 ++ h2 /\
    verified_by root user h1 k svn bits tag (ti_adkd i) delay cop (ti_sat i) gn (ti_gst i) key /\
    (only_slow = true -> ti_adkd i = 12) /\ chain_of key = ti_chain i /\
    subframe_received h1 (ti_sat i) (ti_gst i) hkroot mack /\
    tag_at (k_chain key) (key_bytes key) (ti_sat i) (time_of (ti_gst i)) (status_of hkroot) mack
           svn (ti_adkd i) cop bits tag (ti_pos i).

(** Data with [n] authentication bits: the bits are those of different tags. *)
Definition authenticated_once (root : option (list Z)) (user : option public_key) (only_slow : bool)
    (h : list op) (k : nav_kind) (svn : Z) (bits : list bool) (n : Z) : Prop :=
  40 <= n /\ exists tags : list (tag_id * list bool),
    n = Z.min 65535 (Z.of_nat (length (concat (map snd tags)))) /\ NoDup (map fst tags) /\
    forall i tag, In (i, tag) tags -> tag_verified root user only_slow h k svn bits i tag.

(** No chain of which the receiver had a key, and then had none any more, is taken up again
    (from its KROOT). *)
Definition no_chain_returns (root : option (list Z)) (user : option public_key) (only_slow : bool)
    (h : list op) : Prop :=
  forall h1 h2 h3 h4 o1 o2 o3 k1 k3, h = h1 ++ h2 ++ h3 ++ h4 ->
    run (osnma_new root user only_slow) h1 = Ok o1 ->
    run (osnma_new root user only_slow) (h1 ++ h2) = Ok o2 ->
    run (osnma_new root user only_slow) (h1 ++ h2 ++ h3) = Ok o3 ->
    held (o_keys o1) k1 -> held (o_keys o3) k3 -> chain_of k3 = chain_of k1 ->
    exists k2, held (o_keys o2) k2 /\ chain_of k2 = chain_of k1.

(** A DSM-KROOT with these fields was received, and an NMA header with which it verifies with a
    trusted public key. *)
Definition signed_kroot (root : option (list Z)) (user : option public_key) (h : list op)
    (f : kroot_fields) (hd : Z) : Prop :=
  exists id d svn g hkroot mack pk, id < 12 /\ dsm_received h id d /\ kroot_layout d f /\
    subframe_received h svn g hkroot mack /\ hd = nth 0 hkroot 0 /\
    trusted_pubkey root user h pk /\ pk_id pk = kf_pkid f /\ kroot_verified hd f (pk_key pk).

(** All these DSM-KROOTs are of the chains [a] and [b], and revoke nothing. *)
Definition only_two_chains (root : option (list Z)) (user : option public_key) (h : list op) (a b : Z) : Prop :=
  forall f hd, signed_kroot root user h f hd ->
    (kf_cid f = a \/ kf_cid f = b) /\
    ~ (header_status hd = status_dont_use /\
       (header_cpks hd = cpks_chain_revoked \/ header_cpks hd = cpks_public_key_revoked)).

End Crypto.

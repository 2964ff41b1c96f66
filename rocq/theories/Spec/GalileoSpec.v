(** What the Galileo system has done with its secrets, and what it means that somebody else has
    forged something. *)
From Coq Require Import ZArith List Bool.
From Verif Require Import Model.Prelude Model.Params Model.Gst Model.Bitfields Model.Tesla Model.Merkle
  Model.Nav Model.Osnma
  Spec.TimeSpec Spec.CollectSpec Spec.NavSpec Spec.TeslaSpec Spec.KrootSpec Spec.MerkleSpec Spec.SystemSpec.
Import ListNotations.
Open Scope Z_scope.

Section Crypto.
Context {C : crypto} {B : build}.

(** The leaves of its Merkle tree, its public keys, which messages it has signed with each of
    them, the key of each of its chains for the subframe that starts at each time, and for which
    bit strings it has made a tag with each of these keys. *)
Record galileo : Type := mkGal {
  gal_leaves : list (list Z);
  gal_pub : verifying_key -> Prop;
  gal_signs : verifying_key -> list Z -> bool;
  gal_key : chain -> Z -> list Z;
  gal_macs : chain -> Z -> list bool -> bool
}.

(** The public keys in the tree are its own, and it only signs its own root keys. *)
Record galileo_ok (G : galileo) : Prop := {
  go_p256 : forall id key k, 0 <= id < 16 -> In ((16 * 1 + id) :: key) (gal_leaves G) ->
    p256_from_sec1 key = Some k -> gal_pub G (VkP256 k);
  go_p521 : forall id key k, 0 <= id < 16 -> In ((16 * 3 + id) :: key) (gal_leaves G) ->
    p521_from_sec1 key = Some k -> gal_pub G (VkP521 k);
  go_root : forall pk m header d f kr, gal_pub G pk -> gal_signs G pk m = true ->
    is_byte header -> kroot_layout d f -> kroot_signed header f m -> kroot_key f kr ->
    key_bytes kr = gal_key G (k_chain kr) (time_of (k_gst kr))
}.

(** The receiver was given things of the system. *)
Definition configured (G : galileo) (root : option (list Z)) (user : option public_key) : Prop :=
  (forall r, root = Some r -> r = tree_root (gal_leaves G)) /\
  (forall pk, user = Some pk -> gal_pub G (pk_key pk)).

(** ** Forgeries *)

(** A signature that verifies with a public key of the system was received, in a DSM-KROOT, of
    a message that the system did not sign. *)
Definition signature_forged (G : galileo) (h : list op) : Prop :=
  exists id d f pk svn g hkroot mack m,
    dsm_received h id d /\ kroot_layout d f /\ subframe_received h svn g hkroot mack /\ gal_pub G pk /\
    kroot_signed (nth 0 hkroot 0) f m /\
    match pk with
    | VkP256 k => p256_verify k m (kf_sig f) = true
    | VkP521 k => p521_verify k m (kf_sig f) = true
    end /\
    gal_signs G pk m = false.

(** A DSM-PKR was received that makes known a collision of SHA-256. *)
Definition merkle_forged (G : galileo) (h : list op) : Prop :=
  exists id d f, dsm_received h id d /\ pkr_layout d f /\ collision_found (gal_leaves G) f.

(** From [key] one computes, by applications of the one-way function, a key of some subframe [t]
    that is not the one of the system although it leads to the system's key of the subframe
    before: a second preimage. *)
Definition second_preimage (G : galileo) (key : tkey) : Prop :=
  let c := k_chain key in
  exists n other t, t = time_of (k_gst key) - 30 * Z.of_nat n /\
    key_before c n (key_bytes key) (time_of (k_gst key)) other /\
    previous_key c other t (gal_key G c (t - 30)) /\ other <> gal_key G c t.

(** Such a key was received. *)
Definition key_forged (G : galileo) (h : list op) : Prop :=
  exists key svn hkroot mack, subframe_received h svn (k_gst key) hkroot mack /\ key_in_mack mack key /\
    second_preimage G key.

(** What tag number [j] of a MACK message authenticates. *)
Definition tag_message (j : nat) (svn prna t : Z) (s : nma_status_t) (bits : list bool) : list bool :=
  match j with
  | O => tag_bits None prna t 1 s bits
  | _ => tag_bits (Some svn) prna t (Z.of_nat j + 1) s bits
  end.

(** [tag] was received, in the words of the subframe [g], and is right for the data [bits] of
    the satellite, but the system did not make a tag for it.  The key is disclosed by the system
    only in a later subframe. *)
Definition tag_forged (G : galileo) (h : list op) (svn : Z) (bits tag : list bool) : Prop :=
  exists c j prna g hkroot mack delay, 30 <= delay /\
    subframe_received h prna g hkroot mack /\
    let ts := ch_tag_bits c in
    ((ts + 16) * (j + 1) + 8 * ch_key_bytes c <= 480)%nat /\
    tag = sub ((ts + 16) * j) ((ts + 16) * j + ts) (bits_of_bytes mack) /\
    let m := tag_message j svn prna (time_of g) (status_of hkroot) bits in
    tag_of (ch_mac c) (gal_key G c (time_of g + delay)) m tag /\
    gal_macs G c (time_of g + delay) m = false.

(** A key that is not one of the system is accepted only after one of these. *)
Definition key_forgery (G : galileo) (h : list op) : Prop :=
  signature_forged G h \/ merkle_forged G h \/ key_forged G h.

(** ** Genuine data *)

(** The system has made a tag for the data of the satellite, for a subframe that starts at [t],
    with status Test or Operational, and with the key for an ADKD of this kind of data, which is
    the key of the subframe of a call of [h].  Tag 0 is only for the CED of the satellite that
    sends it. *)
Definition made_by_system (G : galileo) (h : list op) (k : nav_kind) (svn : Z) (bits : list bool) : Prop :=
  exists c j prna t s adkd delay,
    adkd_means adkd k delay /\ (j = O -> adkd = 0 /\ svn = prna) /\ (s = NmaTest \/ s = NmaOperational) /\
    gal_macs G c (t + delay) (tag_message j svn prna t s bits) = true /\
    exists x, In x h /\ time_of (subframe_of (op_gst x)) = t + delay.

End Crypto.

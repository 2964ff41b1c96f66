(** A transmission by a Galileo system that follows the OSNMA ICD in nominal operation: one
    TESLA chain, its DSM-KROOTs, and the keys of the chain. *)
From Coq Require Import ZArith List Bool.
From Verif Require Import Model.Prelude Model.Params Model.Gst Model.Bitfields Model.Tesla Model.Merkle
  Model.Dsm Model.MackStore Model.Nav Model.Osnma
  Spec.TimeSpec Spec.CollectSpec Spec.NavSpec Spec.TeslaSpec Spec.KrootSpec Spec.MerkleSpec Spec.MacltSpec Spec.KeySpec
  Spec.SystemSpec Spec.StoredSpec Spec.CompleteSpec Spec.PanicSpec.
Import ListNotations.
Open Scope Z_scope.

(** A DSM-KROOT: its id, the NMA header that it is sent with, and the root key in it. *)
Record kroot_message : Type := mkKM {
  km_id : Z; km_header : Z; km_data : list Z; km_root : tkey
}.

(** What is transmitted: the parameters of the chain, its DSM-KROOTs (Galileo replaces the
    DSM-KROOT by one with a newer root key of the same chain from time to time), and the key of
    the chain for the subframe that starts at each time.  The transmission lasts [tr_length]
    subframes after the time [tr_start]. *)
Record transmission : Type := mkTr {
  tr_chain : chain; tr_kroots : list kroot_message; tr_start : Z; tr_key : Z -> list Z; tr_length : nat
}.

(** The key of the subframe [g], as the receiver keeps it: in 32 bytes. *)
Definition tr_tkey (t : transmission) (g : gst) : tkey :=
  mkKey (tr_key t (time_of g) ++ repeat 0 (32 - ch_key_bytes (tr_chain t))) (tr_chain t) g.

Section Crypto.
Context {C : crypto} {B : build}.

(** A DSM-KROOT of the transmission, which can be verified with the public key [pk]. *)
Record kroot_message_ok (pk : public_key) (t : transmission) (m : kroot_message) : Prop := {
  (** The status is Test or Operational, the chain in force is the one of the DSM-KROOT, and
      there is no alert. *)
  km_header_ok : is_byte (km_header m) /\
    (header_status (km_header m) = 1 \/ header_status (km_header m) = 2) /\
    header_chain (km_header m) = ch_id (tr_chain t) /\ header_cpks (km_header m) <> cpks_alert;
  (** It has the layout of the ICD, is signed with the key, and its root key is [km_root m].
      Week 0 is left out: the time of the root key could be negative. *)
  km_id_ok : 0 <= km_id m < 12;
  km_data_ok : Forall is_byte (km_data m) /\ exists f, kroot_layout (km_data m) f /\
    kf_pkid f = pk_id pk /\ kroot_verified (km_header m) f (pk_key pk) /\ kroot_key f (km_root m) /\
    1 <= kf_wn f /\ gst_ok (k_gst (km_root m));
  km_blocks_ok : exists n, blocks_needed (km_id m) (nth 0 (km_data m) 0) = Some n /\
    length (km_data m) = (13 * n)%nat;
  (** The root key is a key of the chain. *)
  km_root_ok : k_chain (km_root m) = tr_chain t /\
    exists n, (n <= tr_length t)%nat /\ time_of (k_gst (km_root m)) = tr_start t + 30 * Z.of_nat n /\
      key_bytes (km_root m) = tr_key t (time_of (k_gst (km_root m)))
}.

(** The transmission can be verified with the public key [pk]. *)
Record transmission_ok (pk : public_key) (t : transmission) : Prop := {
  (** Week 0 is left out. *)
  to_start : 604800 <= tr_start t;
  (** Different DSM-KROOTs have different ids. *)
  to_kroots : NoDup (map km_id (tr_kroots t)) /\ forall m, In m (tr_kroots t) -> kroot_message_ok pk t m;
  to_support : key_supported (pk_key pk);
  (** The MACK messages of the chain have room for the tags that its sequences name. *)
  to_chain : mac_fits (tr_chain t) /\ flx_fits (tr_chain t) (tr_chain t);
  (** The keys: each gives the one before. *)
  to_keys : forall n, (1 <= n <= tr_length t)%nat ->
      length (tr_key t (tr_start t + 30 * Z.of_nat n)) = ch_key_bytes (tr_chain t) /\
      Forall is_byte (tr_key t (tr_start t + 30 * Z.of_nat n)) /\
      previous_key (tr_chain t) (tr_key t (tr_start t + 30 * Z.of_nat n)) (tr_start t + 30 * Z.of_nat n)
                   (tr_key t (tr_start t + 30 * (Z.of_nat n - 1)))
}.

(** The HKROOT message has a block of the DSM-KROOT [m], with its header. *)
Definition has_block (m : kroot_message) (hkroot : list Z) : Prop :=
  nth 0 hkroot 0 = km_header m /\
  exists i, (13 * (i + 1) <= length (km_data m))%nat /\ nth 1 hkroot 0 = 16 * km_id m + Z.of_nat i /\
    skipn 2 hkroot = firstn 13 (skipn (13 * i) (km_data m)).

(** The messages of a subframe of the transmission: the HKROOT message has a block of a
    DSM-KROOT whose root key is in the past, or anything of a DSM-PKR; the MACK message has the
    key of the subframe.  The tags may be any. *)
Definition transmits (t : transmission) (hkroot mack : list Z) (g : gst) : Prop :=
  (12 <= nth 1 hkroot 0 / 16 \/
   exists m, In m (tr_kroots t) /\ has_block m hkroot /\ time_of (k_gst (km_root m)) < time_of g) /\
  (exists n, (1 <= n <= tr_length t)%nat /\ time_of g = tr_start t + 30 * Z.of_nat n) /\
  key_in_mack mack (tr_tkey t g).

(** All the subframes that the receiver completes are of the transmission. *)
Definition honest (t : transmission) (h : list op) : Prop :=
  forall h1 x h2 hkroot mack g, h = h1 ++ x :: h2 -> completes h1 x hkroot mack g ->
    transmits t hkroot mack g.

(** All the blocks of a DSM-KROOT have been received, without blocks of another DSM in
    between. *)
Definition kroot_received (t : transmission) (h : list op) : Prop :=
  exists m b1 b2 b3, In m (tr_kroots t) /\ blocks_received (osnma_words h) = b1 ++ b2 ++ b3 /\
    (forall b, In b b2 -> b_dsm b = km_id m) /\
    forall i, (13 * i < length (km_data m))%nat -> exists b, In b b2 /\ b_num b = Z.of_nat i.

(** The reception has no long gaps.  The receiver does not accept a key that is more than 3000
    subframes (25 hours) after the one that it has.  So each subframe received completely, once
    a DSM-KROOT has been received, is at most 25 hours after an earlier one of these subframes;
    or at most 25 hours after the root key of every DSM-KROOT that it has received a block of,
    as a receiver that has just started. *)
Definition no_long_gap (t : transmission) (received : list op -> Prop) (h : list op) : Prop :=
  forall p x q hkroot mack g, h = p ++ x :: q -> completes p x hkroot mack g -> received (p ++ [x]) ->
    (forall m b, In m (tr_kroots t) -> In b (blocks_received (osnma_words (p ++ [x]))) -> b_dsm b = km_id m ->
       time_of g <= time_of (k_gst (km_root m)) + 90000) \/
    exists p1 y p2 hkroot1 mack1 g1, p = p1 ++ y :: p2 /\ completes p1 y hkroot1 mack1 g1 /\
      received (p1 ++ [y]) /\ time_of g <= time_of g1 + 90000.

(** ** Receivers that start with a Merkle tree root *)

(** The public key that a DSM-PKR gives. *)
Definition pkr_key (f : pkr_fields) (pk : public_key) : Prop :=
  pf_npkid f = pk_id pk /\
  match pk_key pk with
  | VkP256 k => pf_npkt f = 1 /\ p256_from_sec1 (pf_key f) = Some k
  | VkP521 k => pf_npkt f = 3 /\ p521_from_sec1 (pf_key f) = Some k
  end.

(** A receiver started with [root] and [user] has the public key [pk] after these DSM blocks:
    it was started with it, or one of the blocks has completed a DSM-PKR that leads to the root
    and gives this key. *)
Definition key_known (root : option (list Z)) (user : option public_key) (pk : public_key) (bl : list block) : Prop :=
  user = Some pk \/
  exists r b1 b b2 id d f, root = Some r /\ bl = b1 ++ b :: b2 /\ expected_dsm b1 b = Some (id, true, d) /\
    pkr_layout d f /\ sha256 (path_input f 4) = r /\ pkr_key f pk.

(** The DSM-PKR messages completed by these DSM blocks have the layout of the ICD.  One that
    leads to the root is not an alert message, it gives a public key.  The first one gives
    [pk] if the receiver does not have this key from the start; later ones may give other
    keys. *)
Definition nominal_pkrs (root : option (list Z)) (user : option public_key) (pk : public_key) (bl : list block) : Prop :=
  forall r b1 b b2 id d, root = Some r -> bl = b1 ++ b :: b2 -> expected_dsm b1 b = Some (id, true, d) ->
  exists f, pkr_layout d f /\
    (sha256 (path_input f 4) = r -> exists pk', pkr_key f pk' /\ (pk' = pk \/ key_known root user pk b1)).

(** What the receiver starts with and receives is of the transmission. *)
Definition hears (root : option (list Z)) (user : option public_key) (pk : public_key) (t : transmission)
    (h : list op) : Prop :=
  honest t h /\ (user = None \/ user = Some pk) /\ nominal_pkrs root user pk (blocks_received (osnma_words h)).

(** As [kroot_received], after the receiver has the public key. *)
Definition kroot_received_then (root : option (list Z)) (user : option public_key) (pk : public_key)
    (t : transmission) (h : list op) : Prop :=
  exists m b1 b2 b3, In m (tr_kroots t) /\ blocks_received (osnma_words h) = b1 ++ b2 ++ b3 /\
    key_known root user pk b1 /\
    (forall b, In b b2 -> b_dsm b = km_id m) /\
    forall i, (13 * i < length (km_data m))%nat -> exists b, In b b2 /\ b_num b = Z.of_nat i.

(** ** Tags *)

(** The satellite [prna] sends, in the subframe [gm], a MACK message whose MACSEQ is right and
    with a [tag] for the data [bits] of [svn], whose key is disclosed [delay] seconds later. *)
Definition tag_transmitted (t : transmission) (hkroot mack : list Z) (prna : Z) (gm : gst) (delay : Z)
    (svn adkd cop : Z) (bits tag : list bool) : Prop :=
  (status_of hkroot = NmaTest \/ status_of hkroot = NmaOperational) /\
  mack_valid (tr_chain t) (tr_key t (time_of gm + 30)) prna (time_of gm) mack
             (8 * ch_key_bytes (tr_chain t)) (ch_tag_bits (tr_chain t)) /\
  tag_in_mack (tr_chain t) (tr_key t (time_of gm + delay)) prna (time_of gm) (status_of hkroot) mack
              svn adkd cop bits tag.

End Crypto.

(** The words [ws] give no other data than [bits] for the satellite [svn]. *)
Definition repeats (k : nav_kind) (svn : Z) (bits : list bool) (ws : list nword) : Prop :=
  forall w i f, In w ws -> nw_svn w = svn -> nth_error (icd_fields k) i = Some f -> carries k f w = true ->
    nw_bits w (f_from f) (f_to f) = field_bits k i bits.

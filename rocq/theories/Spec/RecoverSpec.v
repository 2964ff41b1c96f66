(** A receiver that has received anything before it receives a correct transmission. *)
From Coq Require Import ZArith List Bool.
From Verif Require Import Model.Prelude Model.Params Model.Gst Model.Bitfields Model.Tesla Model.Merkle
  Model.Dsm Model.MackStore Model.Nav Model.Osnma
  Spec.TimeSpec Spec.CollectSpec Spec.NavSpec Spec.TeslaSpec Spec.KrootSpec Spec.MerkleSpec Spec.KeySpec
  Spec.SystemSpec Spec.CompleteSpec Spec.PanicSpec Spec.HonestSpec.
Import ListNotations.
Open Scope Z_scope.

Section Crypto.
Context {C : crypto} {B : build} {S : storage}.

(** The calls [h0] may be anything.  All the subframes that are completed in the calls [q] that
    follow are of the transmission. *)
Definition honest_after (t : transmission) (h0 q : list op) : Prop :=
  forall p x q' hkroot mack g, q = p ++ x :: q' -> completes (h0 ++ p) x hkroot mack g ->
    transmits t hkroot mack g.

(** The DSM blocks received in [q]. *)
Definition blocks_after (h0 q : list op) : list block :=
  skipn (length (blocks_received (osnma_words h0))) (blocks_received (osnma_words (h0 ++ q))).

(** The first block received in [q] is not of the DSM of which the last block was received
    before. *)
Definition dsm_changes (h0 q : list op) : Prop :=
  forall b1 b c bl, blocks_received (osnma_words h0) = b1 ++ [b] -> blocks_after h0 q = c :: bl -> b_dsm b <> b_dsm c.

(** All the blocks of a DSM-KROOT of the transmission have been received in [q]. *)
Definition kroot_received_after (t : transmission) (h0 q : list op) : Prop :=
  exists m b1 b2 b3, In m (tr_kroots t) /\ blocks_after h0 q = b1 ++ b2 ++ b3 /\
    (forall b, In b b2 -> b_dsm b = km_id m) /\
    forall i, (13 * i < length (km_data m))%nat -> exists b, In b b2 /\ b_num b = Z.of_nat i.

(** No DSM-PKR received in [q] that leads to the Merkle tree root is an alert message. *)
Definition no_alert_after (root : option (list Z)) (h0 q : list op) : Prop :=
  forall r b1 b b2 id d f, root = Some r -> blocks_after h0 q = b1 ++ b :: b2 ->
    expected_dsm b1 b = Some (id, true, d) -> pkr_layout d f -> sha256 (path_input f 4) = r -> pf_npkt f <> 4.

(** A key of the transmission. *)
Definition of_transmission (t : transmission) (K : tkey) : Prop :=
  k_chain K = tr_chain t /\
  exists n, (n <= tr_length t)%nat /\ time_of (k_gst K) = tr_start t + 30 * Z.of_nat n /\
    key_bytes K = tr_key t (time_of (k_gst K)).

(** The receiver, started with the Merkle tree root [root], is in the state [o0] after the calls
    [h0], and then receives the transmission.  It has the public key [pk].  The key that it has
    of a chain with the id of the chain of the transmission, if any, is a key of the
    transmission and not of a later time.  It may have keys of other chains, and another chain may be
    in force. *)
Record prepared (pk : public_key) (t : transmission) (root : option (list Z)) (h0 : list op) (o0 : osnma)
    (q : list op) : Prop := {
  pr_pub : ps_current (o_pub o0) = Some pk;
  pr_keys : forall K, held (o_keys o0) K -> chain_of K = ch_id (tr_chain t) ->
    of_transmission t K /\ forall y, In y q -> time_of (k_gst K) <= time_of (subframe_of (op_gst y));
  pr_honest : honest_after t h0 q;
  pr_changes : dsm_changes h0 q;
  pr_alerts : no_alert_after root h0 q
}.

(** As [no_long_gap]: each subframe completed in [q], once a DSM-KROOT has been received, is at
    most 25 hours after an earlier one of these; or at most 25 hours after the root key of every
    DSM-KROOT that a block has been received of, and after the key of the chain that the
    receiver had before. *)
Definition no_long_gap_after (t : transmission) (h0 : list op) (o0 : osnma) (q : list op) : Prop :=
  forall p x q' hkroot mack g, q = p ++ x :: q' -> completes (h0 ++ p) x hkroot mack g ->
    kroot_received_after t h0 (p ++ [x]) ->
    ((forall m b, In m (tr_kroots t) -> In b (blocks_after h0 (p ++ [x])) -> b_dsm b = km_id m ->
        time_of g <= time_of (k_gst (km_root m)) + 90000) /\
     (forall K, held (o_keys o0) K -> chain_of K = ch_id (tr_chain t) -> time_of g <= time_of (k_gst K) + 90000)) \/
    exists p1 y p2 hkroot1 mack1 g1, p = p1 ++ y :: p2 /\ completes (h0 ++ p1) y hkroot1 mack1 g1 /\
      kroot_received_after t h0 (p1 ++ [y]) /\ time_of g <= time_of g1 + 90000.

(** The chain of the transmission and those of the keys held can be used, all of them with all
    (see Spec.PanicSpec). *)
Definition chains_usable (t : transmission) (o0 : osnma) : Prop :=
  forall c c', c = tr_chain t \/ (exists K, held (o_keys o0) K /\ k_chain K = c) ->
    c' = tr_chain t \/ (exists K, held (o_keys o0) K /\ k_chain K = c') -> mac_fits c /\ flx_fits c c'.

(** No DSM-PKR received in [q] makes the receiver panic. *)
Definition pkrs_sound_after (root : option (list Z)) (h0 q : list op) : Prop :=
  forall r b1 b b2 id d, root = Some r -> blocks_after h0 q = b1 ++ b :: b2 ->
    expected_dsm b1 b = Some (id, true, d) -> ~ pkr_panics r d.

End Crypto.

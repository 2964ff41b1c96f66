(** Tags that are shorter than 40 bits: how many of them make data authenticated. *)
From Coq Require Import ZArith List Bool.
From Verif Require Import Model.Prelude Model.Params Model.Gst Model.Bitfields Model.Tesla Model.Merkle
  Model.Dsm Model.MackStore Model.Nav Model.Osnma
  Spec.TimeSpec Spec.CollectSpec Spec.NavSpec Spec.TeslaSpec Spec.KrootSpec Spec.MerkleSpec Spec.MacltSpec Spec.KeySpec
  Spec.SystemSpec Spec.StoredSpec Spec.CompleteSpec Spec.PanicSpec Spec.HonestSpec.
Import ListNotations.
Open Scope Z_scope.

(** A tag is sent in the MACK message of a subframe of a satellite, at an index in it; its key
    is disclosed 30 or 330 seconds later. *)
Record sent_tag : Type := mkSent { st_subframe : gst; st_prna : Z; st_index : nat; st_delay : Z }.
Definition place (c : sent_tag) : gst * Z * nat := (st_subframe c, st_prna c, st_index c).
(** The time of the subframe that discloses its key. *)
Definition key_time (c : sent_tag) : Z := time_of (st_subframe c) + st_delay c.

Section Crypto.
Context {C : crypto} {S : storage}.

(** During the calls [h] a receiver gets all that it needs to verify the tag [c] with the data
    [bits] of the satellite [svn]:
    - all the words of the data, in the subframe before the one of the tag;
    - the complete subframe with the tag, whose MACK message is valid;
    - the complete subframe (of any satellite) that discloses the key of the tag; by then a
      DSM-KROOT has been received. *)
Definition tag_received (root : option (list Z)) (user : option public_key) (pk : public_key) (slow : bool)
    (t : transmission) (h : list op) (k : nav_kind) (svn : Z) (bits : list bool) (c : sent_tag) : Prop :=
  exists gn adkd cop tag hk1 mk1 hk2 mk2 g,
    time_of (st_subframe c) = time_of gn + 30 /\ adkd_means adkd k (st_delay c) /\ (slow = true -> adkd = 12) /\ 0 < cop < 16 /\
    (exists hA hN hR, h = hA ++ hN ++ hR /\
       (forall y, In y hN -> subframe_of (op_gst y) = gn) /\
       (forall y, In y hR -> time_of gn < time_of (subframe_of (op_gst y))) /\
       icd_data k (words_of svn (inav_words hN)) = Some bits) /\
    (exists p data gk q, h = p ++ FeedOsnma data (st_prna c) gk :: q /\
       completes p (FeedOsnma data (st_prna c) gk) hk1 mk1 (st_subframe c)) /\
    (status_of hk1 = NmaTest \/ status_of hk1 = NmaOperational) /\
    mack_valid (tr_chain t) (tr_key t (time_of (st_subframe c) + 30)) (st_prna c) (time_of (st_subframe c)) mk1
               (8 * ch_key_bytes (tr_chain t)) (ch_tag_bits (tr_chain t)) /\
    tag_at (tr_chain t) (tr_key t (key_time c)) (st_prna c) (time_of (st_subframe c)) (status_of hk1) mk1
           svn adkd cop bits tag (st_index c) /\
    time_of g = key_time c /\
    (exists p x q, h = p ++ x :: q /\ completes p x hk2 mk2 g /\ kroot_received_then root user pk t (p ++ [x])).

End Crypto.

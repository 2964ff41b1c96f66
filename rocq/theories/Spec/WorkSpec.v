(** The times that the receiver is told of: those of the calls, and those of the root keys. *)
From Coq Require Import ZArith List.
From Verif Require Import Model.Prelude Model.Params Model.Gst Model.Tesla Model.Merkle Model.Osnma Spec.TimeSpec Spec.SystemSpec.
Open Scope Z_scope.

(** No call of [h] is made for a time after [T], and no root key that the receiver has verified
    is the key of a subframe after [T]. *)
Definition not_after {C : crypto} (root : option (list Z)) (user : option public_key) (T : Z) (h : list op) : Prop :=
  (forall y, In y h -> time_of (op_gst y) <= T) /\
  (forall kr, verified_root root user h kr -> time_of (k_gst kr) <= T).

(** Two satellites whose words are received in turn. *)
From Coq Require Import ZArith List Bool.
From Verif Require Import Model.Params Model.Gst Model.Nav Spec.TimeSpec Spec.CollectSpec Spec.NavSpec Spec.SystemSpec Spec.StoredSpec.
Import ListNotations.
Open Scope Z_scope.

(** Among the words of the two satellites, no two words one after the other are of the same
    satellite.  (All the satellites send their words at the same time, so this is the usual
    order in which a receiver delivers them.) *)
Definition take_turns (a b : Z) (svns : list Z) : Prop :=
  forall l1 s l2, filter (fun s => (s =? a) || (s =? b)) svns <> l1 ++ s :: s :: l2.

(** All the entries of the current subframe are taken: by the satellites [sats] in this order,
    then by [z], of which the data is the oldest. *)
Definition full_with {S : storage} (k : nav_kind) (n : nav) (sats : list Z) (z : Z) : Prop :=
  exists front e, stored_row k n 0 = front ++ [e] /\ map e_svn front = map Some sats /\ e_svn e = Some z /\
    forall x, In x front -> oldest_word x <= oldest_word e.

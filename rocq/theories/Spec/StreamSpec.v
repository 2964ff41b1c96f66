(** Specification of what a stream of packets begins with, whatever comes after. *)
From Coq Require Import ZArith List Bool.
From Verif Require Import Model.Prelude Model.Transport.
Import ListNotations.
Open Scope Z_scope.

Section Codec.
Context {M : Type} {K : codec M}.

(** The stream starts with packets that can be decoded, with these messages. *)
Inductive starts_with : list Z -> list M -> Prop :=
| starts_none s : starts_with s []
| starts_more a b body m s ms : Z.of_nat (length body) = 256 * a + b -> decode body = Some m -> starts_with s ms ->
    starts_with ([98; 101; 114; 116; a; b] ++ body ++ s) (m :: ms).

(** These are all the messages before the end or the first error. *)
Definition all_messages (s : list Z) (ms : list M) : Prop :=
  starts_with s ms /\ forall m, ~ starts_with s (ms ++ [m]).

End Codec.

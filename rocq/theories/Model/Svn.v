(** Model of galileo-osnma/src/svn.rs. *)
From Coq Require Import ZArith List Bool.
From Verif Require Import Model.Prelude Model.Params.
Import ListNotations.
Open Scope Z_scope.

(** [struct Svn], svn.rs:26: a number; the constructors keep it in 1..=36. *)
Definition svn_ok (s : Z) : Prop := 1 <= s <= 36.

(** [Svn::try_from] for an integer type [t], svn.rs:42-64 (macro [impl_conv]).
    [max] is [<t>::try_from(NUM_SVNS)], 36 for every one of the twelve types. *)
Definition svn_try_from (value : Z) : option Z :=
  let max := Z.of_nat num_svns in
  if (1 <=? value) && (value <=? max) then Some value else None.

(** [From<Svn> for t], svn.rs:43-47. *)
Definition svn_into (s : Z) : Z := s.

(** [Svn::iter], svn.rs:33-38. *)
Definition svn_iter : list Z := map Z.of_nat (seq 1 num_svns).

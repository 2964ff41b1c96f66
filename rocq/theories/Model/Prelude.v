(** Common vocabulary of the model: panics, slices, bit strings.

    Nothing in this file models a function of the repository by itself; it gives the
    meaning of the Rust and bitvec primitives used by the modelled code. *)
From Coq Require Import ZArith List Bool.
Import ListNotations.
Open Scope Z_scope.

(** ** Panics *)

(** The result of running a Rust function: it returns a value, or panics. *)
Inductive outcome (A : Type) : Type :=
| Ok (a : A)
| Panic.
Arguments Ok {A} a.
Arguments Panic {A}.

Definition bind {A B} (x : outcome A) (f : A -> outcome B) : outcome B :=
  match x with
  | Ok a => f a
  | Panic => Panic
  end.

Declare Scope outcome_scope.
Delimit Scope outcome_scope with outcome.
Notation "x <- e ;; k" := (bind e (fun x => k))
  (at level 61, e at next level, right associativity) : outcome_scope.
Notation "' p <- e ;; k" := (bind e (fun p => k))
  (at level 61, p pattern, e at next level, right associativity) : outcome_scope.
Notation "e ;;; k" := (bind e (fun _ => k))
  (at level 61, right associativity) : outcome_scope.
Open Scope outcome_scope.

(** [assert!(b)] *)
Definition assert_ (b : bool) : outcome unit := if b then Ok tt else Panic.

(** [Option::unwrap], [Option::expect] *)
Definition unwrap {A} (x : option A) : outcome A :=
  match x with Some a => Ok a | None => Panic end.

(** Rust [Result<A, E>] *)
Inductive result (A E : Type) : Type :=
| ROk (a : A)
| RErr (e : E).
Arguments ROk {A E} a.
Arguments RErr {A E} e.

(** A loop over a list whose body may panic and updates a state. *)
Fixpoint fold_outcome {A S} (f : S -> A -> outcome S) (l : list A) (s : S) : outcome S :=
  match l with
  | [] => Ok s
  | x :: l' => s' <- f s x ;; fold_outcome f l' s'
  end.

(** ** Slices *)

(** [l[a..b]] where the bounds are known statically to be in range. *)
Definition sub {A} (a b : nat) (l : list A) : list A := firstn (b - a) (skipn a l).

(** [l[a..b]]: panics if [a > b] or [b > l.len()]. *)
Definition slice {A} (l : list A) (a b : nat) : outcome (list A) :=
  if (a <=? b)%nat && (b <=? length l)%nat then Ok (sub a b l) else Panic.

(** [l[i]]: panics if [i >= l.len()]. *)
Definition index {A} (l : list A) (i : nat) : outcome A := unwrap (nth_error l i).

(** Replacement of a stretch of [l] starting at [a], in range. *)
Definition put {A} (a : nat) (src l : list A) : list A :=
  firstn a l ++ src ++ skipn (a + length src) l.

(** [l[a..b].copy_from_slice(src)]: panics if the range is out of bounds or the
    lengths differ. *)
Definition copy_from {A} (l : list A) (a b : nat) (src : list A) : outcome (list A) :=
  if (a <=? b)%nat && (b <=? length l)%nat && (b - a =? length src)%nat
  then Ok (put a src l) else Panic.

(** [l[i] = v]: panics if out of bounds. *)
Definition set_index {A} (l : list A) (i : nat) (v : A) : outcome (list A) :=
  if (i <? length l)%nat then Ok (put i [v] l) else Panic.

(** [Iterator::find] *)
Definition find_first {A} (p : A -> bool) (l : list A) : option A := find p l.

(** [iter().enumerate().find_map(|(j, x)| if p(x) { Some(j) } else { None })] *)
Fixpoint position {A} (p : A -> bool) (l : list A) : option nat :=
  match l with
  | [] => None
  | x :: l' => if p x then Some 0%nat else option_map S (position p l')
  end.

(** [Iterator::max_by_key], as the index of the element.  When several elements are
    equally maximum, Rust returns the last one. *)
Fixpoint max_by_key_from {A} (f : A -> Z) (l : list A) (i best : nat) (k : Z) : nat :=
  match l with
  | [] => best
  | x :: l' => if k <=? f x then max_by_key_from f l' (S i) i (f x)
               else max_by_key_from f l' (S i) best k
  end.
Definition max_by_key {A} (f : A -> Z) (l : list A) : option nat :=
  match l with
  | [] => None
  | x :: l' => Some (max_by_key_from f l' 1 0 (f x))
  end.

(** ** Machine integers *)

(** Result of u16 arithmetic whose exact value is [v]: with overflow checks the
    program panics if it does not fit, without them it wraps. *)
Definition u16_arith (checks : bool) (v : Z) : outcome Z :=
  if (0 <=? v) && (v <? 65536) then Ok v
  else if checks then Panic else Ok (v mod 65536).

(** Same for i32. *)
Definition i32_arith (checks : bool) (v : Z) : outcome Z :=
  if (-2147483648 <=? v) && (v <? 2147483648) then Ok v
  else if checks then Panic else Ok ((v + 2147483648) mod 4294967296 - 2147483648).

(** [u8::saturating_add] and [u16::saturating_add] *)
Definition sat_add_u8 (a b : Z) : Z := Z.min 255 (a + b).
Definition sat_add_u16 (a b : Z) : Z := Z.min 65535 (a + b).

(** ** Bit strings: [BitSlice<u8, Msb0>] *)

Definition bits_of_byte (b : Z) : list bool :=
  [Z.testbit b 7; Z.testbit b 6; Z.testbit b 5; Z.testbit b 4;
   Z.testbit b 3; Z.testbit b 2; Z.testbit b 1; Z.testbit b 0].

(** [BitSlice::from_slice] *)
Definition bits_of_bytes (l : list Z) : list bool := flat_map bits_of_byte l.

(** [load_be]: the first bit is the most significant one. *)
Definition load_be (l : list bool) : Z := fold_left (fun a b => 2 * a + Z.b2z b) l 0.

(** [store_be] of [v] in a bit slice of length [n]: the [n] least significant bits of
    [v], most significant first. *)
Fixpoint store_be (n : nat) (v : Z) : list bool :=
  match n with
  | O => []
  | S n' => Z.testbit v (Z.of_nat n') :: store_be n' v
  end.

(** The bytes whose bits are the given ones (the length is a multiple of 8). *)
Fixpoint bytes_of_bits (l : list bool) : list Z :=
  match l with
  | b7 :: b6 :: b5 :: b4 :: b3 :: b2 :: b1 :: b0 :: l' =>
      load_be [b7; b6; b5; b4; b3; b2; b1; b0] :: bytes_of_bits l'
  | _ => []
  end.

(** Equality of bit slices (length and contents) and of byte slices. *)
Fixpoint list_eqb {A} (eqb : A -> A -> bool) (l1 l2 : list A) : bool :=
  match l1, l2 with
  | [], [] => true
  | x :: l1', y :: l2' => eqb x y && list_eqb eqb l1' l2'
  | _, _ => false
  end.
Definition bits_eqb : list bool -> list bool -> bool := list_eqb Bool.eqb.
Definition bytes_eqb : list Z -> list Z -> bool := list_eqb Z.eqb.

(** [bits()[a..b].load_be()] on a byte slice of dynamic length. *)
Definition bits_at (d : list Z) (a b : nat) : outcome Z :=
  s <- slice (bits_of_bytes d) a b ;; Ok (load_be s).

Definition option_eqb {A} (eqb : A -> A -> bool) (x y : option A) : bool :=
  match x, y with
  | Some a, Some b => eqb a b
  | None, None => true
  | _, _ => false
  end.

(** Arrays divided in rows of equal size. *)
From Coq Require Import ZArith List Bool Lia ZifyBool ZifyNat.
From Verif Require Import Model.Prelude Proofs.Base.
Import ListNotations.

Definition row {A} (s : nat) (l : list A) (i : nat) : list A := sub (i * s) ((i + 1) * s) l.

Section Rows.
Context {A : Type}.
Variables (s d : nat).

Lemma row_bounds (l : list A) i : length l = (s * d)%nat -> (i < d)%nat -> ((i + 1) * s <= length l)%nat.
Proof. intros -> H. nia. Qed.

Lemma row_slice (l : list A) i : length l = (s * d)%nat -> (i < d)%nat ->
  slice l (i * s) ((i + 1) * s) = Ok (row s l i).
Proof. intros Hl Hi. pose proof (row_bounds l i Hl Hi). rewrite slice_in by lia. reflexivity. Qed.

Lemma length_row (l : list A) i : length l = (s * d)%nat -> (i < d)%nat -> length (row s l i) = s.
Proof. intros Hl Hi. pose proof (row_bounds l i Hl Hi). unfold row. rewrite length_sub by lia. lia. Qed.

Lemma row_copy (l r : list A) i b : length l = (s * d)%nat -> (i < d)%nat -> length r = s ->
  b = ((i + 1) * s)%nat -> copy_from l (i * s) b r = Ok (put (i * s) r l).
Proof. intros Hl Hi Hr ->. pose proof (row_bounds l i Hl Hi). rewrite copy_from_in by lia. reflexivity. Qed.

Lemma length_put_row (l r : list A) i : length l = (s * d)%nat -> (i < d)%nat -> length r = s ->
  length (put (i * s) r l) = (s * d)%nat.
Proof. intros Hl Hi Hr. pose proof (row_bounds l i Hl Hi). rewrite length_put by lia. auto. Qed.

Lemma row_put (l r : list A) i j : length l = (s * d)%nat -> (i < d)%nat -> (j < d)%nat ->
  length r = s -> row s (put (i * s) r l) j = if (i =? j)%nat then r else row s l j.
Proof.
  intros Hl Hi Hj Hr. pose proof (row_bounds l i Hl Hi). pose proof (row_bounds l j Hl Hj).
  unfold row. destruct (i =? j)%nat eqn:E.
  - assert (i = j) by lia. subst j. apply sub_put_same; lia.
  - apply sub_put_other; try lia. assert (i < j \/ j < i)%nat as [K|K] by lia; [right|left]; nia.
Qed.

Lemma row_repeat (x : A) i : (i < d)%nat -> row s (repeat x (s * d)) i = repeat x s.
Proof.
  intros Hi. apply nth_error_ext. intros k. unfold row. rewrite nth_error_sub.
  assert (Hb : ((i + 1) * s <= s * d)%nat) by nia.
  destruct (k <? _)%nat eqn:E.
  - rewrite !nth_error_repeat by lia. reflexivity.
  - symmetry. apply nth_error_None. rewrite repeat_length. lia.
Qed.

(** All the elements are in some row. *)
Lemma row_in (l : list A) x : length l = (s * d)%nat -> In x l -> exists i, (i < d)%nat /\ In x (row s l i).
Proof.
  intros Hl Hx. apply In_nth_error in Hx. destruct Hx as (n & Hn).
  assert (n < length l)%nat by (apply nth_error_Some; congruence).
  assert (0 < s)%nat by (destruct s; lia).
  pose proof (Nat.div_mod n s ltac:(lia)). pose proof (Nat.mod_upper_bound n s ltac:(lia)).
  set (q := (n / s)%nat) in *. set (r := (n mod s)%nat) in *. clearbody q r.
  assert (Hq : (q < d)%nat) by nia.
  exists q. split; [exact Hq|]. apply nth_error_In with r. unfold row. rewrite nth_error_sub.
  replace (r <? (q + 1) * s - q * s)%nat with true by lia.
  rewrite <- Hn. f_equal. lia.
Qed.

Lemma in_row (l : list A) i x : In x (row s l i) -> In x l.
Proof. apply In_sub. Qed.

End Rows.

Lemma row_map {A B} (f : A -> B) s (l : list A) i : row s (map f l) i = map f (row s l i).
Proof. unfold row, sub. now rewrite skipn_map, firstn_map. Qed.

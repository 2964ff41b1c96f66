(** Circular buffers. *)
From Coq Require Import ZArith List Bool Lia ZifyBool ZifyNat.
Import ListNotations.

Lemma mod_inj d a b : (0 < d)%nat -> (a <= b < a + d)%nat -> (a mod d = b mod d)%nat -> a = b.
Proof.
  intros Hd H E.
  pose proof (Nat.div_mod a d ltac:(lia)). pose proof (Nat.div_mod b d ltac:(lia)).
  rewrite <- E in *. set (x := (a / d)%nat) in *. set (y := (b / d)%nat) in *.
  pose proof (Nat.mod_upper_bound a d ltac:(lia)). set (r := (a mod d)%nat) in *.
  clearbody x y r. assert (x = y) by nia. nia.
Qed.

Lemma mod_succ d a : (0 < d)%nat -> ((a mod d + 1) mod d = (a + 1) mod d)%nat.
Proof. intros H. rewrite Nat.add_mod_idemp_l by lia. reflexivity. Qed.

(** Back [j] steps. *)
Lemma mod_back d n j : (0 < d)%nat -> (j < d)%nat -> (j <= n)%nat ->
  ((d + n mod d - j) mod d = (n - j) mod d)%nat.
Proof.
  intros Hd Hj Hn. pose proof (Nat.div_mod n d ltac:(lia)) as E.
  pose proof (Nat.mod_upper_bound n d ltac:(lia)).
  set (q := (n / d)%nat) in *. set (r := (n mod d)%nat) in *. clearbody q r. subst n.
  destruct (Nat.le_gt_cases j r) as [H1|H1].
  - replace (d + r - j)%nat with ((r - j) + 1 * d)%nat by lia.
    replace (d * q + r - j)%nat with ((r - j) + q * d)%nat by lia.
    now rewrite !Nat.mod_add by lia.
  - destruct q as [|q]; [lia|].
    replace (d * S q + r - j)%nat with ((d + r - j) + q * d)%nat by lia.
    now rewrite Nat.mod_add by lia.
Qed.

Section Ring.
Context {X : Type}.
Variables (d : nat) (dflt : X).
Hypothesis Hd : (0 < d)%nat.

(** [gs] is the list of everything ever pushed, oldest first; the buffer keeps the last [d]
    elements, element number [a] at position [a mod d]. *)
Definition ring (gs : list X) (get : nat -> X) : Prop :=
  (forall a x, nth_error gs a = Some x -> (length gs <= a + d)%nat -> get (a mod d)%nat = x) /\
  (forall i, (length gs <= i < d)%nat -> get i = dflt).

Lemma ring_nil get : (forall i, (i < d)%nat -> get i = dflt) -> ring [] get.
Proof. intros H. split; [intros [|a]; discriminate|intros i Hi; apply H; lia]. Qed.

Lemma ring_push gs get get' x :
  ring gs get ->
  get' (length gs mod d)%nat = x ->
  (forall i, (i < d)%nat -> i <> (length gs mod d)%nat -> get' i = get i) ->
  ring (gs ++ [x]) get'.
Proof.
  intros (H1 & H2) Hx Ho. split.
  - intros a y Ha Hk. rewrite app_length in Hk. cbn [length] in Hk.
    destruct (Nat.lt_ge_cases a (length gs)) as [Hlt|Hge].
    + rewrite nth_error_app1 in Ha by lia.
      rewrite Ho; [apply H1; auto; lia|apply Nat.mod_upper_bound; lia|].
      intros E. apply mod_inj in E; lia.
    + rewrite nth_error_app2 in Ha by lia.
      destruct (a - length gs)%nat as [|k] eqn:E; cbn [nth_error] in Ha.
      * injection Ha as <-. replace a with (length gs) by lia. exact Hx.
      * destruct k; discriminate.
  - intros i Hi. rewrite app_length in Hi. cbn [length] in Hi.
    rewrite Ho; [apply H2; lia|lia|]. rewrite Nat.mod_small by lia. lia.
Qed.

Lemma ring_update gs get get' x y :
  ring (gs ++ [x]) get ->
  get' (length gs mod d)%nat = y ->
  (forall i, (i < d)%nat -> i <> (length gs mod d)%nat -> get' i = get i) ->
  ring (gs ++ [y]) get'.
Proof.
  intros (H1 & H2) Hx Ho. split.
  - intros a z Ha Hk. rewrite app_length in Hk. cbn [length] in Hk.
    destruct (Nat.lt_ge_cases a (length gs)) as [Hlt|Hge].
    + rewrite nth_error_app1 in Ha by lia.
      rewrite Ho; [|apply Nat.mod_upper_bound; lia|intros E; apply mod_inj in E; lia].
      apply H1; [rewrite nth_error_app1 by lia; auto|rewrite app_length; cbn [length]; lia].
    + rewrite nth_error_app2 in Ha by lia.
      destruct (a - length gs)%nat as [|k] eqn:E; cbn [nth_error] in Ha.
      * injection Ha as <-. replace a with (length gs) by lia. exact Hx.
      * destruct k; discriminate.
  - intros i Hi. rewrite app_length in Hi. cbn [length] in Hi.
    rewrite Ho; [apply H2; rewrite app_length; cbn [length]; lia|lia|].
    rewrite Nat.mod_small by lia. lia.
Qed.

(** Every position holds the default or one of the last [d] elements. *)
Lemma ring_get gs get i : ring gs get -> (i < d)%nat ->
  ((length gs <= i)%nat /\ get i = dflt) \/
  exists a, nth_error gs a = Some (get i) /\ (a mod d = i)%nat /\ (length gs <= a + d)%nat.
Proof.
  intros (H1 & H2) Hi. destruct (Nat.le_gt_cases (length gs) i) as [H|H]; [left; split; auto|right].
  (* the last a < length gs with a mod d = i *)
  set (n := length gs) in *.
  set (a := (i + d * ((n - 1 - i) / d))%nat).
  pose proof (Nat.div_mod (n - 1 - i) d ltac:(lia)) as E.
  pose proof (Nat.mod_upper_bound (n - 1 - i) d ltac:(lia)).
  assert (Hm : (a mod d = i)%nat).
  { unfold a. rewrite Nat.add_comm, Nat.mul_comm, Nat.add_comm. rewrite Nat.mod_add by lia.
    apply Nat.mod_small; lia. }
  assert (Ha : (a < n)%nat /\ (n <= a + d)%nat).
  { unfold a. set (q := ((n - 1 - i) / d)%nat) in *. set (r := ((n - 1 - i) mod d)%nat) in *.
    clearbody q r. lia. }
  destruct (nth_error gs a) as [x|] eqn:Ex; [|apply nth_error_None in Ex; fold n in Ex; lia].
  exists a. repeat split; try lia. rewrite Ex. f_equal. symmetry. rewrite <- Hm. apply H1; auto.
  fold n. lia.
Qed.

End Ring.

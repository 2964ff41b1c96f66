(** Lemmas about the vocabulary of Model/Prelude.v. *)
From Coq Require Import ZArith List Bool Lia ZifyBool ZifyNat.
From Verif Require Import Model.Prelude Model.Params.
Import ListNotations.
Open Scope Z_scope.

Ltac Zify.zify_post_hook ::= Z.div_mod_to_equations.

(** ** Outcomes *)

Lemma bind_ok {A B} (x : outcome A) (f : A -> outcome B) b :
  bind x f = Ok b <-> exists a, x = Ok a /\ f a = Ok b.
Proof.
  destruct x as [a|]; cbn; split.
  - intros H; exists a; auto.
  - intros (a' & E & H); injection E as <-; exact H.
  - discriminate.
  - intros (a' & E & H); discriminate.
Qed.

Lemma assert_ok b : assert_ b = Ok tt <-> b = true.
Proof. destruct b; cbn; split; congruence. Qed.

Lemma assert_ok' b u : assert_ b = Ok u <-> b = true.
Proof. destruct b, u; cbn; split; congruence. Qed.

Lemma unwrap_ok {A} (x : option A) a : unwrap x = Ok a <-> x = Some a.
Proof. destruct x; cbn; split; congruence. Qed.

Ltac bind_inv H :=
  let a := fresh "x" in let E := fresh "E" in
  apply bind_ok in H; destruct H as (a & E & H).

Lemma fold_outcome_app {A S} (f : S -> A -> outcome S) l1 l2 s :
  fold_outcome f (l1 ++ l2) s = (s' <- fold_outcome f l1 s ;; fold_outcome f l2 s').
Proof.
  revert s; induction l1 as [|x l1 IH]; intros s; cbn; [reflexivity|].
  destruct (f s x) as [s'|]; cbn; [apply IH | reflexivity].
Qed.

(** An invariant of a loop. *)
Lemma fold_outcome_inv {A S} (f : S -> A -> outcome S) (P : S -> Prop) l s s' :
  (forall s x s', In x l -> P s -> f s x = Ok s' -> P s') ->
  P s -> fold_outcome f l s = Ok s' -> P s'.
Proof.
  revert s; induction l as [|x l IH]; cbn; intros s Hstep HP H.
  - congruence.
  - bind_inv H. apply (IH x0); auto.
    + intros; eapply Hstep; eauto.
    + eapply Hstep; eauto.
Qed.

(** A loop that never panics. *)
Lemma fold_outcome_total {A S} (f : S -> A -> outcome S) (P : S -> Prop) l s :
  (forall s x, In x l -> P s -> exists s', f s x = Ok s' /\ P s') ->
  P s -> exists s', fold_outcome f l s = Ok s' /\ P s'.
Proof.
  revert s; induction l as [|x l IH]; cbn; intros s Hstep HP.
  - eauto.
  - destruct (Hstep s x (or_introl eq_refl) HP) as (s1 & E & HP1).
    rewrite E; cbn. apply IH; auto.
Qed.

(** ** Slices *)

Lemma length_sub {A} a b (l : list A) :
  (b <= length l)%nat -> length (sub a b l) = (b - a)%nat.
Proof. intros H; unfold sub. rewrite firstn_length, skipn_length. lia. Qed.

Lemma sub_full {A} (l : list A) : sub 0 (length l) l = l.
Proof. unfold sub; cbn. rewrite Nat.sub_0_r. apply firstn_all. Qed.

Lemma sub_0 {A} n (l : list A) : sub 0 n l = firstn n l.
Proof. unfold sub; cbn. now rewrite Nat.sub_0_r. Qed.

Lemma nth_error_firstn {A} (l : list A) n i :
  nth_error (firstn n l) i = if (i <? n)%nat then nth_error l i else None.
Proof.
  revert l i; induction n as [|n IH]; intros [|x l] [|i]; cbn [firstn nth_error]; auto;
    try (destruct (_ <? _)%nat; reflexivity).
  apply IH.
Qed.

Lemma nth_error_skipn {A} (l : list A) n i : nth_error (skipn n l) i = nth_error l (n + i).
Proof.
  revert l; induction n as [|n IH]; intros [|x l]; cbn; auto. now destruct i.
Qed.

Lemma nth_error_sub {A} a b (l : list A) i :
  nth_error (sub a b l) i = if (i <? b - a)%nat then nth_error l (a + i) else None.
Proof. unfold sub. now rewrite nth_error_firstn, nth_error_skipn. Qed.

Lemma nth_error_ext {A} (l1 l2 : list A) :
  (forall i, nth_error l1 i = nth_error l2 i) -> l1 = l2.
Proof.
  revert l2; induction l1 as [|x l1 IH]; intros [|y l2] H; auto.
  - specialize (H 0%nat); discriminate.
  - specialize (H 0%nat); discriminate.
  - f_equal. { specialize (H 0%nat); cbn in H; congruence. }
    apply IH. intros i. apply (H (S i)).
Qed.

Lemma slice_ok {A} (l : list A) a b s :
  slice l a b = Ok s <-> (a <= b)%nat /\ (b <= length l)%nat /\ s = sub a b l.
Proof.
  unfold slice. destruct (a <=? b)%nat eqn:E1; destruct (b <=? length l)%nat eqn:E2; cbn;
    split; intros H; try discriminate; try lia.
  - injection H as <-. repeat split; lia.
  - destruct H as (? & ? & ->). reflexivity.
Qed.

Lemma slice_in {A} (l : list A) a b :
  (a <= b)%nat -> (b <= length l)%nat -> slice l a b = Ok (sub a b l).
Proof. intros; apply slice_ok; auto. Qed.

Lemma index_ok {A} (l : list A) i x : index l i = Ok x <-> nth_error l i = Some x.
Proof. unfold index. apply unwrap_ok. Qed.

Lemma index_in {A} (l : list A) i : (i < length l)%nat -> exists x, index l i = Ok x.
Proof.
  intros H. apply nth_error_Some in H. unfold index. destruct (nth_error l i); [|congruence].
  cbn; eauto.
Qed.

Lemma length_put {A} a (src l : list A) :
  (a + length src <= length l)%nat -> length (put a src l) = length l.
Proof. intros H; unfold put. rewrite !app_length, firstn_length, skipn_length. lia. Qed.

Lemma nth_error_put {A} a (src l : list A) i :
  (a + length src <= length l)%nat ->
  nth_error (put a src l) i =
  if (a <=? i)%nat && (i <? a + length src)%nat then nth_error src (i - a) else nth_error l i.
Proof.
  intros H. unfold put.
  destruct (a <=? i)%nat eqn:E1; cbn [andb].
  - rewrite nth_error_app2 by (rewrite firstn_length; lia).
    rewrite firstn_length, Nat.min_l by lia.
    destruct (i <? a + length src)%nat eqn:E2.
    + rewrite nth_error_app1 by lia. reflexivity.
    + rewrite nth_error_app2 by lia. rewrite nth_error_skipn. f_equal; lia.
  - rewrite nth_error_app1 by (rewrite firstn_length; lia).
    rewrite nth_error_firstn. replace (i <? a)%nat with true by lia. reflexivity.
Qed.

Lemma sub_put_same {A} a b (src l : list A) :
  (a + length src <= length l)%nat -> b = (a + length src)%nat -> sub a b (put a src l) = src.
Proof.
  intros H ->. apply nth_error_ext; intros i.
  rewrite nth_error_sub, nth_error_put by lia.
  destruct (i <? a + length src - a)%nat eqn:E.
  - replace ((a <=? a + i)%nat && (a + i <? a + length src)%nat) with true by lia.
    f_equal; lia.
  - symmetry. apply nth_error_None. lia.
Qed.

Lemma sub_put_other {A} a b c (src l : list A) :
  (c + length src <= length l)%nat -> (b <= c \/ c + length src <= a)%nat ->
  sub a b (put c src l) = sub a b l.
Proof.
  intros H D. apply nth_error_ext; intros i.
  rewrite !nth_error_sub. destruct (i <? b - a)%nat eqn:E; auto.
  rewrite nth_error_put by lia.
  destruct ((c <=? a + i)%nat && (a + i <? c + length src)%nat) eqn:E2; auto. lia.
Qed.

Lemma put_same {A} a b (l : list A) :
  (a <= b)%nat -> (b <= length l)%nat -> put a (sub a b l) l = l.
Proof.
  intros H1 H2. apply nth_error_ext; intros i.
  rewrite nth_error_put by (rewrite length_sub; lia).
  rewrite length_sub by lia.
  destruct ((a <=? i)%nat && (i <? a + (b - a))%nat) eqn:E; auto.
  rewrite nth_error_sub. replace (i - a <? b - a)%nat with true by lia.
  f_equal; lia.
Qed.

Lemma copy_from_ok {A} (l : list A) a b src l' :
  copy_from l a b src = Ok l' <->
  (a <= b)%nat /\ (b <= length l)%nat /\ (b - a)%nat = length src /\ l' = put a src l.
Proof.
  unfold copy_from.
  destruct (a <=? b)%nat eqn:E1; destruct (b <=? length l)%nat eqn:E2;
    destruct (b - a =? length src)%nat eqn:E3; cbn; split; intros H; try discriminate; try lia.
  - injection H as <-. repeat split; lia.
  - destruct H as (_ & _ & _ & ->). reflexivity.
Qed.

Lemma copy_from_in {A} (l : list A) a b src :
  (a <= b)%nat -> (b <= length l)%nat -> (b - a)%nat = length src ->
  copy_from l a b src = Ok (put a src l).
Proof. intros; apply copy_from_ok; auto. Qed.

Lemma set_index_ok {A} (l : list A) i v l' :
  set_index l i v = Ok l' <-> (i < length l)%nat /\ l' = put i [v] l.
Proof.
  unfold set_index. destruct (i <? length l)%nat eqn:E; split; intros H; try discriminate; try lia.
  - injection H as <-. split; [lia|reflexivity].
  - destruct H as (_ & ->); reflexivity.
Qed.

Lemma set_index_in {A} (l : list A) i v :
  (i < length l)%nat -> set_index l i v = Ok (put i [v] l).
Proof. intros; apply set_index_ok; auto. Qed.

Lemma nth_error_put1 {A} i (v : A) l j :
  (i < length l)%nat ->
  nth_error (put i [v] l) j = if (i =? j)%nat then Some v else nth_error l j.
Proof.
  intros H. rewrite nth_error_put by (cbn; lia). cbn [length].
  destruct (i =? j)%nat eqn:E.
  - replace ((i <=? j)%nat && (j <? i + 1)%nat) with true by lia.
    replace (j - i)%nat with 0%nat by lia. reflexivity.
  - replace ((i <=? j)%nat && (j <? i + 1)%nat) with false by lia. reflexivity.
Qed.

Lemma length_put1 {A} i (v : A) l : (i < length l)%nat -> length (put i [v] l) = length l.
Proof. intros; apply length_put; cbn; lia. Qed.

Lemma Forall_put {A} (P : A -> Prop) a src l : Forall P src -> Forall P l -> Forall P (put a src l).
Proof.
  intros Hs Hl. unfold put. rewrite !Forall_app. repeat split; auto.
  - rewrite Forall_forall in Hl |- *. intros x Hx. apply Hl. rewrite <- (firstn_skipn a l).
    apply in_or_app; auto.
  - rewrite Forall_forall in Hl |- *. intros x Hx. apply Hl.
    rewrite <- (firstn_skipn (a + length src) l). apply in_or_app; auto.
Qed.

Lemma In_firstn {A} (x : A) n l : In x (firstn n l) -> In x l.
Proof. intros H. rewrite <- (firstn_skipn n l). apply in_or_app; auto. Qed.

Lemma In_skipn {A} (x : A) n l : In x (skipn n l) -> In x l.
Proof. intros H. rewrite <- (firstn_skipn n l). apply in_or_app; auto. Qed.

Lemma In_sub {A} (x : A) a b l : In x (sub a b l) -> In x l.
Proof. unfold sub. intros H. apply In_firstn in H. now apply In_skipn in H. Qed.

Lemma Forall_sub {A} (P : A -> Prop) a b l : Forall P l -> Forall P (sub a b l).
Proof. rewrite !Forall_forall. intros H x Hx. apply H. now apply In_sub in Hx. Qed.

Lemma In_put {A} (x : A) a src l : In x (put a src l) -> In x src \/ In x l.
Proof.
  unfold put. rewrite !in_app_iff. intros [H|[H|H]]; auto.
  - apply In_firstn in H; auto.
  - apply In_skipn in H; auto.
Qed.

(** ** Searching *)

Lemma position_some {A} (p : A -> bool) l i :
  position p l = Some i ->
  (exists x, nth_error l i = Some x /\ p x = true) /\
  (forall j x, (j < i)%nat -> nth_error l j = Some x -> p x = false).
Proof.
  revert i; induction l as [|y l IH]; cbn; intros i H; [discriminate|].
  destruct (p y) eqn:E.
  - injection H as <-. split; [exists y; auto|]. intros; lia.
  - destruct (position p l) as [k|]; cbn in H; [|discriminate]. injection H as <-.
    destruct (IH k eq_refl) as (Hx & Hj). split; auto.
    intros [|j] x Hlt Hn; cbn in Hn; [congruence|]. eapply Hj; eauto. lia.
Qed.

Lemma position_none {A} (p : A -> bool) l :
  position p l = None <-> (forall x, In x l -> p x = false).
Proof.
  induction l as [|y l IH]; cbn; split; auto.
  - intros _ x [].
  - destruct (p y) eqn:E; [discriminate|].
    destruct (position p l); cbn; [discriminate|]. intros _ x [<-|Hx]; auto.
    apply IH; auto.
  - intros H. rewrite (H y) by auto. replace (position p l) with (@None nat); auto.
    symmetry. apply IH. auto.
Qed.

Lemma position_lt {A} (p : A -> bool) l i : position p l = Some i -> (i < length l)%nat.
Proof.
  intros H. apply position_some in H. destruct H as ((x & Hx & _) & _).
  apply nth_error_Some. congruence.
Qed.

Lemma max_by_key_from_spec {A} (f : A -> Z) (full : list A) l i best k :
  (forall j x, nth_error l j = Some x -> nth_error full (i + j) = Some x) ->
  length full = (i + length l)%nat ->
  (best < i)%nat ->
  (exists x, nth_error full best = Some x /\ f x = k) ->
  (forall j x, (j < i)%nat -> nth_error full j = Some x -> f x <= k) ->
  (forall j x, (best < j < i)%nat -> nth_error full j = Some x -> f x < k) ->
  exists x, let r := max_by_key_from f l i best k in
  nth_error full r = Some x /\
  (forall j y, nth_error full j = Some y -> f y <= f x) /\
  (forall j y, (r < j)%nat -> nth_error full j = Some y -> f y < f x).
Proof.
  revert i best k; induction l as [|y l IH]; cbn; intros i best k Hl Hlen Hb (x & Hx & Hk) Hle Hlt.
  - exists x. split; auto. subst k. split.
    + intros j z Hz. apply (Hle j); auto. apply Nat.lt_le_trans with (length full); [|lia].
      apply nth_error_Some; congruence.
    + intros j z Hj Hz. apply (Hlt j); auto. split; auto.
      apply Nat.lt_le_trans with (length full); [|lia].
      apply nth_error_Some; congruence.
  - assert (Hy : nth_error full i = Some y).
    { rewrite <- (Nat.add_0_r i). apply Hl. reflexivity. }
    assert (Hl' : forall j z, nth_error l j = Some z -> nth_error full (S i + j) = Some z).
    { intros j z Hz. replace (S i + j)%nat with (i + S j)%nat by lia. apply Hl. exact Hz. }
    assert (Hcase : forall j, (j < S i)%nat -> (j < i)%nat \/ j = i) by lia.
    destruct (k <=? f y) eqn:E.
    + apply (IH (S i) i (f y)); [exact Hl'|lia|lia|exists y; auto| |].
      * intros j z Hj Hz. destruct (Hcase j Hj) as [Hj'| ->].
        -- specialize (Hle j z Hj' Hz). lia.
        -- rewrite Hy in Hz; injection Hz as <-; lia.
      * intros j z Hj Hz. lia.
    + apply (IH (S i) best k); [exact Hl'|lia|lia|exists x; auto| |].
      * intros j z Hj Hz. destruct (Hcase j Hj) as [Hj'| ->].
        -- apply (Hle j z Hj' Hz).
        -- rewrite Hy in Hz; injection Hz as <-; lia.
      * intros j z Hj Hz. destruct (Hcase j) as [Hj'| ->]; [lia| |].
        -- apply (Hlt j z); [lia|auto].
        -- rewrite Hy in Hz; injection Hz as <-; lia.
Qed.

(** [max_by_key] returns the last of the elements with maximum key. *)
Lemma max_by_key_spec {A} (f : A -> Z) l i :
  max_by_key f l = Some i ->
  exists x, nth_error l i = Some x /\
  (forall j y, nth_error l j = Some y -> f y <= f x) /\
  (forall j y, (i < j)%nat -> nth_error l j = Some y -> f y < f x).
Proof.
  destruct l as [|x l]; [discriminate|]. unfold max_by_key. intros H; injection H as <-.
  apply (max_by_key_from_spec f (x :: l) l 1 0 (f x)); [auto|auto|lia|exists x; auto| |].
  - intros [|j] y Hj Hy; [|lia]. cbn in Hy. injection Hy as <-. lia.
  - intros j y Hj. lia.
Qed.

Lemma max_by_key_nonempty {A} (f : A -> Z) l : (0 < length l)%nat -> exists i, max_by_key f l = Some i.
Proof. destruct l; cbn; [lia|]. eauto. Qed.

(** ** Equality tests *)

Lemma list_eqb_eq {A} (eqb : A -> A -> bool) :
  (forall x y, eqb x y = true <-> x = y) ->
  forall l1 l2, list_eqb eqb l1 l2 = true <-> l1 = l2.
Proof.
  intros Heq. induction l1 as [|x l1 IH]; intros [|y l2]; cbn; split; try discriminate; auto.
  - intros H. apply andb_prop in H. destruct H as (H1 & H2).
    apply Heq in H1. apply IH in H2. congruence.
  - intros H. injection H as -> ->. apply andb_true_intro. split; [now apply Heq | now apply IH].
Qed.

Lemma bits_eqb_eq l1 l2 : bits_eqb l1 l2 = true <-> l1 = l2.
Proof. apply list_eqb_eq. apply Bool.eqb_true_iff. Qed.

Lemma bytes_eqb_eq l1 l2 : bytes_eqb l1 l2 = true <-> l1 = l2.
Proof. apply list_eqb_eq. apply Z.eqb_eq. Qed.

Lemma bits_eqb_refl l : bits_eqb l l = true.
Proof. now apply bits_eqb_eq. Qed.

Lemma bytes_eqb_refl l : bytes_eqb l l = true.
Proof. now apply bytes_eqb_eq. Qed.

Lemma option_eqb_eq {A} (eqb : A -> A -> bool) :
  (forall x y, eqb x y = true <-> x = y) ->
  forall a b, option_eqb eqb a b = true <-> a = b.
Proof.
  intros H [a|] [b|]; cbn; split; try discriminate; auto.
  - intros E; apply H in E; congruence.
  - intros E; injection E as ->; now apply H.
Qed.

(** ** Bits *)

Lemma length_bits_of_byte b : length (bits_of_byte b) = 8%nat.
Proof. reflexivity. Qed.

Lemma length_bits_of_bytes l : length (bits_of_bytes l) = (8 * length l)%nat.
Proof.
  induction l as [|b l IH]; [reflexivity|].
  unfold bits_of_bytes in *. cbn [flat_map]. rewrite app_length, IH, length_bits_of_byte.
  cbn [length]. lia.
Qed.

Lemma length_store_be n v : length (store_be n v) = n.
Proof. induction n; cbn; auto. Qed.

Lemma load_be_app l1 l2 : load_be (l1 ++ l2) = load_be l1 * 2 ^ Z.of_nat (length l2) + load_be l2.
Proof.
  unfold load_be. rewrite fold_left_app.
  assert (H : forall l a, fold_left (fun a b => 2 * a + Z.b2z b) l a
                          = a * 2 ^ Z.of_nat (length l) + fold_left (fun a b => 2 * a + Z.b2z b) l 0).
  { induction l as [|b l IH]; intros a.
    - cbn. lia.
    - cbn [fold_left length]. rewrite IH. rewrite (IH (2 * 0 + Z.b2z b)).
      rewrite Nat2Z.inj_succ, Z.pow_succ_r by lia. lia. }
  apply H.
Qed.

Lemma load_be_cons b l : load_be (b :: l) = Z.b2z b * 2 ^ Z.of_nat (length l) + load_be l.
Proof. change (b :: l) with ([b] ++ l). rewrite load_be_app. reflexivity. Qed.

Lemma load_be_range l : 0 <= load_be l < 2 ^ Z.of_nat (length l).
Proof.
  induction l as [|b l IH]; [cbn; lia|].
  rewrite load_be_cons. cbn [length]. rewrite Nat2Z.inj_succ, Z.pow_succ_r by lia.
  destruct b; cbn [Z.b2z]; lia.
Qed.

Lemma load_be_inj l1 l2 : length l1 = length l2 -> load_be l1 = load_be l2 -> l1 = l2.
Proof.
  revert l2; induction l1 as [|b1 l1 IH]; intros [|b2 l2]; cbn [length]; intros Hlen H;
    try discriminate; auto.
  injection Hlen as Hlen. rewrite !load_be_cons, Hlen in H.
  pose proof (load_be_range l1) as R1. pose proof (load_be_range l2) as R2. rewrite Hlen in R1.
  assert (b1 = b2) as -> by (destruct b1, b2; cbn [Z.b2z] in H; auto; lia).
  f_equal. apply IH; auto. lia.
Qed.

Lemma load_store_be n v : load_be (store_be n v) = v mod 2 ^ Z.of_nat n.
Proof.
  induction n as [|n IH].
  - cbn. now rewrite Z.mod_1_r.
  - cbn [store_be]. rewrite load_be_cons, length_store_be, IH.
    rewrite Nat2Z.inj_succ. rewrite Z.pow_succ_r by lia.
    rewrite (Z.mul_comm 2). rewrite Z.rem_mul_r by lia.
    rewrite <- Z.testbit_spec' by lia. lia.
Qed.

Lemma store_load_be l : store_be (length l) (load_be l) = l.
Proof.
  apply load_be_inj.
  - apply length_store_be.
  - rewrite load_store_be. apply Z.mod_small. apply load_be_range.
Qed.

Lemma store_be_inj n v w :
  0 <= v < 2 ^ Z.of_nat n -> 0 <= w < 2 ^ Z.of_nat n -> store_be n v = store_be n w -> v = w.
Proof.
  intros Hv Hw H. apply (f_equal load_be) in H. rewrite !load_store_be in H.
  rewrite !Z.mod_small in H by lia. exact H.
Qed.

Lemma bits_of_byte_store b : bits_of_byte b = store_be 8 b.
Proof. reflexivity. Qed.

Lemma load_bits_of_byte b : is_byte b -> load_be (bits_of_byte b) = b.
Proof. intros H. rewrite bits_of_byte_store, load_store_be. apply Z.mod_small. exact H. Qed.

Lemma bytes_of_bits_bytes l : Forall is_byte l -> bytes_of_bits (bits_of_bytes l) = l.
Proof.
  induction 1 as [|b l Hb Hl IH]; [reflexivity|].
  unfold bits_of_bytes in *. cbn [flat_map].
  change (load_be (bits_of_byte b) :: bytes_of_bits (flat_map bits_of_byte l) = b :: l).
  rewrite IH, load_bits_of_byte; auto.
Qed.

Lemma list_by_8 (P : list bool -> Prop) :
  P [] ->
  (forall b7 b6 b5 b4 b3 b2 b1 b0 l, P l -> P (b7 :: b6 :: b5 :: b4 :: b3 :: b2 :: b1 :: b0 :: l)) ->
  forall n l, length l = (8 * n)%nat -> P l.
Proof.
  intros H0 H8. induction n as [|n IH]; intros l Hl.
  - destruct l; [auto|cbn in Hl; lia].
  - do 8 (destruct l as [|? l]; [cbn in Hl; lia|]). apply H8. apply IH. cbn in Hl. lia.
Qed.

Lemma length_bytes_of_bits n l : length l = (8 * n)%nat -> length (bytes_of_bits l) = n.
Proof.
  revert l; induction n as [|n IH]; intros l Hl.
  - destruct l; [auto|cbn in Hl; lia].
  - do 8 (destruct l as [|? l]; [cbn in Hl; lia|]). cbn [bytes_of_bits length]. f_equal.
    apply IH. cbn in Hl. lia.
Qed.

Lemma bits_of_bytes_bits n l : length l = (8 * n)%nat -> bits_of_bytes (bytes_of_bits l) = l.
Proof.
  revert n l. apply list_by_8; [reflexivity|].
  intros b7 b6 b5 b4 b3 b2 b1 b0 l IH. cbn [bytes_of_bits]. unfold bits_of_bytes in *.
  cbn [flat_map]. rewrite IH.
  change (b7 :: b6 :: b5 :: b4 :: b3 :: b2 :: b1 :: b0 :: l)
    with ([b7; b6; b5; b4; b3; b2; b1; b0] ++ l).
  f_equal. rewrite bits_of_byte_store.
  apply (store_load_be [b7; b6; b5; b4; b3; b2; b1; b0]).
Qed.

Lemma bytes_of_bits_app n l1 l2 :
  length l1 = (8 * n)%nat -> bytes_of_bits (l1 ++ l2) = bytes_of_bits l1 ++ bytes_of_bits l2.
Proof.
  revert n l1. apply list_by_8; [reflexivity|].
  intros b7 b6 b5 b4 b3 b2 b1 b0 l IH. cbn [app bytes_of_bits]. now rewrite IH.
Qed.

Lemma bytes_of_bits_are_bytes n l : length l = (8 * n)%nat -> Forall is_byte (bytes_of_bits l).
Proof.
  revert n l. apply list_by_8; [constructor|].
  intros b7 b6 b5 b4 b3 b2 b1 b0 l IH. cbn [bytes_of_bits]. constructor; auto.
  apply (load_be_range [b7; b6; b5; b4; b3; b2; b1; b0]).
Qed.

Lemma bits_of_bytes_app l1 l2 : bits_of_bytes (l1 ++ l2) = bits_of_bytes l1 ++ bits_of_bytes l2.
Proof. unfold bits_of_bytes. apply flat_map_app. Qed.

Lemma bits_of_bytes_inj l1 l2 :
  Forall is_byte l1 -> Forall is_byte l2 -> bits_of_bytes l1 = bits_of_bytes l2 -> l1 = l2.
Proof.
  intros H1 H2 H. rewrite <- (bytes_of_bits_bytes l1), <- (bytes_of_bits_bytes l2) by auto.
  now rewrite H.
Qed.

Lemma bytes_of_bits_inj n l1 l2 :
  length l1 = (8 * n)%nat -> length l2 = (8 * n)%nat -> bytes_of_bits l1 = bytes_of_bits l2 -> l1 = l2.
Proof.
  intros H1 H2 H. rewrite <- (bits_of_bytes_bits n l1), <- (bits_of_bytes_bits n l2) by auto.
  now rewrite H.
Qed.

Lemma bits_of_bytes_repeat0 n : bits_of_bytes (repeat 0 n) = repeat false (8 * n).
Proof.
  induction n as [|n IH]; [reflexivity|].
  replace (8 * S n)%nat with (8 + 8 * n)%nat by lia. rewrite repeat_app, <- IH. reflexivity.
Qed.

Lemma bits_of_bytes_firstn l n : bits_of_bytes (firstn n l) = firstn (8 * n) (bits_of_bytes l).
Proof.
  revert l; induction n as [|n IH]; intros [|b l]; auto.
  replace (8 * S n)%nat with (8 + 8 * n)%nat by lia.
    cbn [firstn]. unfold bits_of_bytes in *. cbn [flat_map]. rewrite firstn_app.
    rewrite length_bits_of_byte.
    replace (8 + 8 * n - 8)%nat with (8 * n)%nat by lia.
    rewrite IH. f_equal. symmetry. apply firstn_all2. rewrite length_bits_of_byte. lia.
Qed.

Lemma bits_of_bytes_skipn l n : bits_of_bytes (skipn n l) = skipn (8 * n) (bits_of_bytes l).
Proof.
  revert l; induction n as [|n IH]; intros [|b l]; auto.
  replace (8 * S n)%nat with (8 + 8 * n)%nat by lia.
    cbn [skipn]. unfold bits_of_bytes in *. cbn [flat_map]. rewrite skipn_app.
    rewrite length_bits_of_byte.
    replace (8 + 8 * n - 8)%nat with (8 * n)%nat by lia.
    rewrite IH. rewrite (skipn_all2 (n := 8 + 8 * n)) by (rewrite length_bits_of_byte; lia).
    reflexivity.
Qed.

Lemma bits_at_ok d a b v :
  bits_at d a b = Ok v <->
  (a <= b)%nat /\ (b <= 8 * length d)%nat /\ v = load_be (sub a b (bits_of_bytes d)).
Proof.
  unfold bits_at. rewrite bind_ok. split.
  - intros (s & H & E). apply slice_ok in H. rewrite length_bits_of_bytes in H.
    destruct H as (H1 & H2 & ->). injection E as <-. auto.
  - intros (H1 & H2 & ->). exists (sub a b (bits_of_bytes d)). split; auto.
    apply slice_in; auto. now rewrite length_bits_of_bytes.
Qed.

Lemma bits_at_in d a b :
  (a <= b)%nat -> (b <= 8 * length d)%nat ->
  bits_at d a b = Ok (load_be (sub a b (bits_of_bytes d))).
Proof. intros; apply bits_at_ok; auto. Qed.

(** Rows of a flat array. *)
Lemma sub_sub {A} a b c d (l : list A) :
  (b <= length l)%nat -> (a + d <= b)%nat -> sub c d (sub a b l) = sub (a + c) (a + d) l.
Proof.
  intros H1 H2. apply nth_error_ext; intros i. rewrite !nth_error_sub.
  replace (a + d - (a + c))%nat with (d - c)%nat by lia.
  destruct (i <? d - c)%nat eqn:E; auto.
  replace (c + i <? b - a)%nat with true by lia.
  f_equal; lia.
Qed.

Lemma firstn_sub {A} n a b (l : list A) :
  (n <= b - a)%nat -> firstn n (sub a b l) = sub a (a + n) l.
Proof.
  intros H. unfold sub. rewrite firstn_firstn. f_equal. lia.
Qed.

Lemma repeat_put {A} (x : A) a k n : (a + k <= n)%nat -> put a (repeat x k) (repeat x n) = repeat x n.
Proof.
  intros H. apply nth_error_ext; intros i. rewrite nth_error_put by (rewrite !repeat_length; lia).
  rewrite repeat_length.
  destruct ((a <=? i)%nat && (i <? a + k)%nat) eqn:E; auto.
  rewrite !nth_error_repeat by lia. reflexivity.
Qed.

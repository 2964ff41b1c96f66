(** Property C22: the Merkle tree of public keys. *)
From Coq Require Import ZArith String List Bool Lia.
From Verif Require Import Model.Prelude Model.Params Model.Bitfields Model.Merkle
  Spec.MerkleSpec Proofs.Base Proofs.MerkleProofs Examples.Sha256 Examples.Vectors.
Import ListNotations.
Open Scope list_scope.
Open Scope Z_scope.

(** The key returned is the one of the message, and the message has the leaf of the tree at
    the position that it names, or it makes known a collision. *)
Theorem C22_public_key_binding : forall (C : crypto) (B : build), crypto_ok C ->
  forall leaves d pk, Forall is_byte d ->
  validate_pkr (tree_root leaves) d = Ok (ROk pk) ->
  exists f, pkr_layout d f /\
    (pkr_leaf f = nth (Z.to_nat (pf_mid f)) leaves [] \/ collision_found leaves f) /\
    pk_id pk = pf_npkid f /\
    match pk_key pk with
    | VkP256 k => pf_npkt f = 1 /\ p256_from_sec1 (pf_key f) = Some k
    | VkP521 k => pf_npkt f = 3 /\ p521_from_sec1 (pf_key f) = Some k /\ feature_p521 = true
    end.
Proof.
  intros C B HC leaves d pk Hd H. destruct (validate_pkr_sound _ _ _ Hd H) as (f & HL & Hr & Hk).
  exists f. split; [exact HL|]. split; [|exact Hk]. now apply (merkle_binding HC leaves d f HL).
Qed.

Theorem C22_alert_binding : forall (C : crypto), crypto_ok C ->
  forall leaves d u, Forall is_byte d ->
  validate_alert_message (tree_root leaves) d = Ok (ROk u) ->
  exists f, pkr_layout d f /\ pf_npkt f = 4 /\
    (pkr_leaf f = nth (Z.to_nat (pf_mid f)) leaves [] \/ collision_found leaves f).
Proof.
  intros C HC leaves d u Hd H. destruct (validate_alert_sound _ _ _ Hd H) as (f & HL & Hr & Hk).
  exists f. split; [exact HL|]. split; [exact Hk|]. now apply (merkle_binding HC leaves d f HL).
Qed.

(** Whatever the root: for each position at most one leaf can be accepted. *)
Theorem C22_position_has_one_key : forall (C : crypto) (B : build), crypto_ok C ->
  forall root d d' pk pk' f f', Forall is_byte d -> Forall is_byte d' ->
  validate_pkr root d = Ok (ROk pk) -> validate_pkr root d' = Ok (ROk pk') ->
  pkr_layout d f -> pkr_layout d' f' -> pf_mid f = pf_mid f' ->
  pk = pk' \/ collision_between f f'.
Proof.
  intros C B HC root d d' pk pk' f f' Hd Hd' H H' HL HL' Hm.
  destruct (validate_pkr_sound _ _ _ Hd H) as (f1 & L1 & R1 & K1 & K2).
  destruct (validate_pkr_sound _ _ _ Hd' H') as (f1' & L1' & R1' & K1' & K2').
  assert (f1 = f) by (eapply pkr_layout_fun; eauto).
  assert (f1' = f') by (eapply pkr_layout_fun; eauto). subst f1 f1'.
  destruct (merkle_two_messages HC d d' f f' L1 L1' Hm) as [E|E]; [congruence| |auto].
  left. unfold pkr_leaf in E. pose proof (f_equal (hd 0) E) as E1. apply (f_equal (@tl Z)) in E. rename E into E2.
  cbn [hd tl] in E1, E2.
  destruct (pl_nibbles _ _ L1) as (_ & _ & N1 & N2). destruct (pl_nibbles _ _ L1') as (_ & _ & N1' & N2').
  unfold nibble in *. assert (E3 : pf_npkt f = pf_npkt f') by lia. assert (E4 : pf_npkid f = pf_npkid f') by lia.
  rewrite E2, E3 in K2. rewrite E4, <- K1' in K1.
  destruct pk as [[k|k] id], pk' as [[k'|k'] id']; cbn [pk_key pk_id] in *; subst id;
    destruct K2 as (A1 & A2); destruct K2' as (A1' & A2'); f_equal; try congruence;
    f_equal; destruct A2; destruct A2'; congruence.
Qed.

(** Conversely a message with the right leaf and sibling nodes is accepted. *)
Theorem C22_public_key_accepted : forall (C : crypto) (B : build), crypto_ok C ->
  forall leaves d f pk, pkr_layout d f -> right_siblings leaves f ->
  pkr_leaf f = nth (Z.to_nat (pf_mid f)) leaves [] ->
  pk_id pk = pf_npkid f ->
  match pk_key pk with
  | VkP256 k => pf_npkt f = 1 /\ p256_from_sec1 (pf_key f) = Some k
  | VkP521 k => pf_npkt f = 3 /\ p521_from_sec1 (pf_key f) = Some k /\ feature_p521 = true
  end ->
  validate_pkr (tree_root leaves) d = Ok (ROk pk).
Proof.
  intros C B HC leaves d f pk HL Hs Hl. apply validate_pkr_complete; auto.
  now apply (merkle_path_right leaves d f HL).
Qed.

Theorem C22_alert_accepted : forall (C : crypto), crypto_ok C ->
  forall leaves d f, pkr_layout d f -> right_siblings leaves f ->
  pkr_leaf f = nth (Z.to_nat (pf_mid f)) leaves [] -> pf_npkt f = 4 ->
  validate_alert_message (tree_root leaves) d = Ok (ROk tt).
Proof.
  intros C HC leaves d f HL Hs Hl. apply (validate_alert_complete _ d f HL).
  now apply (merkle_path_right leaves d f HL).
Qed.

(** A tree with 16 P-256 keys, and an alert message in the last leaf. *)
Definition demo_leaf (i : nat) : list Z :=
  if (i =? 15)%nat then 64 :: repeat 0 39 else (16 + Z.of_nat i) :: 2 :: repeat (Z.of_nat i) 32.
Definition demo_leaves : list (list Z) := map demo_leaf (seq 0 16).
Definition demo_pkr_fields (i : nat) : pkr_fields :=
  let sib j := let n := (i / 2 ^ j)%nat in tree_node demo_leaves j (if Nat.even n then n + 1 else n - 1) in
  mkPF (if (i =? 15)%nat then 7 else 7) (Z.of_nat i) (map sib (seq 0 4))
       (if (i =? 15)%nat then 4 else 1) (if (i =? 15)%nat then 0 else Z.of_nat i)
       (if (i =? 15)%nat then repeat 0 39 else 2 :: repeat (Z.of_nat i) 32)
       (if (i =? 15)%nat then [] else repeat 0 6).
Definition demo_pkr (i : nat) : list Z :=
  let f := demo_pkr_fields i in
  (16 * pf_nb f + pf_mid f) :: concat (pf_nodes f) ++ pkr_leaf f ++ pf_pad f.

Definition show_key (r : outcome (result public_key pkr_error)) : option (list Z * Z) :=
  match r with
  | Ok (ROk pk) => match pk_key pk with VkP256 k => Some (k : list Z, pk_id pk) | VkP521 _ => None end
  | _ => None
  end.
Definition show_error (r : outcome (result public_key pkr_error)) : option pkr_error :=
  match r with Ok (RErr e) => Some e | _ => None end.
Example C22_example :
  show_key (validate_pkr (tree_root demo_leaves) (demo_pkr 9)) = Some (2 :: repeat 9 32, 9) /\
  validate_alert_message (tree_root demo_leaves) (demo_pkr 15) = Ok (ROk tt) /\
  show_error (validate_pkr (tree_root demo_leaves) (flip 131 (demo_pkr 9))) = Some PkrInvalid /\
  show_error (validate_pkr (tree_root demo_leaves) (flip 0 (demo_pkr 9))) = Some PkrInvalid /\
  show_error (validate_pkr (tree_root demo_leaves) (flip 129 (demo_pkr 9))) = Some PkrInvalid /\
  Forall is_byte (demo_pkr 9).
Proof.
  repeat match goal with |- _ /\ _ => split end.
  all: try (vm_compute; reflexivity).
  apply all_bytes. vm_compute. reflexivity.
Qed.

Example C22_example_hypotheses :
  pkr_layout (demo_pkr 9) (demo_pkr_fields 9) /\ right_siblings demo_leaves (demo_pkr_fields 9) /\
  pkr_leaf (demo_pkr_fields 9) = nth (Z.to_nat (pf_mid (demo_pkr_fields 9))) demo_leaves [].
Proof.
  split; [|split].
  - constructor.
    + unfold demo_pkr. reflexivity.
    + split; [reflexivity|]. unfold demo_pkr_fields. cbn [pf_nodes map seq].
      repeat (apply Forall_cons; [apply (sha256_length demo_crypto_ok)|]). apply Forall_nil.
    + vm_compute. intuition congruence.
    + left. split; reflexivity.
  - intros j Hj. destruct j as [|[|[|[|j]]]]; [vm_compute; reflexivity..|lia].
  - vm_compute. reflexivity.
Qed.

Print Assumptions C22_public_key_binding.
Print Assumptions C22_alert_binding.
Print Assumptions C22_position_has_one_key.
Print Assumptions C22_public_key_accepted.
Print Assumptions C22_alert_accepted.

(** The DSM-PKR message and the Merkle tree of public keys as described in the OSNMA ICD. *)
From Coq Require Import ZArith List Bool.
From Verif Require Import Model.Params.
Import ListNotations.
Open Scope Z_scope.

(** The fields of a DSM-PKR message. *)
Record pkr_fields : Type := mkPF {
  pf_nb : Z; pf_mid : Z;
  pf_nodes : list (list Z);
  pf_npkt : Z; pf_npkid : Z;
  pf_key : list Z;
  pf_pad : list Z
}.

(** The leaf that the message is about: type, identifier and key. *)
Definition pkr_leaf (f : pkr_fields) : list Z := (16 * pf_npkt f + pf_npkid f) :: pf_key f.

Definition nibble (x : Z) : Prop := 0 <= x < 16.

(** Layout of the message.  Type 1 is a P-256 key and type 3 a P-521 key (compressed points);
    type 4 is the alert message, whose key field takes all the space of the blocks. *)
Record pkr_layout (d : list Z) (f : pkr_fields) : Prop := {
  pl_bytes : d = (16 * pf_nb f + pf_mid f) :: concat (pf_nodes f) ++ pkr_leaf f ++ pf_pad f;
  pl_nodes : length (pf_nodes f) = 4%nat /\ Forall (fun n => length n = 32%nat) (pf_nodes f);
  pl_nibbles : nibble (pf_nb f) /\ nibble (pf_mid f) /\ nibble (pf_npkt f) /\ nibble (pf_npkid f);
  pl_key : (pf_npkt f = 1 /\ length (pf_key f) = 33%nat \/
            pf_npkt f = 3 /\ length (pf_key f) = 67%nat \/
            pf_npkt f = 4 /\ 7 <= pf_nb f <= 10 /\
            Z.of_nat (length (pf_key f)) = 13 * (pf_nb f + 6) - 130)
}.

Section Crypto.
Context {C : crypto}.

(** The tree over [leaves]: node [i] of level [j] is the hash of [tree_input j i]: a leaf, or
    the two nodes below. *)
Fixpoint tree_input (leaves : list (list Z)) (j i : nat) : list Z :=
  match j with
  | O => nth i leaves []
  | S j' => sha256 (tree_input leaves j' (2 * i)) ++ sha256 (tree_input leaves j' (2 * i + 1))
  end.
Definition tree_node (leaves : list (list Z)) (j i : nat) : list Z := sha256 (tree_input leaves j i).
(** The root of a tree with 16 leaves. *)
Definition tree_root (leaves : list (list Z)) : list Z := tree_node leaves 4 0.

(** What is hashed at level [j] on the way from the leaf of a message up to the root. *)
Fixpoint path_input (f : pkr_fields) (j : nat) : list Z :=
  match j with
  | O => pkr_leaf f
  | S j' =>
      let sibling := nth j' (pf_nodes f) [] in
      let node := sha256 (path_input f j') in
      if Z.even (pf_mid f / 2 ^ Z.of_nat j') then node ++ sibling else sibling ++ node
  end.

(** A message that is accepted for a leaf that is not in the tree makes known a collision of
    SHA-256: two different inputs hashed at the same level. *)
Definition collision_found (leaves : list (list Z)) (f : pkr_fields) : Prop :=
  exists j, (j <= 4)%nat /\
    let a := path_input f j in
    let b := tree_input leaves j (Z.to_nat (pf_mid f / 2 ^ Z.of_nat j)) in
    a <> b /\ sha256 a = sha256 b.

(** The message has the siblings of the nodes on the way from the leaf to the root. *)
Definition right_siblings (leaves : list (list Z)) (f : pkr_fields) : Prop :=
  forall j, (j < 4)%nat ->
    let i := Z.to_nat (pf_mid f / 2 ^ Z.of_nat j) in
    nth j (pf_nodes f) [] = tree_node leaves j (if Nat.even i then i + 1 else i - 1).

End Crypto.

(** Two messages with the same position that lead to the same root make known a collision
    unless they have the same leaf. *)
Definition collision_between {C : crypto} (f f' : pkr_fields) : Prop :=
  exists j, (j <= 4)%nat /\ path_input f j <> path_input f' j /\
            sha256 (path_input f j) = sha256 (path_input f' j).

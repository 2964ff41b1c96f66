(** Model of galileo-osnma/src/merkle_tree.rs. *)
From Coq Require Import ZArith List Bool.
From Verif Require Import Model.Prelude Model.Params Model.Bitfields.
Import ListNotations.
Open Scope Z_scope.

(** [enum PkrError], merkle_tree.rs:137-151. *)
Inductive pkr_error : Type :=
| PkrReservedField | PkrInvalid | PkrNoPublicKey | PkrNotAlert | PkrP521NotSupported.

Section Crypto.
Context {C : crypto} {B : build}.

(** [struct PublicKey], merkle_tree.rs:183-187. *)
Record public_key : Type := mkPub { pk_key : verifying_key; pk_id : Z }.

(** [MerkleTree::hash_leaf], merkle_tree.rs:93-97. *)
Definition hash_leaf (leaf : list Z) : list Z := sha256 leaf.

(** [MerkleTree::calc_node], merkle_tree.rs:99-104. *)
Definition calc_node (left right : list Z) : list Z := sha256 (left ++ right).

(** The loop of [MerkleTree::validate], merkle_tree.rs:76-85. *)
Fixpoint merkle_climb (d : list Z) (js : list nat) (id : Z) (node : list Z) : outcome (list Z) :=
  match js with
  | [] => Ok node
  | j :: js' =>
      let is_left := Z.land id 1 =? 0 in
      itn <- pkr_intermediate_tree_node d j ;;
      let node := if is_left then calc_node node itn else calc_node itn node in
      merkle_climb d js' (Z.shiftr id 1) node
  end.

(** [MerkleTree::validate], merkle_tree.rs:69-91.  The Merkle tree is its root. *)
Definition merkle_validate (root d : list Z) : outcome (result unit pkr_error) :=
  leaf <- pkr_merkle_tree_leaf d ;;
  match leaf with
  | None => Ok (RErr PkrReservedField)
  | Some leaf =>
      id <- pkr_message_id d ;;
      node <- merkle_climb d [0; 1; 2; 3]%nat id (hash_leaf leaf) ;;
      Ok (if bytes_eqb node root then ROk tt else RErr PkrInvalid)
  end.

(** [MerkleTree::pubkey_from_pkr], merkle_tree.rs:106-132. *)
Definition pubkey_from_pkr (d : list Z) : outcome (result public_key pkr_error) :=
  k <- pkr_new_public_key d ;;
  key <- unwrap k ;;
  t <- pkr_new_public_key_type d ;;
  match t with
  | NpktEcdsaKey P256Sha256 =>
      vk <- unwrap (p256_from_sec1 key) ;;
      pkid <- pkr_new_public_key_id d ;;
      Ok (ROk (mkPub (VkP256 vk) pkid))
  | NpktEcdsaKey P521Sha512 =>
      if feature_p521 then
        vk <- unwrap (p521_from_sec1 key) ;;
        pkid <- pkr_new_public_key_id d ;;
        Ok (ROk (mkPub (VkP521 vk) pkid))
      else Ok (RErr PkrP521NotSupported)
  | _ => Panic
  end.

(** [MerkleTree::validate_pkr], merkle_tree.rs:40-46. *)
Definition validate_pkr (root d : list Z) : outcome (result public_key pkr_error) :=
  t <- pkr_new_public_key_type d ;;
  match t with
  | NpktEcdsaKey _ =>
      r <- merkle_validate root d ;;
      match r with
      | RErr e => Ok (RErr e)
      | ROk _ => pubkey_from_pkr d
      end
  | _ => Ok (RErr PkrNoPublicKey)
  end.

(** [MerkleTree::validate_alert_message], merkle_tree.rs:59-67. *)
Definition validate_alert_message (root d : list Z) : outcome (result unit pkr_error) :=
  t <- pkr_new_public_key_type d ;;
  match t with
  | NpktAlert => merkle_validate root d
  | _ => Ok (RErr PkrNoPublicKey)
  end.

End Crypto.

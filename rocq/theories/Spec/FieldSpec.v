(** The meaning of the codes in the headers, DSM-KROOT and DSM-PKR messages, as in the tables of
    the OSNMA ICD. *)
From Coq Require Import ZArith List Bool.
From Verif Require Import Model.Prelude Model.Params Model.Bitfields Spec.KrootSpec Spec.MerkleSpec.
Import ListNotations.
Open Scope Z_scope.

(** [r] is what a table says of a code; codes that it does not have are reserved. *)
Definition means {A} (table : list (Z * A)) (code : Z) (r : option A) : Prop :=
  match r with
  | Some x => In (code, x) table
  | None => forall x, ~ In (code, x) table
  end.

(** Number of blocks of a DSM-KROOT (NB_DK) and of a DSM-PKR (NB_DP). *)
Definition nb_dk_table : list (Z * nat) :=
  [(1, 7%nat); (2, 8%nat); (3, 9%nat); (4, 10%nat); (5, 11%nat); (6, 12%nat); (7, 13%nat); (8, 14%nat)].
Definition nb_dp_table : list (Z * nat) := [(7, 13%nat); (8, 14%nat); (9, 15%nat); (10, 16%nat)].

(** Types of new public keys (NPKT). *)
Definition npkt_table : list (Z * npkt_t) :=
  [(1, NpktEcdsaKey P256Sha256); (3, NpktEcdsaKey P521Sha512); (4, NpktAlert)].

(** Status (NMAS), and chain and public key status (CPKS), of the NMA header. *)
Definition nmas_table : list (Z * nma_status_t) :=
  [(0, NmaReserved); (1, NmaTest); (2, NmaOperational); (3, NmaDontUse)].
Definition cpks_table : list (Z * cpks_t) :=
  [(0, CpksReserved); (1, CpksNominal); (2, CpksEndOfChain); (3, CpksChainRevoked); (4, CpksNewPublicKey);
   (5, CpksPublicKeyRevoked); (6, CpksNewMerkleTree); (7, CpksAlertMessage)].

(** The message has the number of blocks that its first field announces. *)
Definition pkr_complete (d : list Z) (f : pkr_fields) : Prop :=
  exists n, In (pf_nb f, n) nb_dp_table /\ length d = (13 * n)%nat.

(** Padding of a DSM-PKR: the start of the hash of the root of the tree and the leaf. *)
Definition pkr_padding_right {C : crypto} (root : list Z) (f : pkr_fields) : Prop :=
  pf_pad f = firstn (length (pf_pad f)) (sha256 (root ++ pkr_leaf f)).

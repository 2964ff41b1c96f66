(** What the command line of galmon-osnma, or the files of the firmware, say is to be trusted. *)
From Coq Require Import ZArith List Bool.
From Verif Require Import Model.Prelude Model.Params Model.Merkle Model.Transport Model.Apps Model.Config
  Spec.VectorsSpec.
Import ListNotations.
Open Scope Z_scope.

Section Config.
Context {C : crypto} {F : key_files C}.

(** One public key, and the id for it: a P-256 key in a file, or a P-521 key in hexadecimal. *)
Definition key_given (a : args) (pk : public_key) : Prop :=
  a_pkid a = Some (pk_id pk) /\
  match pk_key pk with
  | VkP256 k => a_pubkey_p521 a = None /\ exists path, a_pubkey a = Some path /\ pem_file path = Some k
  | VkP521 k => a_pubkey a = None /\
      exists hex bytes, a_pubkey_p521 a = Some hex /\ hex_text hex bytes /\ p521_from_sec1 bytes = Some k
  end.
Definition no_key_given (a : args) : Prop := a_pubkey a = None /\ a_pubkey_p521 a = None /\ a_pkid a = None.

(** A Merkle tree root of 32 bytes in hexadecimal. *)
Definition root_given (a : args) (r : list Z) : Prop :=
  exists hex, a_merkle_root a = Some hex /\ hex_text hex r /\ length r = 32%nat.

(** The command line asks for this Merkle tree root and this public key, at least one of them. *)
Definition configures (a : args) (root : option (list Z)) (user : option public_key) (slow : bool) : Prop :=
  slow = a_slow_mac_only a /\
  match root with Some r => root_given a r | None => a_merkle_root a = None end /\
  match user with Some pk => key_given a pk | None => no_key_given a end /\
  (root <> None \/ user <> None).

(** A text with spaces around it. *)
Definition spaced (s t : list Z) : Prop :=
  exists before after, s = before ++ t ++ after /\
    Forall (fun c => 9 <= c <= 13 \/ c = 32) (before ++ after).

(** The files of the firmware have this key, this id and this Merkle tree root. *)
Definition firmware_says (pem id root : list Z) (key : vk256) (n : Z) (r : list Z) : Prop :=
  pem_text pem = Some key /\
  (exists s, spaced id s /\ number_text s n /\ n < 256) /\
  (exists s, spaced root s /\ hex_text s r /\ length r = 32%nat).

End Config.

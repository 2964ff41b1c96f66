(** Model of the start of the programs: the command line of
    galileo-osnma/src/bin/galmon-osnma.rs:12-90, and the constants of the firmware, made by
    osnma-longan-nano/build.rs and used in osnma-longan-nano/src/main.rs:80-87.

    The parsing of the command line itself (crate clap) is left out: the arguments are given.
    Files, PEM and points of the curve (crates spki and p256) are a parameter. *)
From Coq Require Import ZArith List Bool.
From Verif Require Import Model.Prelude Model.Params Model.Merkle Model.Osnma Model.Transport Model.Apps Model.Serial.
Import ListNotations.
Open Scope Z_scope.

(** [VerifyingKey::from_public_key_pem] of the contents of the file with this path, or of this
    text; [None] is any error. *)
Class key_files (C : crypto) : Type := {
  pem_file : list Z -> option vk256;
  pem_text : list Z -> option vk256;
  (** [VerifyingKey::to_encoded_point(true)] as bytes *)
  p256_to_sec1 : vk256 -> list Z
}.

(** [struct Args], galmon-osnma.rs:12-31; [pkid] is a [u8].  Texts are bytes. *)
Record args : Type := mkArgs {
  a_merkle_root : option (list Z);
  a_pubkey : option (list Z);
  a_pubkey_p521 : option (list Z);
  a_pkid : option Z;
  a_slow_mac_only : bool
}.

(** The errors that end [main] before anything is read: the [bail!]s in the order of
    galmon-osnma.rs:51-71, the key that cannot be loaded, and the Merkle tree root. *)
Inductive config_error : Type :=
| NothingGiven | BothKeys | PubkeyWithoutPkid | Pubkey521WithoutPkid | PkidWithoutKey
| BadPubkey | BadMerkleRoot | WrongMerkleLength.

Section Config.
Context {C : crypto} {B : build} {S : storage} {F : key_files C}.

Definition is_none {A} (o : option A) : bool := match o with None => true | Some _ => false end.
Definition is_some {A} (o : option A) : bool := negb (is_none o).

(** [load_pubkey], galmon-osnma.rs:33-39. *)
Definition load_pubkey (path : list Z) (pkid : Z) : result public_key config_error :=
  match pem_file path with
  | Some k => ROk (mkPub (VkP256 k) pkid)
  | None => RErr BadPubkey
  end.

(** [load_pubkey_p521], galmon-osnma.rs:41-45. *)
Definition load_pubkey_p521 (hex : list Z) (pkid : Z) : result public_key config_error :=
  match hex_decode hex with
  | None => RErr BadPubkey
  | Some l =>
      match p521_from_sec1 l with
      | Some k => ROk (mkPub (VkP521 k) pkid)
      | None => RErr BadPubkey
      end
  end.

(** The first part of [main], galmon-osnma.rs:51-71: the checks of the arguments. *)
Definition check_args (a : args) : option config_error :=
  if is_none (a_merkle_root a) && is_none (a_pubkey a) && is_none (a_pubkey_p521 a) then Some NothingGiven
  else if is_some (a_pubkey a) && is_some (a_pubkey_p521 a) then Some BothKeys
  else if is_some (a_pubkey a) && is_none (a_pkid a) then Some PubkeyWithoutPkid
  else if is_some (a_pubkey_p521 a) && is_none (a_pkid a) then Some Pubkey521WithoutPkid
  else if is_some (a_pkid a) && is_none (a_pubkey a) && is_none (a_pubkey_p521 a) then Some PkidWithoutKey
  else None.

(** The second part, galmon-osnma.rs:73-79: the public key. *)
Definition load_key (a : args) : outcome (result (option public_key) config_error) :=
  match a_pubkey a with
  | Some path =>
      pkid <- unwrap (a_pkid a) ;;
      Ok (match load_pubkey path pkid with ROk k => ROk (Some k) | RErr e => RErr e end)
  | None =>
      match a_pubkey_p521 a with
      | Some hex =>
          pkid <- unwrap (a_pkid a) ;;
          Ok (match load_pubkey_p521 hex pkid with ROk k => ROk (Some k) | RErr e => RErr e end)
      | None => Ok (ROk None)
      end
  end.

(** The third part, galmon-osnma.rs:81-91: the library with what it trusts. *)
Definition make_osnma (a : args) (pubkey : option public_key) : outcome (result osnma config_error) :=
  match a_merkle_root a with
  | Some hex =>
      match hex_decode hex with
      | None => Ok (RErr BadMerkleRoot)
      | Some l =>
          if (length l =? 32)%nat then Ok (ROk (from_merkle_tree l pubkey (a_slow_mac_only a)))
          else Ok (RErr WrongMerkleLength)
      end
  | None =>
      pubkey <- unwrap pubkey ;;
      Ok (ROk (from_pubkey pubkey (a_slow_mac_only a)))
  end.

Definition galmon_setup (a : args) : outcome (result osnma config_error) :=
  match check_args a with
  | Some e => Ok (RErr e)
  | None =>
      r <- load_key a ;;
      match r with
      | RErr e => Ok (RErr e)
      | ROk pubkey => make_osnma a pubkey
      end
  end.

(** [main], galmon-osnma.rs:47-220, on standard input. *)
Definition galmon_program {K : codec message} (a : args) (s : source)
  : outcome (result (result unit io_error * galmon) config_error) :=
  r <- galmon_setup a ;;
  match r with
  | RErr e => Ok (RErr e)
  | ROk o => x <- galmon_main o s ;; Ok (ROk x)
  end.

(** ** The firmware *)

(** [str::trim] for ASCII. *)
Fixpoint trim_start (s : list Z) : list Z :=
  match s with
  | c :: r => if is_space c then trim_start r else s
  | [] => []
  end.
Definition trim (s : list Z) : list Z := rev (trim_start (rev (trim_start s))).

(** The constants that build.rs writes: [OSNMA_PUBKEY], [OSNMA_PUBKEY_ID] and
    [OSNMA_MERKLE_TREE_ROOT], from the texts of the three files; a panic stops the build.
    build.rs:6-14, 28-34, 43-59. *)
Definition firmware_constants (pem id root : list Z) : outcome (list Z * Z * list Z) :=
  key <- unwrap (pem_text pem) ;;
  id <- unwrap (parse 255 (trim id)) ;;
  root <- unwrap (hex_decode (trim root)) ;;
  root <- to_array 32 root ;;
  Ok (p256_to_sec1 key, id, root).

(** [OsnmaInterface::new], main.rs:81-87. *)
Definition firmware_setup (pubkey : list Z) (pubkey_id : Z) (root : list Z) : outcome osnma :=
  k <- unwrap (p256_from_sec1 pubkey) ;;
  Ok (from_merkle_tree root (Some (mkPub (VkP256 k) pubkey_id)) false).

End Config.

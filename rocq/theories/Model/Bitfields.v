(** Model of galileo-osnma/src/bitfields.rs (except [Mack::validate], which uses the
    TESLA key and is in Tesla.v) and of [NmaHeader], tesla.rs:363-426.

    A DSM message is its list of bytes, a bit slice is its list of bits.  Accessors of
    byte slices whose length the type does not fix can panic, and so they return an
    [outcome]. *)
From Coq Require Import ZArith List Bool.
From Verif Require Import Model.Prelude Model.Params.
Import ListNotations.
Open Scope Z_scope.

(** ** NMA header *)

(** [enum NmaStatus], bitfields.rs:26-35. *)
Inductive nma_status_t : Type := NmaReserved | NmaTest | NmaOperational | NmaDontUse.

(** [enum ChainAndPubkeyStatus], bitfields.rs:43-60. *)
Inductive cpks_t : Type :=
| CpksReserved | CpksNominal | CpksEndOfChain | CpksChainRevoked | CpksNewPublicKey
| CpksPublicKeyRevoked | CpksNewMerkleTree | CpksAlertMessage.

Definition nma_status_eqb (a b : nma_status_t) : bool :=
  match a, b with
  | NmaReserved, NmaReserved | NmaTest, NmaTest
  | NmaOperational, NmaOperational | NmaDontUse, NmaDontUse => true
  | _, _ => false
  end.

(** [NmaHeader::nma_status], tesla.rs:390-398.  Two bits are read, so the last branch is
    only taken for 3. *)
Definition nma_status (h : Z) : nma_status_t :=
  match load_be (sub 0 2 (bits_of_byte h)) with
  | 0 => NmaReserved
  | 1 => NmaTest
  | 2 => NmaOperational
  | _ => NmaDontUse
  end.

(** [NmaHeader::chain_id], tesla.rs:401-403. *)
Definition nma_chain_id (h : Z) : Z := load_be (sub 2 4 (bits_of_byte h)).

(** [NmaHeader::chain_and_pubkey_status], tesla.rs:406-418.  Three bits are read, so the
    last branch is only taken for 7. *)
Definition nma_cpks (h : Z) : cpks_t :=
  match load_be (sub 4 7 (bits_of_byte h)) with
  | 0 => CpksReserved
  | 1 => CpksNominal
  | 2 => CpksEndOfChain
  | 3 => CpksChainRevoked
  | 4 => CpksNewPublicKey
  | 5 => CpksPublicKeyRevoked
  | 6 => CpksNewMerkleTree
  | _ => CpksAlertMessage
  end.

(** ** DSM header *)

(** [enum DsmType], bitfields.rs:78-89. *)
Inductive dsm_type_t : Type := DsmKroot | DsmPkr.

Definition dsm_type_eqb (a b : dsm_type_t) : bool :=
  match a, b with DsmKroot, DsmKroot | DsmPkr, DsmPkr => true | _, _ => false end.

(** [DsmHeader::dsm_id], bitfields.rs:97-99. *)
Definition dsm_id (h : Z) : Z := load_be (sub 0 4 (bits_of_byte h)).

(** [DsmHeader::dsm_block_id], bitfields.rs:102-104. *)
Definition dsm_block_id (h : Z) : Z := load_be (sub 4 8 (bits_of_byte h)).

(** [DsmHeader::dsm_type], bitfields.rs:107-113. *)
Definition dsm_type (h : Z) : dsm_type_t := if 12 <=? dsm_id h then DsmPkr else DsmKroot.

(** [enum EcdsaFunction], bitfields.rs:354-359. *)
Inductive ecdsa_fn : Type := P256Sha256 | P521Sha512.

Definition ecdsa_fn_eqb (a b : ecdsa_fn) : bool :=
  match a, b with P256Sha256, P256Sha256 | P521Sha512, P521Sha512 => true | _, _ => false end.

(** ** DSM-PKR *)

(** [enum NewPublicKeyType], bitfields.rs:146-153. *)
Inductive npkt_t : Type := NpktEcdsaKey (f : ecdsa_fn) | NpktAlert | NpktReserved.

(** [DsmPkr::number_of_blocks], bitfields.rs:167-173. *)
Definition pkr_number_of_blocks (d : list Z) : outcome (option nat) :=
  v <- bits_at d 0 4 ;;
  Ok (if (7 <=? v) && (v <=? 10) then Some (Z.to_nat v + 6)%nat else None).

(** [DsmPkr::message_id], bitfields.rs:176-178. *)
Definition pkr_message_id (d : list Z) : outcome Z := bits_at d 4 8.

(** [DsmPkr::intermediate_tree_node], bitfields.rs:190-196. *)
Definition pkr_intermediate_tree_node (d : list Z) (j : nat) : outcome (list Z) :=
  assert_ (j <? 4)%nat ;;;
  slice d (1 + j * 32) (1 + (j + 1) * 32).

(** [DsmPkr::new_public_key_type], bitfields.rs:199-206. *)
Definition pkr_new_public_key_type (d : list Z) : outcome npkt_t :=
  v <- bits_at d 1032 1036 ;;
  Ok (match v with
      | 1 => NpktEcdsaKey P256Sha256
      | 3 => NpktEcdsaKey P521Sha512
      | 4 => NpktAlert
      | _ => NpktReserved
      end).

(** [DsmPkr::new_public_key_id], bitfields.rs:209-211. *)
Definition pkr_new_public_key_id (d : list Z) : outcome Z := bits_at d 1036 1040.

(** [DsmPkr::key_size], bitfields.rs:218-227 (bytes).  The subtraction cannot underflow
    because the number of blocks is at least 13. *)
Definition pkr_key_size (d : list Z) : outcome (option nat) :=
  t <- pkr_new_public_key_type d ;;
  match t with
  | NpktEcdsaKey P256Sha256 => Ok (Some 33%nat)
  | NpktEcdsaKey P521Sha512 => Ok (Some 67%nat)
  | NpktAlert => nb <- pkr_number_of_blocks d ;; Ok (option_map (fun n => n * 13 - 130)%nat nb)
  | NpktReserved => Ok None
  end.

(** [DsmPkr::new_public_key], bitfields.rs:233-235. *)
Definition pkr_new_public_key (d : list Z) : outcome (option (list Z)) :=
  ks <- pkr_key_size d ;;
  match ks with
  | None => Ok None
  | Some s => k <- slice d 130 (130 + s) ;; Ok (Some k)
  end.

(** [DsmPkr::padding], bitfields.rs:241-247. *)
Definition pkr_padding (d : list Z) : outcome (option (list Z)) :=
  ks <- pkr_key_size d ;;
  nb <- pkr_number_of_blocks d ;;
  match ks, nb with
  | Some ks, Some nb => p <- slice d (130 + ks) (nb * 104 / 8) ;; Ok (Some p)
  | _, _ => Ok None
  end.

(** [DsmPkr::merkle_tree_leaf], bitfields.rs:256-258. *)
Definition pkr_merkle_tree_leaf (d : list Z) : outcome (option (list Z)) :=
  ks <- pkr_key_size d ;;
  match ks with
  | None => Ok None
  | Some s => k <- slice d 129 (130 + s) ;; Ok (Some k)
  end.

(** [DsmPkr::check_padding], bitfields.rs:267-283. *)
Definition pkr_check_padding {C : crypto} (d root : list Z) : outcome bool :=
  p <- pkr_padding d ;;
  match p with
  | None => Ok false
  | Some padding =>
      if (length padding =? 0)%nat then Ok true
      else
        leaf <- pkr_merkle_tree_leaf d ;;
        leaf <- unwrap leaf ;;
        truncated <- slice (sha256 (root ++ leaf)) 0 (length padding) ;;
        Ok (bytes_eqb truncated padding)
  end.

(** ** DSM-KROOT *)

(** [bitfields::HashFunction] and [bitfields::MacFunction], bitfields.rs:324-346; the
    value [Reserved] is [None]. *)
Inductive hash_fn : Type := HashSha256 | HashSha3_256.
Inductive mac_fn : Type := MacHmacSha256 | MacCmacAes.

Definition hash_fn_eqb (a b : hash_fn) : bool :=
  match a, b with HashSha256, HashSha256 | HashSha3_256, HashSha3_256 => true | _, _ => false end.
Definition mac_fn_eqb (a b : mac_fn) : bool :=
  match a, b with MacHmacSha256, MacHmacSha256 | MacCmacAes, MacCmacAes => true | _, _ => false end.

(** [DsmKroot::number_of_blocks], bitfields.rs:373-379. *)
Definition kroot_number_of_blocks (d : list Z) : outcome (option nat) :=
  v <- bits_at d 0 4 ;;
  Ok (if (1 <=? v) && (v <=? 8) then Some (Z.to_nat v + 6)%nat else None).

(** [DsmKroot::public_key_id], bitfields.rs:382-384. *)
Definition kroot_public_key_id (d : list Z) : outcome Z := bits_at d 4 8.

(** [DsmKroot::kroot_chain_id], bitfields.rs:387-389. *)
Definition kroot_chain_id (d : list Z) : outcome Z := bits_at d 8 10.

(** [DsmKroot::hash_function], bitfields.rs:392-398. *)
Definition kroot_hash_function (d : list Z) : outcome (option hash_fn) :=
  v <- bits_at d 12 14 ;;
  Ok (match v with 0 => Some HashSha256 | 2 => Some HashSha3_256 | _ => None end).

(** [DsmKroot::mac_function], bitfields.rs:401-407. *)
Definition kroot_mac_function (d : list Z) : outcome (option mac_fn) :=
  v <- bits_at d 14 16 ;;
  Ok (match v with 0 => Some MacHmacSha256 | 1 => Some MacCmacAes | _ => None end).

(** [DsmKroot::key_size], bitfields.rs:416-434 (bits). *)
Definition kroot_key_size (d : list Z) : outcome (option nat) :=
  v <- bits_at d 16 20 ;;
  Ok (match v with
      | 0 => Some 96%nat | 1 => Some 104%nat | 2 => Some 112%nat | 3 => Some 120%nat
      | 4 => Some 128%nat | 5 => Some 160%nat | 6 => Some 192%nat | 7 => Some 224%nat
      | 8 => Some 256%nat | _ => None
      end).

(** [DsmKroot::tag_size], bitfields.rs:443-452 (bits). *)
Definition kroot_tag_size (d : list Z) : outcome (option nat) :=
  v <- bits_at d 20 24 ;;
  Ok (match v with
      | 5 => Some 20%nat | 6 => Some 24%nat | 7 => Some 28%nat | 8 => Some 32%nat
      | 9 => Some 40%nat | _ => None
      end).

(** [DsmKroot::mac_lookup_table], bitfields.rs:455-457. *)
Definition kroot_mac_lookup_table (d : list Z) : outcome Z := bits_at d 24 32.

(** [DsmKroot::kroot_wn], bitfields.rs:462-464. *)
Definition kroot_wn (d : list Z) : outcome Z := bits_at d 36 48.

(** [DsmKroot::kroot_towh], bitfields.rs:469-471. *)
Definition kroot_towh (d : list Z) : outcome Z := bits_at d 48 56.

(** [DsmKroot::alpha], bitfields.rs:476-478. *)
Definition kroot_alpha (d : list Z) : outcome Z := bits_at d 56 104.

(** [DsmKroot::kroot], bitfields.rs:489-495. *)
Definition kroot_kroot (d : list Z) : outcome (list Z) :=
  ks <- kroot_key_size d ;;
  size <- unwrap ks ;;
  slice d 13 (13 + size / 8).

(** [DsmKroot::ecdsa_function], bitfields.rs:506-528.  The subtractions cannot underflow:
    [kroot] has checked that the slice has that many bytes. *)
Definition kroot_ecdsa_function (d : list Z) : outcome ecdsa_fn :=
  k <- kroot_kroot d ;;
  let kroot_len := length k in
  let remaining_len := (length d - 13 - kroot_len)%nat in
  let p256_padding := ((13 - (kroot_len + 64) mod 13) mod 13)%nat in
  let p521_padding := ((13 - (kroot_len + 132) mod 13) mod 13)%nat in
  if (remaining_len =? 64 + p256_padding)%nat then Ok P256Sha256
  else if (remaining_len =? 132 + p521_padding)%nat then Ok P521Sha512
  else Panic.

(** [DsmKroot::digital_signature], bitfields.rs:539-546. *)
Definition kroot_digital_signature (d : list Z) : outcome (list Z) :=
  f <- kroot_ecdsa_function d ;;
  let size := match f with P256Sha256 => 64 | P521Sha512 => 132 end%nat in
  k <- kroot_kroot d ;;
  let start := (13 + length k)%nat in
  slice d start (start + size).

(** [DsmKroot::padding], bitfields.rs:549-552. *)
Definition kroot_padding (d : list Z) : outcome (list Z) :=
  k <- kroot_kroot d ;;
  s <- kroot_digital_signature d ;;
  slice d (13 + length k + length s) (length d).

(** [DsmKroot::signature_message], bitfields.rs:555-562.  The 209-byte scratch array,
    which is then cut to its first [end] bytes by the callers, is not represented. *)
Definition kroot_signature_message (d : list Z) (nma_header : Z) : outcome (list Z) :=
  k <- kroot_kroot d ;;
  let end_ := (13 + length k)%nat in
  m <- slice d 1 end_ ;;
  Ok (nma_header :: m).

(** [DsmKroot::check_padding], bitfields.rs:571-581. *)
Definition kroot_check_padding {C : crypto} (d : list Z) (nma_header : Z) : outcome bool :=
  message <- kroot_signature_message d nma_header ;;
  sig <- kroot_digital_signature d ;;
  let hash := sha256 (message ++ sig) in
  padding <- kroot_padding d ;;
  truncated <- slice hash 0 (length padding) ;;
  Ok (bytes_eqb truncated padding).

(** [DsmKroot::check_signature_p256], bitfields.rs:594-601, with [check_signature],
    bitfields.rs:637-648.  The conversion [digital_signature().into()] panics if the
    length is not 64, which the assertion excludes. *)
Definition kroot_check_signature_p256 {C : crypto} (d : list Z) (nma_header : Z) (pk : vk256)
  : outcome bool :=
  f <- kroot_ecdsa_function d ;;
  assert_ (ecdsa_fn_eqb f P256Sha256) ;;;
  message <- kroot_signature_message d nma_header ;;
  sig <- kroot_digital_signature d ;;
  assert_ (p256_sig_parses sig) ;;;
  Ok (p256_verify pk message sig).

(** [DsmKroot::check_signature_p521], bitfields.rs:615-622. *)
Definition kroot_check_signature_p521 {C : crypto} (d : list Z) (nma_header : Z) (pk : vk521)
  : outcome bool :=
  f <- kroot_ecdsa_function d ;;
  assert_ (ecdsa_fn_eqb f P521Sha512) ;;;
  message <- kroot_signature_message d nma_header ;;
  sig <- kroot_digital_signature d ;;
  assert_ (p521_sig_parses sig) ;;;
  Ok (p521_verify pk message sig).

(** ** MACK message *)

(** [struct Mack], bitfields.rs:688-693.  The type-state parameter is not represented.
    Sizes are in bits. *)
Record mack : Type := mkMack { mk_data : list bool; mk_key_size : nat; mk_tag_size : nat }.

(** [Mack::new], bitfields.rs:702-709. *)
Definition mack_new (data : list Z) (key_size tag_size : nat) : mack :=
  mkMack (bits_of_bytes data) key_size tag_size.

(** [Mack::tag0], bitfields.rs:731-733. *)
Definition mack_tag0 (m : mack) : outcome (list bool) := slice (mk_data m) 0 (mk_tag_size m).

(** [Mack::macseq], bitfields.rs:740-743. *)
Definition mack_macseq (m : mack) : outcome Z :=
  s <- slice (mk_data m) (mk_tag_size m) (mk_tag_size m + 12) ;; Ok (load_be s).

(** [Mack::cop], bitfields.rs:750-755. *)
Definition mack_cop (m : mack) : outcome Z :=
  s <- slice (mk_data m) (mk_tag_size m + 12) (mk_tag_size m + 12 + 4) ;; Ok (load_be s).

(** [Mack::num_tags], bitfields.rs:760-762.  Key sizes are at most 256 bits, so that the
    subtraction does not underflow. *)
Definition mack_num_tags (m : mack) : nat :=
  ((480 - mk_key_size m) / (mk_tag_size m + 16))%nat.

(** [Mack::key], bitfields.rs:768-771. *)
Definition mack_key (m : mack) : outcome (list bool) :=
  let start := ((mk_tag_size m + 16) * mack_num_tags m)%nat in
  slice (mk_data m) start (start + mk_key_size m).

(** [Mack::tag_and_info], bitfields.rs:840-847; a [TagAndInfo] (bitfields.rs:916-919) is
    its bit slice. *)
Definition mack_tag_and_info (m : mack) (n : nat) : outcome (list bool) :=
  assert_ ((0 <? n) && (n <? mack_num_tags m))%nat ;;;
  let size := (mk_tag_size m + 16)%nat in
  slice (mk_data m) (size * n) (size * (n + 1)).

(** [enum Prnd], bitfields.rs:927-937. *)
Inductive prnd_t : Type := PrndSvid (n : Z) | PrndConstellation | PrndReserved.

(** [impl TryFrom<Prnd> for u8], bitfields.rs:939-948. *)
Definition prnd_to_u8 (p : prnd_t) : option Z :=
  match p with
  | PrndSvid n => Some n
  | PrndConstellation => Some 255
  | PrndReserved => None
  end.

(** [enum Adkd], bitfields.rs:956-965. *)
Inductive adkd_t : Type := AdkdInavCed | AdkdInavTiming | AdkdSlowMac | AdkdReserved.

Definition adkd_eqb (a b : adkd_t) : bool :=
  match a, b with
  | AdkdInavCed, AdkdInavCed | AdkdInavTiming, AdkdInavTiming
  | AdkdSlowMac, AdkdSlowMac | AdkdReserved, AdkdReserved => true
  | _, _ => false
  end.

(** Accessors of [TagAndInfo], bitfields.rs:967-1008.  Its length is the tag size plus 16
    by construction, so that none of these slices is out of range. *)
(** [TagAndInfo::tag], bitfields.rs:969-971. *)
Definition tag_tag (t : list bool) : list bool := sub 0 (length t - 16) t.
(** [TagAndInfo::tag_info], bitfields.rs:976-978. *)
Definition tag_tag_info (t : list bool) : list bool := sub (length t - 16) (length t) t.
(** [TagAndInfo::prnd], bitfields.rs:981-988. *)
Definition tag_prnd (t : list bool) : prnd_t :=
  let v := load_be (sub (length t - 16) (length t - 8) t) in
  if (1 <=? v) && (v <=? 36) then PrndSvid v
  else if v =? 255 then PrndConstellation
  else PrndReserved.
(** [TagAndInfo::adkd], bitfields.rs:991-999. *)
Definition tag_adkd (t : list bool) : adkd_t :=
  match load_be (sub (length t - 8) (length t - 4) t) with
  | 0 => AdkdInavCed
  | 4 => AdkdInavTiming
  | 12 => AdkdSlowMac
  | _ => AdkdReserved
  end.
(** [TagAndInfo::cop], bitfields.rs:1004-1007. *)
Definition tag_cop (t : list bool) : Z := load_be (sub (length t - 4) (length t) t).

(** Model of galileo-osnma/src/tesla.rs and of [Mack::validate] (bitfields.rs:870-893).

    The type-state markers [Validated] and [NotValidated] are not represented: they are
    erased at run time, and their guarantees are what the theorems establish. *)
From Coq Require Import ZArith List Bool.
From Verif Require Import Model.Prelude Model.Params Model.Gst Model.Bitfields Model.Maclt.
Import ListNotations.
Open Scope Z_scope.

(** [struct Chain], tesla.rs:35-43. *)
Record chain : Type := mkChain {
  ch_id : Z;
  ch_hash : hash_fn;
  ch_mac : mac_fn;
  ch_key_bytes : nat;
  ch_tag_bits : nat;
  ch_maclt : Z;
  ch_alpha : Z
}.

(** Derived [PartialEq] of [Chain], tesla.rs:34. *)
Definition chain_eqb (a b : chain) : bool :=
  (ch_id a =? ch_id b) && hash_fn_eqb (ch_hash a) (ch_hash b) && mac_fn_eqb (ch_mac a) (ch_mac b)
  && (ch_key_bytes a =? ch_key_bytes b)%nat && (ch_tag_bits a =? ch_tag_bits b)%nat
  && (ch_maclt a =? ch_maclt b) && (ch_alpha a =? ch_alpha b).

(** [Chain::from_dsm_kroot], tesla.rs:76-104.  The only error is
    [ChainError::ReservedField]; it is [None]. *)
Definition chain_from_dsm_kroot (d : list Z) : outcome (option chain) :=
  h <- kroot_hash_function d ;;
  match h with
  | None => Ok None
  | Some hash_function =>
  m <- kroot_mac_function d ;;
  match m with
  | None => Ok None
  | Some mac_function =>
  ks <- kroot_key_size d ;;
  match ks with
  | None => Ok None
  | Some s =>
  assert_ (s mod 8 =? 0)%nat ;;;
  ts <- kroot_tag_size d ;;
  match ts with
  | None => Ok None
  | Some tag_size_bits =>
  id <- kroot_chain_id d ;;
  maclt <- kroot_mac_lookup_table d ;;
  alpha <- kroot_alpha d ;;
  Ok (Some (mkChain id hash_function mac_function (s / 8) tag_size_bits maclt alpha))
  end end end end.

(** [enum AdkdCheckError], tesla.rs:232-241. *)
Inductive adkd_error : Type := AdkdMacLT (e : maclt_error) | WrongAdkd | WrongPrnd.

(** Half of the GST minute, tesla.rs:179 and 988. *)
Definition half_minute (g : gst) : nat := Z.to_nat ((g_tow g / 30) mod 2).

(** [Chain::validate_adkd], tesla.rs:171-202. *)
Definition validate_adkd (c : chain) (num_tag : nat) (tag : list bool) (prna : Z) (gst_tag : gst)
  : outcome (result unit adkd_error) :=
  let msg := half_minute gst_tag in
  e <- get_maclt_entry (ch_maclt c) msg num_tag ;;
  match e with
  | RErr err => Ok (RErr (AdkdMacLT err))
  | ROk (SlotFixed adkd object) =>
      if negb (adkd_eqb (tag_adkd tag) adkd) then Ok (RErr WrongAdkd)
      else match tag_prnd tag with
           | PrndSvid prnd =>
               if auth_object_eqb object SelfAuth && negb (prnd =? prna) then Ok (RErr WrongPrnd)
               else if (1 <=? prnd) && (prnd <=? Z.of_nat num_svns) then Ok (ROk tt)
               else Ok (RErr WrongPrnd)
           | _ => Ok (RErr WrongPrnd)
           end
  | ROk SlotFlex => Ok (ROk tt)
  end.

(** ** Keys *)

(** [MAX_KEY_BYTES], tesla.rs:28. *)
Definition max_key_bytes : nat := 32.

(** [struct Key], tesla.rs:450-455. *)
Record tkey : Type := mkKey { k_data : list Z; k_chain : chain; k_gst : gst }.

(** The value of a key: the first [key_size_bytes] of the buffer. *)
Definition key_bytes (k : tkey) : list Z := firstn (ch_key_bytes (k_chain k)) (k_data k).

(** [Key::store_gst], tesla.rs:508-512: 12 bits of week number, 20 of time of week. *)
Definition gst_bits (g : gst) : list bool := store_be 12 (g_wn g) ++ store_be 20 (g_tow g).

(** [Key::from_slice], tesla.rs:546-556. *)
Definition key_from_slice (s : list Z) (g : gst) (c : chain) : outcome tkey :=
  assert_ (is_subframe g) ;;;
  data <- copy_from (repeat 0 max_key_bytes) 0 (ch_key_bytes c) s ;;
  Ok (mkKey data c g).

(** [Key::from_bitslice], tesla.rs:525-535. *)
Definition key_from_bitslice (s : list bool) (g : gst) (c : chain) : outcome tkey :=
  assert_ (is_subframe g) ;;;
  data <- copy_from (bits_of_bytes (repeat 0 max_key_bytes)) 0 (ch_key_bytes c * 8) s ;;
  Ok (mkKey (bytes_of_bits data) c g).

(** [enum KrootValidationError], tesla.rs:633-646. *)
Inductive kroot_error : Type :=
| WrongDsmKrootChain | WrongDsmKrootPadding | WrongEcdsa | WrongEcdsaKeyType.

(** [enum ValidationError], tesla.rs:462-477. *)
Inductive validation_error : Type :=
| WrongOneWayFunction | DifferentChain | DoesNotFollow | TooManyDerivations.

(** [enum MacseqCheckError], tesla.rs:1017-1022. *)
Inductive macseq_error : Type := MacseqMacLT (e : maclt_error) | WrongMacseq.

(** [enum MackValidationError], bitfields.rs:779-792. *)
Inductive mack_error : Type :=
| MacseqError (e : macseq_error)
| MackWrongAdkd (tag_index : nat) (e : adkd_error).

(** [alpha.to_be_bytes()[2..]], tesla.rs:689. *)
Definition alpha_bytes (a : Z) : list Z := bytes_of_bits (store_be 48 a).

(** The NMA status field in the MAC buffer, tesla.rs:907-912. *)
Definition nma_status_code (s : nma_status_t) : Z :=
  match s with NmaReserved => 0 | NmaTest => 1 | NmaOperational => 2 | NmaDontUse => 3 end.

(** Size of the navigation data part of the MAC buffer, tesla.rs:887. *)
Definition max_navdata_size : nat := 69.

(** Bits of the buffer after the six fixed bytes (tesla.rs:892-919): status, navigation
    data, and the zeros with which the buffer was created. *)
Definition status_and_navdata (s : nma_status_t) (navdata : list bool) : outcome (list bool) :=
  rest <- copy_from (bits_of_bytes (repeat 0 max_navdata_size)) 0 2 (store_be 2 (nma_status_code s)) ;;
  copy_from rest 2 (2 + length navdata) navdata.

(** The six fixed bytes of the buffer: PRNA, GST, CTR; tesla.rs:896-905. *)
Definition tag_header (g : gst) (prna ctr : Z) : list Z :=
  prna :: bytes_of_bits (gst_bits g) ++ [ctr].

(** [usize::div_ceil(8)] *)
Definition div_ceil8 (n : nat) : nat := ((n + 7) / 8)%nat.

(** Message given to the MAC by [update_mac_with_navdata], tesla.rs:921-934. *)
Definition mac_message (g : gst) (prna ctr : Z) (s : nma_status_t) (navdata : list bool)
  : outcome (list Z) :=
  rest <- status_and_navdata s navdata ;;
  slice (tag_header g prna ctr ++ bytes_of_bits rest) 0 (6 + div_ceil8 (2 + length navdata)).

(** Message given to the MAC by [update_mac_with_dummy], tesla.rs:936-949. *)
Definition mac_message_dummy (g : gst) (prna ctr : Z) (s : nma_status_t) (navdata_len_bits : nat)
  : outcome (list Z) :=
  rest <- copy_from (bits_of_bytes (repeat 0 max_navdata_size)) 0 2 (store_be 2 (nma_status_code s)) ;;
  slice (tag_header g prna ctr ++ bytes_of_bits rest) 0 (6 + div_ceil8 (2 + navdata_len_bits)).

Section Crypto.
Context {C : crypto} {B : build}.

(** Output of the hash function of the chain, tesla.rs:269-305. *)
Definition chain_hash (h : hash_fn) (m : list Z) : list Z :=
  match h with HashSha256 => sha256 m | HashSha3_256 => sha3_256 m end.

(** Output of the MAC function of the chain as the 32-byte array filled by
    [finalize_into], tesla.rs:307-350.  The CMAC only writes the first half. *)
Definition chain_mac (f : mac_fn) (key m : list Z) : list Z :=
  match f with
  | MacHmacSha256 => hmac_sha256 key m
  | MacCmacAes => cmac_aes128 key m ++ repeat 0 16
  end.

(** [mac_digest], tesla.rs:880-883: [Cmac<Aes128>::new_from_slice] rejects keys that are
    not 16 bytes long, and the error is unwrapped. *)
Definition mac_digest_ok (k : tkey) : outcome unit :=
  match ch_mac (k_chain k) with
  | MacHmacSha256 => Ok tt
  | MacCmacAes => assert_ (length (key_bytes k) =? 16)%nat
  end.

(** [Key::one_way_function], tesla.rs:681-700. *)
Definition one_way_function (k : tkey) : outcome tkey :=
  let c := k_chain k in
  let size := ch_key_bytes c in
  kd <- slice (k_data k) 0 size ;;
  previous_subframe <- add_seconds (k_gst k) (-30) ;;
  let hash_out := chain_hash (ch_hash c)
      (kd ++ bytes_of_bits (gst_bits previous_subframe) ++ alpha_bytes (ch_alpha c)) in
  h <- slice hash_out 0 size ;;
  new_key <- copy_from (repeat 0 max_key_bytes) 0 size h ;;
  Ok (mkKey new_key c previous_subframe).

(** [Key::derive], tesla.rs:711-717. *)
Fixpoint derive (k : tkey) (n : nat) : outcome tkey :=
  match n with
  | O => Ok k
  | S n' => k' <- one_way_function k ;; derive k' n'
  end.

(** [Key::validate_key], tesla.rs:731-756. *)
Definition validate_key (self other : tkey) : outcome (result tkey validation_error) :=
  if negb (chain_eqb (k_chain self) (k_chain other)) then Ok (RErr DifferentChain)
  else if negb (gst_ltb (k_gst self) (k_gst other)) then Ok (RErr DoesNotFollow)
  else
    let derivations := subframes_difference (k_gst other) (k_gst self) in
    assert_ (1 <=? derivations) ;;;
    if 3000 <? derivations then Ok (RErr TooManyDerivations)
    else
      derived_key <- derive other (Z.to_nat derivations) ;;
      assert_ (gst_eqb (k_gst derived_key) (k_gst self)) ;;;
      let size := ch_key_bytes (k_chain self) in
      a <- slice (k_data derived_key) 0 size ;;
      b <- slice (k_data self) 0 size ;;
      if bytes_eqb a b then Ok (ROk other) else Ok (RErr WrongOneWayFunction).

(** [Key::from_dsm_kroot], tesla.rs:591-624.  The NMA header returned as validated is the
    one given. *)
Definition key_from_dsm_kroot (nma_header : Z) (d : list Z) (pubkey : verifying_key)
  : outcome (result tkey kroot_error) :=
  c <- chain_from_dsm_kroot d ;;
  match c with
  | None => Ok (RErr WrongDsmKrootChain)
  | Some c =>
  pad <- kroot_check_padding d nma_header ;;
  if negb pad then Ok (RErr WrongDsmKrootPadding)
  else
  f <- kroot_ecdsa_function d ;;
  sig <- match pubkey, f with
         | VkP256 pk, P256Sha256 =>
             ok <- kroot_check_signature_p256 d nma_header pk ;;
             Ok (if ok then None else Some WrongEcdsa)
         | VkP521 pk, P521Sha512 =>
             if feature_p521 then
               ok <- kroot_check_signature_p521 d nma_header pk ;;
               Ok (if ok then None else Some WrongEcdsa)
             else Ok (Some WrongEcdsaKeyType)
         | _, _ => Ok (Some WrongEcdsaKeyType)
         end ;;
  match sig with
  | Some e => Ok (RErr e)
  | None =>
  wn <- kroot_wn d ;;
  towh <- kroot_towh d ;;
  g <- gst_new wn (towh * 3600) ;;
  assert_ (is_subframe g) ;;;
  g <- add_seconds g (-30) ;;
  s <- kroot_kroot d ;;
  k <- key_from_slice s g c ;;
  Ok (ROk k)
  end end.

(** [Key::check_common], tesla.rs:951-956, on the complete message of the MAC. *)
Definition check_common (k : tkey) (message : list Z) (tag : list bool) : outcome bool :=
  let mac_out := chain_mac (ch_mac (k_chain k)) (key_bytes k) message in
  computed <- slice (bits_of_bytes mac_out) 0 (length tag) ;;
  Ok (bits_eqb computed tag).

(** [Key::validate_tag], tesla.rs:783-797. *)
Definition validate_tag (k : tkey) (tag : list bool) (tag_gst : gst) (prnd prna ctr : Z)
    (s : nma_status_t) (navdata : list bool) : outcome bool :=
  mac_digest_ok k ;;;
  m <- mac_message tag_gst prna ctr s navdata ;;
  check_common k (prnd :: m) tag.

(** [Key::validate_tag_dummy], tesla.rs:809-823. *)
Definition validate_tag_dummy (k : tkey) (tag : list bool) (tag_gst : gst) (prnd prna ctr : Z)
    (s : nma_status_t) (navdata_len_bits : nat) : outcome bool :=
  mac_digest_ok k ;;;
  m <- mac_message_dummy tag_gst prna ctr s navdata_len_bits ;;
  check_common k (prnd :: m) tag.

(** [Key::validate_tag0], tesla.rs:845-856. *)
Definition validate_tag0 (k : tkey) (tag0 : list bool) (tag_gst : gst) (prna : Z)
    (s : nma_status_t) (navdata : list bool) : outcome bool :=
  mac_digest_ok k ;;;
  m <- mac_message tag_gst prna 1 s navdata ;;
  check_common k m tag0.

(** [Key::validate_tag0_dummy], tesla.rs:867-878. *)
Definition validate_tag0_dummy (k : tkey) (tag0 : list bool) (tag_gst : gst) (prna : Z)
    (s : nma_status_t) (navdata_len_bits : nat) : outcome bool :=
  mac_digest_ok k ;;;
  m <- mac_message_dummy tag_gst prna 1 s navdata_len_bits ;;
  check_common k m tag0.

(** Tag-info fields appended to the MACSEQ message, tesla.rs:990-995. *)
Fixpoint flx_tag_infos (m : mack) (indices : list nat) : outcome (list Z) :=
  match indices with
  | [] => Ok []
  | idx :: rest =>
      t <- mack_tag_and_info m idx ;;
      dest <- copy_from (repeat false 16) 0 16 (tag_tag_info t) ;;
      more <- flx_tag_infos m rest ;;
      Ok (bytes_of_bits dest ++ more)
  end.

(** [Key::validate_macseq], tesla.rs:974-1009. *)
Definition validate_macseq (k : tkey) (m : mack) (prna : Z) (gst_mack : gst)
  : outcome (result unit macseq_error) :=
  mac_digest_ok k ;;;
  let fixed := prna :: bytes_of_bits (gst_bits gst_mack) in
  let msg := half_minute gst_mack in
  idxs <- get_flx_indices (ch_maclt (k_chain k)) msg ;;
  match idxs with
  | RErr e => Ok (RErr (MacseqMacLT e))
  | ROk idxs =>
      infos <- flx_tag_infos m idxs ;;
      let mac_out := chain_mac (ch_mac (k_chain k)) (key_bytes k) (fixed ++ infos) in
      computed <- slice (bits_of_bytes mac_out) 0 12 ;;
      macseq <- mack_macseq m ;;
      Ok (if bits_eqb computed (store_be 12 macseq) then ROk tt else RErr WrongMacseq)
  end.

(** The loop of [Mack::validate], bitfields.rs:878-886. *)
Fixpoint validate_adkds (k : tkey) (m : mack) (prna : Z) (gst_mack : gst) (js : list nat)
  : outcome (result unit mack_error) :=
  match js with
  | [] => Ok (ROk tt)
  | j :: js' =>
      tag <- mack_tag_and_info m j ;;
      r <- validate_adkd (k_chain k) j tag prna gst_mack ;;
      match r with
      | RErr e => Ok (RErr (MackWrongAdkd j e))
      | ROk _ => validate_adkds k m prna gst_mack js'
      end
  end.

(** [Mack::validate], bitfields.rs:870-893. *)
Definition mack_validate (m : mack) (k : tkey) (prna : Z) (gst_mack : gst)
  : outcome (result mack mack_error) :=
  r <- validate_macseq k m prna gst_mack ;;
  match r with
  | RErr e => Ok (RErr (MacseqError e))
  | ROk _ =>
      r <- validate_adkds k m prna gst_mack (seq 1 (mack_num_tags m - 1)) ;;
      match r with
      | RErr e => Ok (RErr e)
      | ROk _ => Ok (ROk m)
      end
  end.

End Crypto.

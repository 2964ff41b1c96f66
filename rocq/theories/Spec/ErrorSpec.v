(** What the documentation of the error values of the crate says of the thing rejected, in terms
    of the bytes of the messages and of the tables of the OSNMA ICD. *)
From Coq Require Import ZArith String List Bool.
From Verif Require Import Model.Prelude Model.Params Model.Gst Model.Bitfields Model.Maclt Model.Tesla Model.Merkle
  Spec.TimeSpec Spec.TeslaSpec Spec.MacltSpec Spec.KrootSpec Spec.MerkleSpec Spec.FieldSpec.
Import ListNotations.
Open Scope list_scope.
Open Scope Z_scope.

(** A code that a table does not have. *)
Definition reserved {A} (table : list (Z * A)) (code : Z) : Prop := forall x, ~ In (code, x) table.

Section Crypto.
Context {C : crypto} {B : build}.

(** [ValidationError], tesla.rs:462-477: [other] is checked with [self]. *)
Definition key_error_documented (self other : tkey) (e : validation_error) : Prop :=
  match e with
  | DifferentChain => ch_id (k_chain self) <> ch_id (k_chain other)
  | DoesNotFollow => time_of (k_gst other) <= time_of (k_gst self)
  | TooManyDerivations => 30 * 3000 < time_of (k_gst other) - time_of (k_gst self)
  | WrongOneWayFunction =>
      exists n, (1 <= n <= 3000)%nat /\ time_of (k_gst other) = time_of (k_gst self) + 30 * Z.of_nat n /\
        ~ key_before (k_chain self) n (key_bytes other) (time_of (k_gst other)) (key_bytes self)
  end.

(** [KrootValidationError] and [ChainError], tesla.rs:210-214 and 633-646.  The codes of the hash
    function, MAC function, key size and tag size are in the second and third bytes. *)
Definition kroot_error_documented (h : Z) (d : list Z) (pk : verifying_key) (e : kroot_error) : Prop :=
  match e with
  | WrongDsmKrootChain =>
      reserved hash_table (nth 1 d 0 / 4 mod 4) \/ reserved mac_table (nth 1 d 0 mod 4) \/
      reserved key_size_table (nth 2 d 0 / 16) \/ reserved tag_size_table (nth 2 d 0 mod 16)
  | WrongDsmKrootPadding =>
      exists f m, kroot_layout d f /\ kroot_signed h f m /\
        kf_pad f <> firstn (List.length (kf_pad f)) (sha256 (m ++ kf_sig f))
  | WrongEcdsa =>
      exists f m, kroot_layout d f /\ kroot_signed h f m /\
        match pk with
        | VkP256 k => List.length (kf_sig f) = 64%nat /\ p256_verify k m (kf_sig f) = false
        | VkP521 k => List.length (kf_sig f) = 132%nat /\ p521_verify k m (kf_sig f) = false
        end
  | WrongEcdsaKeyType =>
      exists f, kroot_layout d f /\
        List.length (kf_sig f) = match pk with VkP256 _ => 132%nat | VkP521 _ => 64%nat end
  end.

(** ADKD that an entry of the look-up table asks for, and whether it asks for a tag of the
    transmitting satellite itself. *)
Definition code_adkd (code : string) : option Z :=
  (if String.eqb code "00S" then Some 0 else if String.eqb code "00E" then Some 0
   else if String.eqb code "04S" then Some 4
   else if String.eqb code "12S" then Some 12 else if String.eqb code "12E" then Some 12 else None)%string.
Definition code_self (code : string) : bool :=
  (String.eqb code "00S" || String.eqb code "04S" || String.eqb code "12S")%string.

(** Tag [j] of a message, with its PRND and ADKD fields, where the sequence has [code]. *)
Definition tag_with (codes : list string) (bits : list bool) (ts j : nat) (code : string) (prnd adkd : Z) : Prop :=
  nth_error codes j = Some code /\ 0 <= prnd < 256 /\ 0 <= adkd < 16 /\
  exists cop, info_at bits ts j = be 8 prnd ++ be 4 adkd ++ be 4 cop.

(** [MackValidationError], [MacseqCheckError], [AdkdCheckError] and [MacLTError],
    bitfields.rs:779-792, tesla.rs:232-241 and 1017-1022, maclt.rs:248-255.  The tag named is the
    first one that is wrong. *)
Definition mack_error_documented (c : chain) (key : list Z) (prna t : Z) (data : list Z) (ks ts : nat)
    (e : mack_error) : Prop :=
  let bits := bits_of_bytes data in
  let num_tags := ((480 - ks) / (ts + 16))%nat in
  let sequence := icd_sequence (ch_maclt c) (Z.to_nat (t / 30 mod 2)) in
  let macseq_right codes :=
    tag_of (ch_mac c) key (be 8 prna ++ gst_field t ++ concat (map (info_at bits ts) (flx_positions codes)))
      (sub ts (ts + 12) bits) in
  match e with
  | MacseqError (MacseqMacLT InvalidMaclt) => sequence = None
  | MacseqError (MacseqMacLT InvalidTagNumber) => False
  | MacseqError WrongMacseq => exists codes, sequence = Some codes /\ ~ macseq_right codes
  | MackWrongAdkd j e =>
      (1 <= j < num_tags)%nat /\
      exists codes, sequence = Some codes /\ macseq_right codes /\
      (forall i, (1 <= i < j)%nat -> exists code prnd adkd,
         tag_with codes bits ts i code prnd adkd /\ code_allows code prna prnd adkd) /\
      match e with
      | AdkdMacLT InvalidMaclt => False
      | AdkdMacLT InvalidTagNumber => (List.length codes <= j)%nat
      | WrongAdkd => exists code prnd adkd a,
          tag_with codes bits ts j code prnd adkd /\ code_adkd code = Some a /\ adkd <> a
      | WrongPrnd => exists code prnd adkd,
          tag_with codes bits ts j code prnd adkd /\ code_adkd code = Some adkd /\
          (~ 1 <= prnd <= 36 \/ code_self code = true /\ prnd <> prna)
      end
  end.

(** [PkrError], merkle_tree.rs:137-151.  The type of the new public key is in the byte after the
    intermediate tree nodes, and the number of blocks in the first byte. *)
Definition pkr_error_documented (root d : list Z) (e : pkr_error) : Prop :=
  match e with
  | PkrReservedField => reserved npkt_table (nth 129 d 0 / 16) \/ reserved nb_dp_table (nth 0 d 0 / 16)
  | PkrInvalid => exists f, pkr_layout d f /\ sha256 (path_input f 4) <> root
  | PkrNoPublicKey => nth 129 d 0 / 16 <> 1 /\ nth 129 d 0 / 16 <> 3
  | PkrNotAlert => nth 129 d 0 / 16 <> 4
  | PkrP521NotSupported => nth 129 d 0 / 16 = 3 /\ feature_p521 = false
  end.

End Crypto.

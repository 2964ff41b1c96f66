(** Property C73: the errors of the validation functions give the right reason. *)
From Coq Require Import ZArith String List Bool Lia.
From Verif Require Import Model.Prelude Model.Params Model.Gst Model.Bitfields Model.Maclt Model.Tesla Model.Merkle
  Spec.TimeSpec Spec.TeslaSpec Spec.MacltSpec Spec.KrootSpec Spec.MerkleSpec Spec.FieldSpec Spec.ErrorSpec
  Proofs.Base Proofs.LayoutProofs Proofs.TeslaProofs Proofs.MackValidProofs Proofs.ErrorProofs Examples.Sha256
  Examples.Vectors Props.TeslaProps Props.MerkleProps.
Import ListNotations.
Open Scope list_scope.
Open Scope Z_scope.

(** DSM-KROOT: a reserved code, the padding, the signature or the type of the key. *)
Theorem C73_kroot_errors : forall (C : crypto) (B : build), crypto_ok C ->
  forall h d pk e, is_byte h -> Forall is_byte d ->
  (forall k521, pk = VkP521 k521 -> feature_p521 = true) ->
  key_from_dsm_kroot h d pk = Ok (RErr e) -> kroot_error_documented h d pk e.
Proof. intros C B HC. exact (key_from_dsm_kroot_says HC). Qed.

(** MACK: the look-up table, the MACSEQ, or the first tag that does not have the ADKD or the
    satellite of the table. *)
Theorem C73_mack_errors : forall (C : crypto) (B : build), crypto_ok C ->
  forall data ks ts, List.length data = 60%nat ->
  In ks announced_key_sizes -> In ts announced_tag_sizes ->
  forall k prna g e, made k -> mac_usable k -> gst_ok g -> is_byte prna ->
  (forall codes, icd_sequence (ch_maclt (k_chain k)) (half_minute g) = Some codes ->
     Forall (fun i => (i < (480 - ks) / (ts + 16))%nat) (flx_positions codes)) ->
  mack_validate (mack_new data ks ts) k prna g = Ok (RErr e) ->
  mack_error_documented (k_chain k) (key_bytes k) prna (time_of g) data ks ts e.
Proof.
  intros C B HC data ks ts Hd H1 H2 k prna g e Hk Hu Hg Hp Hf.
  exact (mack_validate_says HC data ks ts Hd (announced_sizes_ok _ _ H1 H2) k prna g e (made_ok HC _ Hk) Hu Hg Hp Hf).
Qed.

(** DSM-PKR with a public key. *)
Theorem C73_public_key_errors : forall (C : crypto) (B : build) root d e, Forall is_byte d ->
  validate_pkr root d = Ok (RErr e) -> pkr_error_documented root d e.
Proof. intros C B root d e Hd H. exact (proj2 (validate_pkr_says root d e Hd H)). Qed.

(** The full claim about DSM-PKR with an alert message is the same with [validate_alert_message]:

      forall C root d e, Forall is_byte d -> validate_alert_message root d = Ok (RErr e) ->
        pkr_error_documented root d e.

    It is false: a message that is not an alert is rejected with the error that says that it has
    no public key, also if it has one, and not with the one that says that it is not an alert. *)
Theorem C73_alert_errors_refuted : exists (C : crypto) (B : build) root d f, crypto_ok C /\ Forall is_byte d /\
  pkr_layout d f /\ pf_npkt f = 1 /\ List.length (pf_key f) = 33%nat /\
  validate_alert_message root d = Ok (RErr PkrNoPublicKey) /\ ~ pkr_error_documented root d PkrNoPublicKey.
Proof.
  exists demo_crypto, debug_build, (tree_root demo_leaves), (demo_pkr 9), (demo_pkr_fields 9).
  split; [exact demo_crypto_ok|]. split; [apply all_bytes; vm_compute; reflexivity|].
  split; [exact (proj1 C22_example_hypotheses)|]. split; [reflexivity|]. split; [reflexivity|].
  assert (E : nth 129 (demo_pkr 9) 0 / 16 = 1) by (vm_compute; reflexivity).
  split; [vm_compute; reflexivity|]. cbn [pkr_error_documented]. rewrite E. intros (K & _). now apply K.
Qed.

(** What holds of it: the error of a missing public key means that the message is not an alert,
    and the other errors are as documented. *)
Theorem C73_alert_errors_partial : forall (C : crypto) (B : build) root d e, Forall is_byte d ->
  validate_alert_message root d = Ok (RErr e) ->
  match e with
  | PkrNoPublicKey => nth 129 d 0 / 16 <> 4
  | _ => nth 129 d 0 / 16 = 4 /\ pkr_error_documented root d e
  end.
Proof. intros C B. exact validate_alert_says. Qed.

(** The error for a message that is not an alert is never returned for one. *)
Theorem C73_not_alert_is_never_returned : forall (C : crypto) (B : build) root d, Forall is_byte d ->
  nth 129 d 0 / 16 <> 4 ->
  validate_pkr root d <> Ok (RErr PkrNotAlert) /\ validate_alert_message root d <> Ok (RErr PkrNotAlert).
Proof.
  intros C B root d Hd Hn. split; intros H.
  - now apply (proj1 (validate_pkr_says root d _ Hd H)).
  - now apply Hn, (proj1 (validate_alert_says root d _ Hd H)).
Qed.

(** The full claim about TESLA keys is

      forall C B, crypto_ok C -> forall self other e, made self -> made other ->
        validate_key self other = Ok (RErr e) -> key_error_documented self other e.

    It is false: the error that says that the chains have different ids is also returned for
    chains with the same id and other parameters. *)
Definition c73_kroot : list Z := flip 12 test_kroot.
Definition c73_chain : chain :=
  match chain_from_dsm_kroot c73_kroot with Ok (Some c) => c | _ => test_chain end.
Definition c73_key : tkey :=
  match key_from_slice (hex "42 b4 19 da 6a da 1c 0a 3d 6f 56 a5 e5 dc 59 a7") (mkGst 1176 120930) c73_chain with
  | Ok k => k | Panic => demo_k1 end.
Lemma c73_key_made : made c73_key.
Proof.
  apply (made_slice c73_kroot c73_chain (hex "42 b4 19 da 6a da 1c 0a 3d 6f 56 a5 e5 dc 59 a7") (mkGst 1176 120930)).
  - vm_compute. reflexivity.
  - apply all_bytes. vm_compute. reflexivity.
  - vm_compute. intuition congruence.
  - vm_compute. reflexivity.
Qed.

Theorem C73_key_errors_refuted : exists (C : crypto) (B : build) (self other : tkey), crypto_ok C /\
  made self /\ made other /\ validate_key self other = Ok (RErr DifferentChain) /\
  ~ key_error_documented self other DifferentChain.
Proof.
  exists demo_crypto, debug_build, demo_k0, c73_key. split; [exact demo_crypto_ok|]. split; [exact demo_k0_made|].
  split; [exact c73_key_made|]. split; [vm_compute; reflexivity|]. cbn [key_error_documented]. intros K. apply K.
  vm_compute. reflexivity.
Qed.

(** What holds of it: that error means that some parameter of the chains is different, and the
    others are as documented and are only given for keys of the same chain. *)
Theorem C73_key_errors_partial : forall (C : crypto) (B : build), crypto_ok C ->
  forall self other e, made self -> made other -> validate_key self other = Ok (RErr e) ->
  match e with
  | DifferentChain => k_chain self <> k_chain other
  | _ => k_chain self = k_chain other /\ key_error_documented self other e
  end.
Proof.
  intros C B HC self other e H1 H2. exact (validate_key_says HC self other e (made_ok HC _ H1) (made_ok HC _ H2)).
Qed.

(** Messages and keys that give each of the errors. *)
Example C73_example_kroot :
  key_from_dsm_kroot demo_hdr (put 1 [nth 1 demo_kroot 0 + 4] demo_kroot) (VkP256 demo_pk) = Ok (RErr WrongDsmKrootChain) /\
  key_from_dsm_kroot demo_hdr (put 1 [nth 1 demo_kroot 0 + 2] demo_kroot) (VkP256 demo_pk) = Ok (RErr WrongDsmKrootChain) /\
  key_from_dsm_kroot demo_hdr (put 2 [16 * 9 + 9] demo_kroot) (VkP256 demo_pk) = Ok (RErr WrongDsmKrootChain) /\
  key_from_dsm_kroot demo_hdr (put 2 [16 * 4 + 4] demo_kroot) (VkP256 demo_pk) = Ok (RErr WrongDsmKrootChain) /\
  key_from_dsm_kroot demo_hdr (flip 12 demo_kroot) (VkP256 demo_pk) = Ok (RErr WrongDsmKrootPadding) /\
  key_from_dsm_kroot (B := {| overflow_checks := true; feature_p521 := true |}) demo_hdr demo_kroot (VkP521 demo_pk)
    = Ok (RErr WrongEcdsaKeyType).
Proof. vm_compute. repeat split. Qed.

Example C73_example_mack :
  let go data := mack_validate (mack_new data 128 40) demo_tagkey 19 (mkGst 1176 121050) in
  go (flip 5 demo_mack) = Ok (RErr (MacseqError WrongMacseq)) /\
  go (put 13 [64] demo_mack) = Ok (RErr (MackWrongAdkd 1 WrongAdkd)) /\
  go (put 12 [0] demo_mack) = Ok (RErr (MackWrongAdkd 1 WrongPrnd)).
Proof. vm_compute. repeat split. Qed.

Example C73_example_pkr :
  let root := tree_root demo_leaves in
  show_error (validate_pkr root (flip 131 (demo_pkr 9))) = Some PkrInvalid /\
  show_error (validate_pkr root (demo_pkr 15)) = Some PkrNoPublicKey /\
  show_error (validate_pkr root (put 129 [0] (demo_pkr 9))) = Some PkrNoPublicKey /\
  validate_alert_message root (put 0 [16 * 11 + 15] (demo_pkr 15)) = Ok (RErr PkrReservedField) /\
  validate_alert_message root (flip 131 (demo_pkr 15)) = Ok (RErr PkrInvalid).
Proof. cbv zeta. repeat match goal with |- _ /\ _ => split end; vm_compute; reflexivity. Qed.

(** A key two days later, and the same key twice. *)
Definition c73_late : tkey :=
  match key_from_slice (hex "42 b4 19 da 6a da 1c 0a 3d 6f 56 a5 e5 dc 59 a7") (mkGst 1176 293730) test_chain with
  | Ok k => k | Panic => demo_k1 end.
Example C73_example_key :
  validate_key demo_k0 c73_late = Ok (RErr TooManyDerivations) /\
  validate_key demo_k0 demo_k0 = Ok (RErr DoesNotFollow) /\
  validate_key demo_k1 demo_k0 = Ok (RErr DoesNotFollow) /\
  ch_id (k_chain demo_k0) = ch_id (k_chain c73_key) /\ ch_alpha (k_chain demo_k0) <> ch_alpha (k_chain c73_key).
Proof. repeat match goal with |- _ /\ _ => split end; vm_compute; congruence. Qed.

Print Assumptions C73_kroot_errors.
Print Assumptions C73_mack_errors.
Print Assumptions C73_public_key_errors.
Print Assumptions C73_alert_errors_refuted.
Print Assumptions C73_alert_errors_partial.
Print Assumptions C73_not_alert_is_never_returned.
Print Assumptions C73_key_errors_refuted.
Print Assumptions C73_key_errors_partial.

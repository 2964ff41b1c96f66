(** Properties C14, C15, C16, C17 and C19: TESLA keys, KROOT messages, tags and MACK
    messages. *)
From Coq Require Import ZArith String List Bool Lia.
From Verif Require Import Model.Prelude Model.Params Model.Gst Model.Bitfields Model.Maclt Model.Tesla
  Spec.TimeSpec Spec.TeslaSpec Spec.MacltSpec Spec.KrootSpec
  Proofs.Base Proofs.GstProofs Proofs.LayoutProofs Proofs.TeslaProofs Proofs.KrootProofs
  Proofs.MackValidProofs Examples.Sha256 Examples.Vectors.
Import ListNotations.
Open Scope list_scope.
Open Scope Z_scope.

(** ** Keys made by the public constructors *)

(** Chains come from DSM-KROOT messages; keys from a DSM-KROOT, from bytes or bits received
    in a MACK, and from other keys by the one-way function. *)
Inductive made {C : crypto} {B : build} : tkey -> Prop :=
| made_kroot : forall h d pk k, is_byte h -> Forall is_byte d ->
    key_from_dsm_kroot h d pk = Ok (ROk k) -> made k
| made_slice : forall d c s g k, chain_from_dsm_kroot d = Ok (Some c) -> Forall is_byte s -> gst_ok g ->
    key_from_slice s g c = Ok k -> made k
| made_bitslice : forall d c s g k, chain_from_dsm_kroot d = Ok (Some c) -> gst_ok g ->
    key_from_bitslice s g c = Ok k -> made k
| made_owf : forall k k', made k -> one_way_function k = Ok k' -> made k'.

Section Crypto.
Context {C : crypto} {B : build}.
Hypothesis HC : crypto_ok C.

Lemma one_way_function_ok k k' : key_ok k -> one_way_function k = Ok k' -> key_ok k'.
Proof.
  intros Hk H. pose proof Hk as [Hc (Hd1 & Hd2) Hg Hsub].
  pose proof (key_bytes_bound _ Hc) as Hsize.
  unfold one_way_function in H. rewrite slice_in in H by lia. cbn [bind] in H.
  destruct (add_seconds (k_gst k) (-30)) as [g'|] eqn:E; [|discriminate]. cbn [bind] in H.
  apply add_seconds_exact in E; auto; [|lia]. destruct E as (Hg' & Ht & _).
  set (msg := sub 0 (ch_key_bytes (k_chain k)) (k_data k) ++ _) in H.
  pose proof (hash_bytes HC (ch_hash (k_chain k)) msg) as (Hh1 & Hh2).
  rewrite slice_in in H by lia. cbn [bind] in H.
  set (hh := sub 0 (ch_key_bytes (k_chain k)) (chain_hash (ch_hash (k_chain k)) msg)) in H.
  assert (Hlh : List.length hh = ch_key_bytes (k_chain k)) by (unfold hh; rewrite length_sub by lia; lia).
  assert (Hbh : Forall is_byte hh) by (now apply Forall_sub).
  rewrite copy_from_in in H by (rewrite ?repeat_length; unfold max_key_bytes; lia). cbn [bind] in H.
  injection H as <-.
  destruct (put_zeros_key (ch_key_bytes (k_chain k)) hh Hlh) as (P1 & P2); auto; [lia|].
  constructor; cbn [k_chain k_gst k_data]; auto.
  apply is_subframe_start. apply is_subframe_start in Hsub. destruct Hsub as (n & Hn).
  rewrite Hn in Ht. unfold subframe_start.
  exists ((n - 1) mod (65536 * 20160)). rewrite Ht.
  replace (30 * n + -30) with (30 * (n - 1)) by lia.
  replace (65536 * 604800) with (30 * (65536 * 20160)) by lia.
  rewrite Z.mul_mod_distr_l; lia.
Qed.

Lemma made_ok k : made k -> key_ok k.
Proof.
  induction 1.
  - destruct (key_from_dsm_kroot_sound HC _ _ _ _ H H0 H1) as (f & _ & _ & _ & K). exact K.
  - apply chain_from_dsm_kroot_ok in H.
    unfold key_from_slice in H2. bind_inv H2. destruct x. apply assert_ok in E.
    bind_inv H2. injection H2 as <-. apply copy_from_ok in E0.
    destruct E0 as (A1 & A2 & A3 & ->).
    destruct (key_from_slice_ok s g c) as (k' & K1 & K2 & K3); auto; [lia|].
    unfold key_from_slice in K1. rewrite E in K1. cbn [assert_ bind] in K1.
    rewrite copy_from_in in K1 by lia. cbn [bind] in K1. injection K1 as <-. exact K2.
  - apply chain_from_dsm_kroot_ok in H.
    unfold key_from_bitslice in H1. bind_inv H1. destruct x. apply assert_ok in E.
    bind_inv H1. injection H1 as <-. apply copy_from_ok in E0.
    destruct E0 as (A1 & A2 & A3 & ->).
    destruct (key_from_bitslice_ok s g c) as (k' & K1 & K2 & K3); auto; [lia|].
    unfold key_from_bitslice in K1. rewrite E in K1. cbn [assert_ bind] in K1.
    rewrite copy_from_in in K1 by lia. cbn [bind] in K1. injection K1 as <-. exact K2.
  - eauto using one_way_function_ok.
Qed.
End Crypto.

(** Keys made by the constructors are well formed: the hypothesis [key_ok] of the theorems
    below only says that they were made in this way. *)
Theorem C14_constructors_well_formed : forall (C : crypto) (B : build), crypto_ok C ->
  forall k, made k -> key_ok k.
Proof. intros C B HC. exact (made_ok HC). Qed.

(** ** C14 *)

Theorem C14_validate_key_exact : forall (C : crypto) (B : build), crypto_ok C ->
  forall self other, made self -> made other ->
  exists r, validate_key self other = Ok r /\
  (match r with ROk k => k = other | RErr _ => True end) /\
  ((exists k, r = ROk k) <->
   k_chain other = k_chain self /\
   exists n, (1 <= n <= 3000)%nat /\ time_of (k_gst other) = time_of (k_gst self) + 30 * Z.of_nat n /\
     key_before (k_chain self) n (key_bytes other) (time_of (k_gst other)) (key_bytes self)).
Proof.
  intros C B HC self other H1 H2.
  exact (validate_key_exact HC self other (made_ok HC _ H1) (made_ok HC _ H2)).
Qed.

(** A key received on 2022-03-07 validates with the KROOT of the same hour, 32 subframes
    before, and with a bit changed it does not. *)
Definition demo_dsm : list Z := test_kroot.
Definition demo_k0 : tkey := match test_kroot_key with Ok k => k | Panic => mkKey [] test_chain (mkGst 0 0) end.
Definition demo_k1 : tkey := match test_key0 with Ok k => k | Panic => mkKey [] test_chain (mkGst 0 0) end.

Lemma demo_chain : chain_from_dsm_kroot demo_dsm = Ok (Some test_chain).
Proof. vm_compute. reflexivity. Qed.

Lemma demo_k0_made : made demo_k0.
Proof.
  apply (made_slice demo_dsm test_chain (hex "84 1e 1d e4 d4 58 c0 e9 84 24 76 e0 04 66 6c f3")
           (mkGst 1176 (33 * 3600 - 30))).
  - exact demo_chain.
  - apply all_bytes. vm_compute. reflexivity.
  - vm_compute. intuition congruence.
  - vm_compute. reflexivity.
Qed.

Lemma demo_k1_made : made demo_k1.
Proof.
  apply (made_slice demo_dsm test_chain (hex "42 b4 19 da 6a da 1c 0a 3d 6f 56 a5 e5 dc 59 a7")
           (mkGst 1176 120930)).
  - exact demo_chain.
  - apply all_bytes. vm_compute. reflexivity.
  - vm_compute. intuition congruence.
  - vm_compute. reflexivity.
Qed.

Example C14_example :
  validate_key demo_k0 demo_k1 = Ok (ROk demo_k1) /\
  time_of (k_gst demo_k1) = time_of (k_gst demo_k0) + 30 * 72 /\
  (k <- key_from_slice (hex "42 b4 19 da 6a da 1c 0a 3d 6f 56 a5 e5 dc 59 a6") (mkGst 1176 120930) test_chain ;;
   validate_key demo_k0 k) = Ok (RErr WrongOneWayFunction).
Proof. vm_compute. repeat split. Qed.

(** ** C15 *)

(** Deriving [n] and then [m] times is deriving [n + m] times. *)
Theorem C15_derive_add : forall (C : crypto) (B : build) (m n : nat) k,
  derive k (n + m) = (k' <- derive k n ;; derive k' m).
Proof. intros C B. exact (@derive_app C B). Qed.

(** A list of keys, each of which accepts the next. *)
Fixpoint accepted_sequence {C : crypto} {B : build} (k : tkey) (ks : list tkey) : Prop :=
  match ks with
  | [] => True
  | k' :: ks' => validate_key k k' = Ok (ROk k') /\ accepted_sequence k' ks'
  end.

(** The last key of such a sequence gives the first one after as many applications of the
    one-way function as subframes between them (without bound). *)
Theorem C15_sequence_anchored : forall (C : crypto) (B : build), crypto_ok C ->
  forall ks k0, made k0 -> Forall made ks -> accepted_sequence k0 ks ->
  let k := last ks k0 in
  exists n, (List.length ks <= n)%nat /\ k_chain k = k_chain k0 /\
    time_of (k_gst k) = time_of (k_gst k0) + 30 * Z.of_nat n /\
    key_before (k_chain k0) n (key_bytes k) (time_of (k_gst k)) (key_bytes k0) /\
    exists k', derive k n = Ok k' /\ key_bytes k' = key_bytes k0 /\ k_gst k' = k_gst k0 /\
               k_chain k' = k_chain k0.
Proof.
  intros C B HC ks k0 H0 Hks Hacc k.
  enough (Hmain : exists n, (List.length ks <= n)%nat /\ k_chain k = k_chain k0 /\
    time_of (k_gst k) = time_of (k_gst k0) + 30 * Z.of_nat n /\
    key_before (k_chain k0) n (key_bytes k) (time_of (k_gst k)) (key_bytes k0) /\ made k).
  { destruct Hmain as (n & Hn & Hc & Ht & Hb & Hm). exists n. repeat (split; [assumption|]).
    pose proof (made_ok HC _ H0) as K0. pose proof (made_ok HC _ Hm) as K.
    assert (0 <= time_of (k_gst k0)).
    { destruct K0 as [_ _ G _]. destruct (k_gst k0) as [w t]. unfold gst_ok, time_of in *. cbn [g_wn g_tow] in *. lia. }
    destruct (derive_spec HC n k K) as (k' & E1 & E2 & E3 & E4 & E5); [lia|].
    exists k'. split; [exact E1|]. rewrite Hc in *. repeat split; auto.
    - eapply key_before_fun; eauto.
    - apply time_of_inj; [apply E2|apply K0|lia]. }
  subst k. revert k0 H0 Hks Hacc. induction ks as [|k1 ks IH]; intros k0 H0 Hks Hacc.
  - exists 0%nat. cbn [last key_before List.length]. repeat split; auto; lia.
  - destruct Hacc as (Hv & Hacc). inversion Hks as [|? ? H1 Hks']. subst.
    destruct (IH k1 H1 Hks' Hacc) as (n & Hn & Hc & Ht & Hb & Hm).
    destruct (C14_validate_key_exact C B HC k0 k1 H0 H1) as (r & Er & _ & Hr).
    rewrite Hv in Er. injection Er as <-.
    destruct (proj1 Hr (ex_intro _ k1 eq_refl)) as (Hc1 & n1 & Hn1 & Ht1 & Hb1).
    replace (last (k1 :: ks) k0) with (last ks k1).
    2:{ destruct ks as [|x ks]; [reflexivity|]. clear. revert x. cbn [last].
        induction ks as [|y ks IH]; intros x; [reflexivity|]. apply (IH y). }
    exists (n + n1)%nat. cbn [List.length]. rewrite <- Hc1.
    split; [lia|]. split; [congruence|]. split; [lia|]. split; [|exact Hm].
    apply key_before_app. exists (key_bytes k1). split; [exact Hb|].
    replace (time_of (k_gst (last ks k1)) - 30 * Z.of_nat n) with (time_of (k_gst k1)) by lia.
    rewrite Hc1. exact Hb1.
Qed.

(** The sequence KROOT, key of 120930, key of 120960. *)
Definition demo_k2 : tkey :=
  match key_from_slice (hex "95 42 aa d4 7a bf 39 ba fe 56 68 61 af e8 80 b2") (mkGst 1176 120960) test_chain with
  | Ok k => k | Panic => demo_k1 end.
Lemma demo_k2_made : made demo_k2.
Proof.
  apply (made_slice demo_dsm test_chain (hex "95 42 aa d4 7a bf 39 ba fe 56 68 61 af e8 80 b2") (mkGst 1176 120960)).
  - exact demo_chain.
  - apply all_bytes. vm_compute. reflexivity.
  - vm_compute. intuition congruence.
  - vm_compute. reflexivity.
Qed.
Example C15_example : Forall made [demo_k1; demo_k2] /\ accepted_sequence demo_k0 [demo_k1; demo_k2].
Proof.
  split; [repeat constructor; auto using demo_k1_made, demo_k2_made|].
  vm_compute. repeat split.
Qed.

(** ** C16 *)

(** Acceptance implies that the message has the layout of the ICD, that the padding and the
    signature are right for the signed bytes, and that the key has the signed parameters. *)
Theorem C16_accepted_is_verified : forall (C : crypto) (B : build), crypto_ok C ->
  forall h d pk k, is_byte h -> Forall is_byte d ->
  key_from_dsm_kroot h d pk = Ok (ROk k) ->
  exists f, kroot_layout d f /\ kroot_verified h f pk /\ kroot_key f k.
Proof.
  intros C B HC h d pk k H1 H2 H3.
  destruct (key_from_dsm_kroot_sound HC h d pk k H1 H2 H3) as (f & A1 & A2 & A3 & _). eauto.
Qed.

(** Conversely such a message is accepted. *)
Theorem C16_verified_is_accepted : forall (C : crypto) (B : build), crypto_ok C ->
  forall h d pk f k, is_byte h -> Forall is_byte d ->
  kroot_layout d f -> kroot_verified h f pk -> kroot_key f k -> gst_ok (k_gst k) ->
  (overflow_checks = true -> 30 <= 604800 * kf_wn f + 3600 * kf_towh f) ->
  (forall k521, pk = VkP521 k521 -> feature_p521 = true) ->
  key_from_dsm_kroot h d pk = Ok (ROk k).
Proof. intros C B HC. exact (key_from_dsm_kroot_complete HC). Qed.

(** The key is a function of the signed bytes: whichever message, NMA header and public key
    they come with. *)
Theorem C16_key_determined_by_signed_bytes : forall (C : crypto) (B : build), crypto_ok C ->
  forall h h' d d' f f' pk pk' k k' m, is_byte h -> is_byte h' -> Forall is_byte d -> Forall is_byte d' ->
  key_from_dsm_kroot h d pk = Ok (ROk k) -> key_from_dsm_kroot h' d' pk' = Ok (ROk k') ->
  kroot_layout d f -> kroot_layout d' f' ->
  kroot_signed h f m -> kroot_signed h' f' m ->
  h = h' /\ k = k'.
Proof.
  intros C B HC h h' d d' f f' pk pk' k k' m H1 H2 H3 H4 E E' HL HL' Hm Hm'.
  destruct (key_from_dsm_kroot_sound HC h d pk k H1 H3 E) as (f1 & L1 & V1 & K1 & G1).
  destruct (key_from_dsm_kroot_sound HC h' d' pk' k' H2 H4 E') as (f2 & L2 & V2 & K2 & G2).
  assert (E1 : f1 = f) by (eapply kroot_layout_fun; eauto).
  assert (E2 : f2 = f') by (eapply kroot_layout_fun; eauto).
  subst f1 f2. destruct (kroot_signed_inj _ _ _ _ _ _ _ H1 H2 HL HL' Hm Hm') as (-> & P & Q).
  split; [reflexivity|]. eapply kroot_key_fun; eauto; [apply G1|apply G2].
Qed.

(** A KROOT with the root key of the test vector: the signature is made with the toy
    signature scheme of the examples. *)
Definition demo_pk : list Z := test_pubkey0.
Definition demo_hdr : Z := 82.
Definition demo_signed : list Z := demo_hdr :: sub 1 13 test_kroot ++ sub 13 29 test_kroot.
Definition demo_signature : list Z := demo_sign demo_pk demo_signed.
Definition demo_kroot : list Z :=
  sub 0 29 test_kroot ++ demo_signature ++ firstn 11 (real_sha256 (demo_signed ++ demo_signature)).
Example C16_example :
  key_from_dsm_kroot demo_hdr demo_kroot (VkP256 demo_pk) = Ok (ROk demo_k0) /\
  key_from_dsm_kroot demo_hdr (flip 12 demo_kroot) (VkP256 demo_pk) = Ok (RErr WrongDsmKrootPadding) /\
  key_from_dsm_kroot 83 demo_kroot (VkP256 demo_pk) = Ok (RErr WrongDsmKrootPadding) /\
  key_from_dsm_kroot demo_hdr
    (sub 0 29 test_kroot ++ flip 3 demo_signature ++ firstn 11 (real_sha256 (demo_signed ++ flip 3 demo_signature)))
    (VkP256 demo_pk) = Ok (RErr WrongEcdsa).
Proof. vm_compute. repeat split. Qed.
Lemma demo_kroot_bytes : is_byte demo_hdr /\ Forall is_byte demo_kroot.
Proof.
  split; [vm_compute; intuition congruence|].
  apply all_bytes. vm_compute. reflexivity.
Qed.

(** ** C17 *)

(** A tag other than tag 0 is accepted exactly when it is the truncated MAC of the bits of
    the ICD, which start with the number of the authenticated satellite. *)
Theorem C17_tag_accepted_iff : forall (C : crypto) (B : build), crypto_ok C ->
  forall k tag g prnd prna ctr s navdata, made k -> mac_usable k -> gst_ok g ->
  is_byte prnd -> is_byte prna -> is_byte ctr ->
  (List.length navdata <= 550)%nat -> (List.length tag <= 128)%nat ->
  exists r, validate_tag k tag g prnd prna ctr s navdata = Ok r /\
    (r = true <-> tag_of (ch_mac (k_chain k)) (key_bytes k)
                         (tag_bits (Some prnd) prna (time_of g) ctr s navdata) tag).
Proof.
  intros C B HC k tag g prnd prna ctr s navdata Hk.
  exact (validate_tag_spec HC k tag g prnd prna ctr s navdata (made_ok HC _ Hk)).
Qed.

Theorem C17_tag0_accepted_iff : forall (C : crypto) (B : build), crypto_ok C ->
  forall k tag g prna s navdata, made k -> mac_usable k -> gst_ok g ->
  is_byte prna -> (List.length navdata <= 550)%nat -> (List.length tag <= 128)%nat ->
  exists r, validate_tag0 k tag g prna s navdata = Ok r /\
    (r = true <-> tag_of (ch_mac (k_chain k)) (key_bytes k)
                         (tag_bits None prna (time_of g) 1 s navdata) tag).
Proof.
  intros C B HC k tag g prna s navdata Hk.
  exact (validate_tag0_spec HC k tag g prna s navdata (made_ok HC _ Hk)).
Qed.

(** The bytes that go into the MAC determine everything.  The lengths are those of ADKD 0 and
    12 (549 bits) and ADKD 4 (141 bits, never tag 0). *)
Theorem C17_mac_input_unambiguous : forall m w w' prna prna' t t' ctr ctr' s s' n n',
  encodes m (tag_bits w prna t ctr s n) -> encodes m (tag_bits w' prna' t' ctr' s' n') ->
  (List.length n = 549 \/ (List.length n = 141 /\ w <> None))%nat ->
  (List.length n' = 549 \/ (List.length n' = 141 /\ w' <> None))%nat ->
  (forall x, w = Some x -> is_byte x) -> (forall x, w' = Some x -> is_byte x) ->
  is_byte prna -> is_byte prna' -> is_byte ctr -> is_byte ctr' ->
  w = w' /\ prna = prna' /\ t / 604800 mod 4096 = t' / 604800 mod 4096 /\
  t mod 604800 = t' mod 604800 /\ ctr = ctr' /\ s = s' /\ n = n'.
Proof. exact tag_bits_inj. Qed.

(** The tag 0 of the test vector is right for its data and wrong if one bit of the data, the
    satellite, the time or the status changes. *)
Definition demo_tagkey : tkey := match test_key with Ok k => k | Panic => demo_k0 end.
Definition demo_tag0 : list bool := bits_of_bytes (hex "8f 54 58 88 71").
Lemma demo_tagkey_made : made demo_tagkey.
Proof.
  apply (made_slice demo_dsm test_chain (hex "19 58 e7 76 6f b4 08 cb d6 a8 de fc e4 c7 d5 66") (mkGst 1176 121080)).
  - exact demo_chain.
  - apply all_bytes. vm_compute. reflexivity.
  - vm_compute. intuition congruence.
  - vm_compute. reflexivity.
Qed.
Example C17_example :
  mac_usable demo_tagkey /\ List.length test_navdata = 549%nat /\
  (let go g prna s n := validate_tag0 demo_tagkey demo_tag0 g prna s n in
   let g := mkGst 1176 121050 in
   go g 21 NmaTest test_navdata = Ok true /\
   go (mkGst 1176 121080) 21 NmaTest test_navdata = Ok false /\
   go g 22 NmaTest test_navdata = Ok false /\
   go g 21 NmaOperational test_navdata = Ok false /\
   go g 21 NmaTest (put 300 [negb (nth 300 test_navdata false)] test_navdata) = Ok false).
Proof. split; [intros K; discriminate K|]. vm_compute. repeat split. Qed.

(** ** C19 *)

(** For every MACK message and every sizes that a KROOT can announce (they may be those of
    another chain than the one of the key, see [process_tags]). *)
Theorem C19_mack_validate_exact : forall (C : crypto) (B : build), crypto_ok C ->
  forall data ks ts, List.length data = 60%nat ->
  In ks announced_key_sizes -> In ts announced_tag_sizes ->
  forall k prna g, made k -> mac_usable k -> gst_ok g -> is_byte prna ->
  (forall codes, icd_sequence (ch_maclt (k_chain k)) (half_minute g) = Some codes ->
     Forall (fun i => (i < (480 - ks) / (ts + 16))%nat) (flx_positions codes)) ->
  exists r, mack_validate (mack_new data ks ts) k prna g = Ok r /\
    (match r with ROk m' => m' = mack_new data ks ts | RErr _ => True end) /\
    ((exists m', r = ROk m') <-> mack_valid (k_chain k) (key_bytes k) prna (time_of g) data ks ts).
Proof.
  intros C B HC data ks ts Hd H1 H2 k prna g Hk Hu Hg Hp Hf.
  exact (mack_validate_exact HC data ks ts Hd (announced_sizes_ok _ _ H1 H2) k prna g (made_ok HC _ Hk) Hu Hg Hp Hf).
Qed.

(** When the hypotheses on the MAC function and on the flexible positions fail, it panics
    (and only then); so it never returns a wrong acceptance. *)
Theorem C19_mack_validate_panics_iff : forall (C : crypto) (B : build), crypto_ok C ->
  forall data ks ts, List.length data = 60%nat ->
  In ks announced_key_sizes -> In ts announced_tag_sizes ->
  forall k prna g, made k -> gst_ok g -> is_byte prna ->
  (mack_validate (mack_new data ks ts) k prna g = Panic <->
   ~ mac_usable k \/
   ~ (forall codes, icd_sequence (ch_maclt (k_chain k)) (half_minute g) = Some codes ->
      Forall (fun i => (i < (480 - ks) / (ts + 16))%nat) (flx_positions codes))).
Proof.
  intros C B HC data ks ts Hd H1 H2 k prna g Hk Hg Hp.
  exact (mack_validate_panic HC data ks ts Hd (announced_sizes_ok _ _ H1 H2) k prna g (made_ok HC _ Hk) Hg Hp).
Qed.

(** The MACK of the test vector. *)
Definition demo_mack : list Z := hex
  "7e ff 9e 16 a5 dd f0 04 f0 3c 9b 6b 1b 07 4d 49 2e dd 67 0b 02 60 ef 9b 83 36 13 c0 94 a8 72 a7
   f6 12 05 8f 2e f7 63 24 0e c5 ca 40 0f ad f1 12 47 9f 05 44 9a 25 d8 2e 80 c8 00 00".
Example C19_example :
  List.length demo_mack = 60%nat /\ In 128%nat announced_key_sizes /\ In 40%nat announced_tag_sizes /\
  mac_usable demo_tagkey /\ gst_ok (mkGst 1176 121050) /\ is_byte 19 /\
  (forall codes, icd_sequence (ch_maclt (k_chain demo_tagkey)) (half_minute (mkGst 1176 121050)) = Some codes ->
     Forall (fun i => (i < (480 - 128) / (40 + 16))%nat) (flx_positions codes)) /\
  mack_validate (mack_new demo_mack 128 40) demo_tagkey 19 (mkGst 1176 121050)
    = Ok (ROk (mack_new demo_mack 128 40)) /\
  mack_validate (mack_new (flip 5 demo_mack) 128 40) demo_tagkey 19 (mkGst 1176 121050)
    = Ok (RErr (MacseqError WrongMacseq)) /\
  mack_validate (mack_new (flip 13 demo_mack) 128 40) demo_tagkey 19 (mkGst 1176 121050)
    = Ok (ROk (mack_new (flip 13 demo_mack) 128 40)) /\
  mack_validate (mack_new (put 13 [64] demo_mack) 128 40) demo_tagkey 19 (mkGst 1176 121050)
    = Ok (RErr (MackWrongAdkd 1 WrongAdkd)).
Proof.
  split; [reflexivity|]. split; [vm_compute; tauto|]. split; [vm_compute; tauto|].
  split; [intros K; discriminate K|]. split; [vm_compute; intuition congruence|].
  split; [vm_compute; intuition congruence|]. split.
  - vm_compute. intros codes K. injection K as <-. repeat constructor; lia.
  - vm_compute. repeat split.
Qed.

Print Assumptions C14_validate_key_exact.
Print Assumptions C15_sequence_anchored.
Print Assumptions C16_accepted_is_verified.
Print Assumptions C16_verified_is_accepted.
Print Assumptions C16_key_determined_by_signed_bytes.
Print Assumptions C17_tag_accepted_iff.
Print Assumptions C17_mac_input_unambiguous.
Print Assumptions C19_mack_validate_exact.
Print Assumptions C19_mack_validate_panics_iff.

(** The accessors of the headers, DSM-KROOT and DSM-PKR messages. *)
From Coq Require Import ZArith List Bool Lia ZifyBool ZifyNat.
From Verif Require Import Model.Prelude Model.Params Model.Bitfields Model.Merkle
  Spec.TeslaSpec Spec.KrootSpec Spec.MerkleSpec Spec.FieldSpec
  Proofs.Base Proofs.DsmProofs Proofs.EntryProofs Proofs.KrootProofs Proofs.MerkleProofs.
Import ListNotations.
Open Scope Z_scope.
Ltac Zify.zify_post_hook ::= Z.div_mod_to_equations.

(** ** Codes *)

Definition lookup {A} (t : list (Z * A)) (c : Z) : option A := option_map snd (find (fun p => fst p =? c) t).
Lemma lookup_means {A} (t : list (Z * A)) c : means t c (lookup t c).
Proof.
  unfold means, lookup. destruct (find (fun p => fst p =? c) t) as [(z & x)|] eqn:E; cbn [option_map snd].
  - apply find_some in E. destruct E as (H & Hz). cbn [fst] in Hz. apply Z.eqb_eq in Hz. now subst z.
  - intros x Hx. apply (find_none _ _ E) in Hx. cbn [fst] in Hx. rewrite Z.eqb_refl in Hx. discriminate.
Qed.

(** A function of a code of [n] bits can be compared with a table. *)
Lemma by_cases {A} (eqb : A -> A -> bool) (Heq : forall a b, eqb a b = true -> a = b) (t : list (Z * A)) (fn : Z -> option A) m :
  forallb (fun c => match fn (Z.of_nat c), lookup t (Z.of_nat c) with
                    | Some a, Some b => eqb a b | None, None => true | _, _ => false end) (seq 0 m) = true ->
  forall c, 0 <= c < Z.of_nat m -> means t c (fn c).
Proof.
  rewrite forallb_forall. intros H c Hc. specialize (H (Z.to_nat c) ltac:(apply in_seq; lia)).
  rewrite Z2Nat.id in H by lia. pose proof (lookup_means t c) as L.
  destruct (fn c) as [a|], (lookup t c) as [b|]; try discriminate; [|exact L].
  apply Heq in H. now subst b.
Qed.

Lemma nat_eqb_eq a b : (a =? b)%nat = true -> a = b.
Proof. apply Nat.eqb_eq. Qed.
Lemma hash_fn_eqb_eq a b : hash_fn_eqb a b = true -> a = b.
Proof. destruct a, b; auto; discriminate. Qed.
Lemma mac_fn_eqb_eq a b : mac_fn_eqb a b = true -> a = b.
Proof. destruct a, b; auto; discriminate. Qed.

(** ** DSM-KROOT *)

Section Kroot.
Context {C : crypto}.
Hypothesis HC : crypto_ok C.
Variables (d : list Z) (f : kroot_fields).
Hypothesis HL : kroot_layout d f.

Lemma kroot_code i n v : nth_error (all_params f) i = Some (n, v) -> 0 <= v < 2 ^ Z.of_nat n.
Proof.
  intros H. pose proof (kl_width _ _ HL) as W. fold (all_params f) in W. rewrite Forall_forall in W.
  apply nth_error_In in H. exact (W _ H).
Qed.

Lemma kroot_number_of_blocks_means : exists r, kroot_number_of_blocks d = Ok r /\ means nb_dk_table (kf_nb f) r.
Proof.
  unfold kroot_number_of_blocks. rewrite (kroot_param_at d f HL 0 4 (kf_nb f) 0 4) by reflexivity. cbn [bind].
  eexists. split; [reflexivity|]. pose proof (kroot_code 0 4 (kf_nb f) eq_refl) as Hc.
  apply (by_cases Nat.eqb nat_eqb_eq nb_dk_table (fun v => if (1 <=? v) && (v <=? 8) then Some (Z.to_nat v + 6)%nat else None) 16);
    [vm_compute; reflexivity|exact Hc].
Qed.

Lemma kroot_hash_means : exists r, kroot_hash_function d = Ok r /\ means hash_table (kf_hf f) r.
Proof.
  unfold kroot_hash_function. rewrite (kroot_param_at d f HL 4 2 (kf_hf f) 12 14) by reflexivity. cbn [bind].
  eexists. split; [reflexivity|]. pose proof (kroot_code 4 2 (kf_hf f) eq_refl) as Hc.
  apply (by_cases hash_fn_eqb hash_fn_eqb_eq hash_table (fun v => match v with 0 => Some HashSha256 | 2 => Some HashSha3_256 | _ => None end) 4);
    [vm_compute; reflexivity|exact Hc].
Qed.

Lemma kroot_mac_means : exists r, kroot_mac_function d = Ok r /\ means mac_table (kf_mf f) r.
Proof.
  unfold kroot_mac_function. rewrite (kroot_param_at d f HL 5 2 (kf_mf f) 14 16) by reflexivity. cbn [bind].
  eexists. split; [reflexivity|]. pose proof (kroot_code 5 2 (kf_mf f) eq_refl) as Hc.
  apply (by_cases mac_fn_eqb mac_fn_eqb_eq mac_table (fun v => match v with 0 => Some MacHmacSha256 | 1 => Some MacCmacAes | _ => None end) 4);
    [vm_compute; reflexivity|exact Hc].
Qed.

Lemma kroot_tag_size_means : exists r, kroot_tag_size d = Ok r /\ means tag_size_table (kf_ts f) r.
Proof.
  unfold kroot_tag_size. rewrite (kroot_param_at d f HL 7 4 (kf_ts f) 20 24) by reflexivity. cbn [bind].
  eexists. split; [reflexivity|]. pose proof (kroot_code 7 4 (kf_ts f) eq_refl) as Hc.
  apply (by_cases Nat.eqb nat_eqb_eq tag_size_table (fun v => match v with
      | 5 => Some 20%nat | 6 => Some 24%nat | 7 => Some 28%nat | 8 => Some 32%nat | 9 => Some 40%nat | _ => None end) 16);
    [vm_compute; reflexivity|exact Hc].
Qed.

Lemma kroot_numbers : kroot_public_key_id d = Ok (kf_pkid f) /\ kroot_chain_id d = Ok (kf_cid f) /\
  kroot_mac_lookup_table d = Ok (kf_maclt f) /\ kroot_wn d = Ok (kf_wn f) /\ kroot_towh d = Ok (kf_towh f) /\
  kroot_alpha d = Ok (kf_alpha f).
Proof.
  split; [exact (kroot_param_at d f HL 1 4 (kf_pkid f) 4 8 eq_refl eq_refl eq_refl)|].
  split; [exact (kroot_param_at d f HL 2 2 (kf_cid f) 8 10 eq_refl eq_refl eq_refl)|].
  split; [exact (kroot_param_at d f HL 8 8 (kf_maclt f) 24 32 eq_refl eq_refl eq_refl)|].
  split; [exact (kroot_param_at d f HL 10 12 (kf_wn f) 36 48 eq_refl eq_refl eq_refl)|].
  split; [exact (kroot_param_at d f HL 11 8 (kf_towh f) 48 56 eq_refl eq_refl eq_refl)|].
  exact (kroot_param_at d f HL 12 48 (kf_alpha f) 56 104 eq_refl eq_refl eq_refl).
Qed.

Hypothesis Hd : Forall is_byte d.

Lemma check_p256 h k m : is_byte h -> kroot_signed h f m ->
  kroot_check_signature_p256 d h k =
    if (length (kf_sig f) =? 64)%nat && p256_sig_parses (kf_sig f) then Ok (p256_verify k m (kf_sig f)) else Panic.
Proof.
  intros Hh Hm. destruct (kroot_message_layout d f HL Hd h Hh) as (m' & Em & Hm'). rewrite (signed_unique h f m m' Hm Hm').
  unfold kroot_check_signature_p256. rewrite (kroot_ecdsa_layout d f HL Hd), Em, (kroot_sig_layout d f HL Hd). cbn [bind].
  destruct (length (kf_sig f) =? 64)%nat; cbn [ecdsa_fn_eqb assert_ bind andb]; [|reflexivity].
  destruct (p256_sig_parses (kf_sig f)); reflexivity.
Qed.
Lemma check_p521 h k m : is_byte h -> kroot_signed h f m ->
  kroot_check_signature_p521 d h k =
    if (length (kf_sig f) =? 132)%nat && p521_sig_parses (kf_sig f) then Ok (p521_verify k m (kf_sig f)) else Panic.
Proof.
  intros Hh Hm. destruct (kroot_message_layout d f HL Hd h Hh) as (m' & Em & Hm'). rewrite (signed_unique h f m m' Hm Hm').
  unfold kroot_check_signature_p521. rewrite (kroot_ecdsa_layout d f HL Hd), Em, (kroot_sig_layout d f HL Hd). cbn [bind].
  destruct (kl_sig _ _ HL) as [E|E]; rewrite E; [reflexivity|].
  change (132 =? 64)%nat with false. change (132 =? 132)%nat with true. cbn [ecdsa_fn_eqb assert_ bind andb].
  destruct (p521_sig_parses (kf_sig f)); reflexivity.
Qed.
End Kroot.

(** If a message does not have the layout, the function of the signature panics, and everything
    that depends on it. *)
Lemma kroot_no_layout d : Forall is_byte d -> ~ (exists f, kroot_layout d f) ->
  kroot_ecdsa_function d = Panic /\ kroot_digital_signature d = Panic /\ kroot_padding d = Panic.
Proof.
  intros Hd Hn. assert (E : kroot_ecdsa_function d = Panic).
  { destruct (kroot_ecdsa_function d) as [fn|] eqn:E; [|reflexivity]. destruct (ecdsa_function_layout d fn Hd E) as (f & Hf & _).
    elim Hn. eauto. }
  assert (E2 : kroot_digital_signature d = Panic) by (unfold kroot_digital_signature; now rewrite E).
  split; [exact E|]. split; [exact E2|]. unfold kroot_padding. rewrite E2. now destruct (kroot_kroot d).
Qed.

(** ** DSM-PKR *)

Section Pkr.
Context {C : crypto}.
Hypothesis HC : crypto_ok C.
Variables (d : list Z) (f : pkr_fields).
Hypothesis HL : pkr_layout d f.

Lemma pkr_number_of_blocks_means : exists r, pkr_number_of_blocks d = Ok r /\ means nb_dp_table (pf_nb f) r.
Proof.
  rewrite (pkr_number_of_blocks_layout d f HL). eexists. split; [reflexivity|].
  destruct (pl_nibbles _ _ HL) as (Hc & _). unfold nibble in Hc.
  apply (by_cases Nat.eqb nat_eqb_eq nb_dp_table (fun v => if (7 <=? v) && (v <=? 10) then Some (Z.to_nat v + 6)%nat else None) 16);
    [vm_compute; reflexivity|exact Hc].
Qed.

Lemma pkr_type_means : exists t, pkr_new_public_key_type d = Ok t /\ In (pf_npkt f, t) npkt_table.
Proof.
  rewrite (pkr_type_layout d f HL). eexists. split; [reflexivity|]. unfold npkt_table.
  destruct (pl_key _ _ HL) as [(-> & _)|[(-> & _)|(-> & _)]]; cbn; auto.
Qed.

Lemma pkr_node_panics j : (4 <= j)%nat -> pkr_intermediate_tree_node d j = Panic.
Proof. intros Hj. unfold pkr_intermediate_tree_node. now replace (j <? 4)%nat with false by lia. Qed.

Hypothesis Hcomp : pkr_complete d f.

Lemma pkr_blocks_len : exists n, pkr_number_of_blocks d = Ok (Some n) /\ length d = (13 * n)%nat.
Proof.
  destruct Hcomp as (n & Hn & Hl). exists n. split; [|exact Hl]. rewrite (pkr_number_of_blocks_layout d f HL).
  unfold nb_dp_table in Hn. cbn [In] in Hn.
  repeat (destruct Hn as [Hn|Hn]; [apply pair_equal_spec in Hn; destruct Hn as (<- & <-); reflexivity|]). contradiction.
Qed.

Lemma pkr_padding_layout : pkr_padding d = Ok (Some (pf_pad f)).
Proof.
  destruct pkr_blocks_len as (n & Hn & Hl). unfold pkr_padding. rewrite (pkr_key_size_layout d f HL), Hn. cbn [bind].
  pose proof (pkr_length d f HL) as Hlen. replace (n * 104 / 8)%nat with (length d) by (rewrite Hl; lia).
  rewrite slice_in by lia. cbn [bind]. do 2 f_equal. rewrite (pkr_as_leaf d f HL).
  change (16 * pf_npkt f + pf_npkid f :: pf_key f ++ pf_pad f) with ((16 * pf_npkt f + pf_npkid f :: pf_key f) ++ pf_pad f).
  rewrite app_assoc. set (a := (16 * pf_nb f + pf_mid f :: concat (pf_nodes f)) ++ 16 * pf_npkt f + pf_npkid f :: pf_key f).
  rewrite <- (app_nil_r (a ++ pf_pad f)), <- app_assoc.
  assert (La : length a = (130 + length (pf_key f))%nat).
  { unfold a. rewrite app_length. cbn [length]. rewrite (pkr_nodes_length d f HL). lia. }
  apply sub_middle; [exact La|]. rewrite app_nil_r, app_length. lia.
Qed.

Lemma pkr_check_padding_layout root : pkr_check_padding d root =
  if (32 <? length (pf_pad f))%nat then Panic else Ok (bytes_eqb (firstn (length (pf_pad f)) (sha256 (root ++ pkr_leaf f))) (pf_pad f)).
Proof.
  unfold pkr_check_padding. rewrite pkr_padding_layout, (pkr_leaf_layout d f HL). cbn [bind unwrap].
  destruct (length (pf_pad f) =? 0)%nat eqn:E.
  - apply Nat.eqb_eq, length_zero_iff_nil in E. rewrite E. reflexivity.
  - destruct HC as (Hh & _). destruct (32 <? length (pf_pad f))%nat eqn:E32.
    + unfold slice. rewrite (proj1 (Hh _)). replace ((0 <=? length (pf_pad f)) && (length (pf_pad f) <=? 32))%nat with false by lia. reflexivity.
    + rewrite slice_in by (rewrite ?(proj1 (Hh _)); lia). cbn [bind]. now rewrite sub_0.
Qed.
End Pkr.

(** ** A DSM-PKR that does not have room for its key *)

Lemma bits_at_total d a b : (a <= b)%nat -> (b <= 8 * length d)%nat -> bits_at d a b = Ok (load_be (sub a b (bits_of_bytes d))).
Proof. intros H1 H2. apply bits_at_in; rewrite ?length_bits_of_bytes; lia. Qed.

Lemma pkr_no_room d n : pkr_number_of_blocks d = Ok (Some n) -> length d = (13 * n)%nat ->
  pkr_new_public_key_type d = Ok (NpktEcdsaKey P521Sha512) -> (n < 16)%nat ->
  pkr_new_public_key d = Panic /\ pkr_padding d = Panic /\ pkr_merkle_tree_leaf d = Panic.
Proof.
  intros Hn Hl Ht Hlt. assert (Ek : pkr_key_size d = Ok (Some 67%nat)) by (unfold pkr_key_size; now rewrite Ht).
  unfold pkr_new_public_key, pkr_padding, pkr_merkle_tree_leaf, slice. rewrite Ek, Hn. cbn [bind].
  replace (n * 104 / 8)%nat with (13 * n)%nat by lia. rewrite Hl.
  replace ((130 <=? 130 + 67) && (130 + 67 <=? 13 * n))%nat with false by lia.
  replace ((130 + 67 <=? 13 * n) && (13 * n <=? 13 * n))%nat with false by lia.
  replace ((129 <=? 130 + 67) && (130 + 67 <=? 13 * n))%nat with false by lia. auto.
Qed.

(** ** Headers *)

Lemma headers_means hd : is_byte hd ->
  In (hd / 64, nma_status hd) nmas_table /\ nma_chain_id hd = hd / 16 mod 4 /\ In (hd / 2 mod 8, nma_cpks hd) cpks_table /\
  dsm_id hd = hd / 16 /\ dsm_block_id hd = hd mod 16 /\ (dsm_type hd = DsmPkr <-> 12 <= hd / 16).
Proof.
  intros H.
  assert (E : forall b, is_byte b ->
    (existsb (fun p => (fst p =? b / 64) && nma_status_eqb (snd p) (nma_status b)) nmas_table && (nma_chain_id b =? b / 16 mod 4) &&
     (dsm_id b =? b / 16) && (dsm_block_id b =? b mod 16) &&
     Bool.eqb (dsm_type_eqb (dsm_type b) DsmPkr) (12 <=? b / 16)) = true).
  { apply (byte_cases (fun b => existsb (fun p => (fst p =? b / 64) && nma_status_eqb (snd p) (nma_status b)) nmas_table && (nma_chain_id b =? b / 16 mod 4) &&
     (dsm_id b =? b / 16) && (dsm_block_id b =? b mod 16) &&
     Bool.eqb (dsm_type_eqb (dsm_type b) DsmPkr) (12 <=? b / 16))). vm_compute. reflexivity. }
  specialize (E hd H). rewrite !andb_true_iff, !Z.eqb_eq in E. destruct E as ((((E1 & E2) & E3) & E4) & E5).
  split. { apply existsb_exists in E1. destruct E1 as ((z & s) & Hin & E1). cbn [fst snd] in E1. apply andb_true_iff in E1.
    destruct E1 as (Ez & Es). apply Z.eqb_eq in Ez. subst z. destruct s, (nma_status hd); try discriminate Es; exact Hin. }
  split; [exact E2|]. split.
  { assert (F : forall b, is_byte b -> (match nma_cpks b with CpksReserved => 0 | CpksNominal => 1 | CpksEndOfChain => 2 | CpksChainRevoked => 3
      | CpksNewPublicKey => 4 | CpksPublicKeyRevoked => 5 | CpksNewMerkleTree => 6 | CpksAlertMessage => 7 end =? b / 2 mod 8) = true).
    { apply (byte_cases (fun b => match nma_cpks b with CpksReserved => 0 | CpksNominal => 1 | CpksEndOfChain => 2 | CpksChainRevoked => 3
      | CpksNewPublicKey => 4 | CpksPublicKeyRevoked => 5 | CpksNewMerkleTree => 6 | CpksAlertMessage => 7 end =? b / 2 mod 8)). vm_compute. reflexivity. }
    specialize (F hd H). apply Z.eqb_eq in F. rewrite <- F. unfold cpks_table. destruct (nma_cpks hd); cbn; auto 10. }
  split; [exact E3|]. split; [exact E4|]. apply eqb_prop in E5. rewrite <- Z.leb_le, <- E5.
  destruct (dsm_type hd); cbn [dsm_type_eqb]; split; congruence.
Qed.

(** ** A DSM-PKR of a reserved type, or with a reserved number of blocks *)

Lemma bits_at_nibble d i : Forall is_byte d -> (i < length d)%nat -> bits_at d (8 * i) (8 * i + 4) = Ok (nth i d 0 / 16).
Proof.
  intros Hd Hi. assert (E : d = firstn i d ++ nth i d 0 :: skipn (Datatypes.S i) d).
  { rewrite <- (firstn_skipn i d) at 1. f_equal. clear Hd. revert d Hi. induction i as [|i IH]; intros [|x d] Hi; cbn [length] in Hi; try lia; [reflexivity|].
    cbn [skipn nth]. apply IH. lia. }
  assert (Hb : is_byte (nth i d 0)) by (rewrite Forall_forall in Hd; apply Hd, nth_In; exact Hi).
  rewrite E at 1. apply bits_at_high; [exact Hb| |reflexivity]. rewrite firstn_length. lia.
Qed.

Lemma pkr_reserved {C : crypto} d root : Forall is_byte d -> (130 <= length d)%nat ->
  (forall t, ~ In (nth 129 d 0 / 16, t) npkt_table) ->
  pkr_new_public_key_type d = Ok NpktReserved /\ pkr_new_public_key d = Ok None /\ pkr_merkle_tree_leaf d = Ok None /\
  pkr_padding d = Ok None /\ pkr_check_padding d root = Ok false.
Proof.
  intros Hd Hl Hn. assert (Et : pkr_new_public_key_type d = Ok NpktReserved).
  { unfold pkr_new_public_key_type. change 1036%nat with (8 * 129 + 4)%nat. change 1032%nat with (8 * 129)%nat.
    rewrite (bits_at_nibble d 129 Hd) by lia. cbn [bind]. set (v := nth 129 d 0 / 16) in *. clearbody v.
    assert (v <> 1) by (intros ->; apply (Hn (NpktEcdsaKey P256Sha256)); cbn; auto).
    assert (v <> 3) by (intros ->; apply (Hn (NpktEcdsaKey P521Sha512)); cbn; auto).
    assert (v <> 4) by (intros ->; apply (Hn NpktAlert); cbn; auto).
    clear Hn. destruct v as [|p|p]; try reflexivity. do 3 (destruct p as [p|p|]; try reflexivity; try congruence). }
  assert (Ek : pkr_key_size d = Ok None) by (unfold pkr_key_size; now rewrite Et).
  assert (En : exists nb, pkr_number_of_blocks d = Ok nb).
  { unfold pkr_number_of_blocks. change 4%nat with (8 * 0 + 4)%nat. change 0%nat with (8 * 0)%nat at 1. rewrite (bits_at_nibble d 0 Hd) by lia. cbn [bind]. eauto. }
  destruct En as (nb & En).
  assert (Ep : pkr_padding d = Ok None) by (unfold pkr_padding; now rewrite Ek, En).
  split; [exact Et|]. unfold pkr_new_public_key, pkr_merkle_tree_leaf, pkr_check_padding. rewrite Ek, Ep. auto.
Qed.

Lemma pkr_reserved_blocks {C : crypto} d root : Forall is_byte d -> (130 <= length d)%nat ->
  (forall n, ~ In (nth 0 d 0 / 16, n) nb_dp_table) ->
  pkr_number_of_blocks d = Ok None /\ pkr_padding d = Ok None /\ pkr_check_padding d root = Ok false.
Proof.
  intros Hd Hl Hn. assert (En : pkr_number_of_blocks d = Ok None).
  { unfold pkr_number_of_blocks. change 4%nat with (8 * 0 + 4)%nat. change 0%nat with (8 * 0)%nat at 1.
    rewrite (bits_at_nibble d 0 Hd) by lia. cbn [bind]. set (v := nth 0 d 0 / 16) in *. clearbody v.
    destruct ((7 <=? v) && (v <=? 10)) eqn:E; [|reflexivity]. elim (Hn (Z.to_nat v + 6)%nat). unfold nb_dp_table.
    assert (D : v = 7 \/ v = 8 \/ v = 9 \/ v = 10) by lia. destruct D as [-> | [-> | [-> | ->]]]; cbn; auto. }
  assert (Ek : exists ks, pkr_key_size d = Ok ks).
  { unfold pkr_key_size. unfold pkr_new_public_key_type. change 1036%nat with (8 * 129 + 4)%nat. change 1032%nat with (8 * 129)%nat.
    rewrite (bits_at_nibble d 129 Hd) by lia. cbn [bind]. rewrite En. set (v := nth 129 d 0 / 16) in *. clearbody v.
    clear Hn. destruct v as [|p|p]; cbn [bind]; eauto. do 3 (destruct p as [p|p|]; cbn [bind]; eauto). }
  destruct Ek as (ks & Ek). assert (Ep : pkr_padding d = Ok None) by (unfold pkr_padding; rewrite Ek, En; now destruct ks).
  split; [exact En|]. unfold pkr_check_padding. rewrite Ep. auto.
Qed.

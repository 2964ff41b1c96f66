(** Properties C70 and C71: the accessors of the headers, the DSM-KROOT and the DSM-PKR. *)
From Coq Require Import ZArith String List Bool Lia.
From Verif Require Import Model.Prelude Model.Params Model.Bitfields Model.Merkle
  Spec.TeslaSpec Spec.KrootSpec Spec.MerkleSpec Spec.FieldSpec
  Proofs.Base Proofs.KrootProofs Proofs.MerkleProofs Proofs.FieldProofs
  Examples.Vectors Examples.Toy.
Import ListNotations.
Open Scope list_scope.
Open Scope Z_scope.

(** ** C70 *)

(** NMA header and DSM header. *)
Theorem C70_headers : forall hd, is_byte hd ->
  In (hd / 64, nma_status hd) nmas_table /\ nma_chain_id hd = hd / 16 mod 4 /\
  In (hd / 2 mod 8, nma_cpks hd) cpks_table /\
  dsm_id hd = hd / 16 /\ dsm_block_id hd = hd mod 16 /\ (dsm_type hd = DsmPkr <-> 12 <= hd / 16).
Proof. exact headers_means. Qed.

(** DSM-KROOT: the codes are read with the tables and the rest is as in the message. *)
Theorem C70_kroot_fields : forall d f, Forall is_byte d -> kroot_layout d f ->
  (exists r, kroot_number_of_blocks d = Ok r /\ means nb_dk_table (kf_nb f) r) /\
  (exists r, kroot_hash_function d = Ok r /\ means hash_table (kf_hf f) r) /\
  (exists r, kroot_mac_function d = Ok r /\ means mac_table (kf_mf f) r) /\
  (exists r, kroot_tag_size d = Ok r /\ means tag_size_table (kf_ts f) r) /\
  kroot_key_size d = Ok (Some (8 * List.length (kf_kroot f))%nat) /\
  (kroot_public_key_id d = Ok (kf_pkid f) /\ kroot_chain_id d = Ok (kf_cid f) /\
   kroot_mac_lookup_table d = Ok (kf_maclt f) /\ kroot_wn d = Ok (kf_wn f) /\
   kroot_towh d = Ok (kf_towh f) /\ kroot_alpha d = Ok (kf_alpha f)) /\
  kroot_kroot d = Ok (kf_kroot f) /\ kroot_digital_signature d = Ok (kf_sig f) /\ kroot_padding d = Ok (kf_pad f) /\
  kroot_ecdsa_function d = Ok (if (List.length (kf_sig f) =? 64)%nat then P256Sha256 else P521Sha512).
Proof.
  intros d f Hd HL. split; [exact (kroot_number_of_blocks_means d f HL)|]. split; [exact (kroot_hash_means d f HL)|].
  split; [exact (kroot_mac_means d f HL)|]. split; [exact (kroot_tag_size_means d f HL)|].
  split; [exact (kroot_key_size_layout d f HL)|]. split; [exact (kroot_numbers d f HL)|].
  split; [exact (kroot_kroot_layout d f HL Hd)|]. split; [exact (kroot_sig_layout d f HL Hd)|].
  split; [exact (kroot_pad_layout d f HL Hd)|]. exact (kroot_ecdsa_layout d f HL Hd).
Qed.

(** The checks of the padding and of the signature; those of the signature panic if they are
    called for the wrong curve or if the signature is not a pair of numbers in range. *)
Theorem C70_kroot_checks : forall (C : crypto), crypto_ok C ->
  forall d f hd m, Forall is_byte d -> is_byte hd -> kroot_layout d f -> kroot_signed hd f m ->
  (exists r, kroot_check_padding d hd = Ok r /\
     (r = true <-> kf_pad f = firstn (List.length (kf_pad f)) (sha256 (m ++ kf_sig f)))) /\
  (forall k, kroot_check_signature_p256 d hd k =
     if (List.length (kf_sig f) =? 64)%nat && p256_sig_parses (kf_sig f) then Ok (p256_verify k m (kf_sig f)) else Panic) /\
  (forall k, kroot_check_signature_p521 d hd k =
     if (List.length (kf_sig f) =? 132)%nat && p521_sig_parses (kf_sig f) then Ok (p521_verify k m (kf_sig f)) else Panic).
Proof.
  intros C HC d f hd m Hd Hh HL Hm. split.
  - destruct (kroot_message_layout d f HL Hd hd Hh) as (m' & Em & Hm'). rewrite (signed_unique hd f m m' Hm Hm').
    exact (kroot_check_padding_layout HC d f HL Hd hd m' Em).
  - split; intros k; [exact (check_p256 d f HL Hd hd k m Hh Hm)|exact (check_p521 d f HL Hd hd k m Hh Hm)].
Qed.

(** The accessors of the signature panic exactly for the messages without the layout. *)
Theorem C70_kroot_panics : forall d, Forall is_byte d ->
  (kroot_ecdsa_function d = Panic <-> ~ exists f, kroot_layout d f) /\
  (kroot_digital_signature d = Panic <-> ~ exists f, kroot_layout d f) /\
  (kroot_padding d = Panic <-> ~ exists f, kroot_layout d f).
Proof.
  intros d Hd. pose proof (kroot_no_layout d Hd) as Hn.
  split; [|split]; split; intros H.
  - intros (f & HL). rewrite (kroot_ecdsa_layout d f HL Hd) in H. discriminate.
  - exact (proj1 (Hn H)).
  - intros (f & HL). rewrite (kroot_sig_layout d f HL Hd) in H. discriminate.
  - exact (proj1 (proj2 (Hn H))).
  - intros (f & HL). rewrite (kroot_pad_layout d f HL Hd) in H. discriminate.
  - exact (proj2 (proj2 (Hn H))).
Qed.

(** DSM-PKR. *)
Theorem C70_pkr_fields : forall d f, pkr_layout d f ->
  (exists r, pkr_number_of_blocks d = Ok r /\ means nb_dp_table (pf_nb f) r) /\
  pkr_message_id d = Ok (pf_mid f) /\
  (forall j, pkr_intermediate_tree_node d j = if (j <? 4)%nat then Ok (nth j (pf_nodes f) []) else Panic) /\
  (exists t, pkr_new_public_key_type d = Ok t /\ In (pf_npkt f, t) npkt_table) /\
  pkr_new_public_key_id d = Ok (pf_npkid f) /\ pkr_key_size d = Ok (Some (List.length (pf_key f))) /\
  pkr_new_public_key d = Ok (Some (pf_key f)) /\ pkr_merkle_tree_leaf d = Ok (Some (pkr_leaf f)) /\
  (pkr_complete d f -> pkr_padding d = Ok (Some (pf_pad f))).
Proof.
  intros d f HL. split; [exact (pkr_number_of_blocks_means d f HL)|]. split; [exact (pkr_message_id_layout d f HL)|].
  split. { intros j. destruct (Nat.ltb_spec j 4) as [H|H]; [exact (pkr_node_layout d f HL j H)|exact (pkr_node_panics d j H)]. }
  split; [exact (pkr_type_means d f HL)|]. split; [exact (pkr_id_layout d f HL)|]. split; [exact (pkr_key_size_layout d f HL)|].
  split; [exact (pkr_key_layout d f HL)|]. split; [exact (pkr_leaf_layout d f HL)|]. exact (pkr_padding_layout d f HL).
Qed.

(** Reserved types: the fields after the type are unknown. *)
Theorem C70_pkr_reserved_type : forall (C : crypto) d root, Forall is_byte d -> (130 <= List.length d)%nat ->
  (forall t, ~ In (nth 129 d 0 / 16, t) npkt_table) ->
  pkr_new_public_key_type d = Ok NpktReserved /\ pkr_new_public_key d = Ok None /\ pkr_merkle_tree_leaf d = Ok None /\
  pkr_padding d = Ok None /\ pkr_check_padding d root = Ok false.
Proof. intros C. exact pkr_reserved. Qed.

(** ** C71 *)

(** The check of the padding of a complete DSM-PKR says whether the padding is right, provided
    that there are at most 32 bytes of it, and otherwise it panics. *)
Theorem C71_check_padding_partial : forall (C : crypto), crypto_ok C ->
  forall d f root, pkr_layout d f -> pkr_complete d f ->
  (((List.length (pf_pad f) <= 32)%nat ->
    exists r, pkr_check_padding d root = Ok r /\ (r = true <-> pkr_padding_right root f)) /\
   ((32 < List.length (pf_pad f))%nat -> pkr_check_padding d root = Panic)).
Proof.
  intros C HC d f root HL Hc. rewrite (pkr_check_padding_layout HC d f HL Hc root).
  destruct (Nat.ltb_spec 32 (List.length (pf_pad f))) as [H|H]; (split; intros H'; [|try reflexivity; lia]).
  - lia.
  - eexists. split; [reflexivity|]. unfold pkr_padding_right. rewrite bytes_eqb_eq. split; congruence.
Qed.

(** The messages with the numbers of blocks that the ICD gives for their type have at most 32
    bytes of padding: 13 blocks for a P-256 key, 16 for a P-521 key, any for an alert. *)
Theorem C71_usual_sizes_partial : forall (C : crypto), crypto_ok C ->
  forall d f root, pkr_layout d f -> pkr_complete d f ->
  (pf_npkt f = 1 -> pf_nb f = 7 \/ pf_nb f = 8) ->
  exists r, pkr_check_padding d root = Ok r /\ (r = true <-> pkr_padding_right root f).
Proof.
  intros C HC d f root HL Hc H1. apply (C71_check_padding_partial C HC d f root HL Hc).
  pose proof (pkr_length d f HL) as Hl. destruct Hc as (n & Hn & Hlen). unfold nb_dp_table in Hn. cbn [In] in Hn.
  destruct (pl_key _ _ HL) as [(E & Hk)|[(E & Hk)|(E & Hb & Hk)]].
  1: specialize (H1 E).
  all: repeat match type of Hn with _ \/ _ => destruct Hn as [Hn|Hn] | False => contradiction end;
    apply pair_equal_spec in Hn; destruct Hn as (En & Em); lia.
Qed.

(** Messages with a reserved type or number of blocks are rejected. *)
Theorem C71_reserved_rejected : forall (C : crypto) d root, Forall is_byte d -> (130 <= List.length d)%nat ->
  (forall t, ~ In (nth 129 d 0 / 16, t) npkt_table) \/ (forall n, ~ In (nth 0 d 0 / 16, n) nb_dp_table) ->
  pkr_check_padding d root = Ok false.
Proof.
  intros C d root Hd Hl [H|H].
  - exact (proj2 (proj2 (proj2 (proj2 (pkr_reserved d root Hd Hl H))))).
  - exact (proj2 (proj2 (pkr_reserved_blocks d root Hd Hl H))).
Qed.

(** A message of 16 blocks with a P-256 key, and one of 13 blocks that claims to have a P-521
    key, which does not fit in it. *)
Definition c71_f : pkr_fields :=
  mkPF 10 3 (repeat (repeat 17 32) 4) 1 2 (2 :: repeat 5 32) (repeat 0 45).
Definition c71_long : list Z := Eval vm_compute in
  (16 * pf_nb c71_f + pf_mid c71_f) :: concat (pf_nodes c71_f) ++ pkr_leaf c71_f ++ pf_pad c71_f.
Definition c71_short : list Z := Eval vm_compute in
  (16 * 7 + 3) :: repeat 17 128 ++ (16 * 3 + 2) :: repeat 5 39.
Lemma c71_layout : pkr_layout c71_long c71_f /\ pkr_complete c71_long c71_f.
Proof.
  split.
  - constructor; [reflexivity|split; [reflexivity|repeat (apply Forall_cons; [reflexivity|]); apply Forall_nil]|vm_compute; intuition congruence|].
    left. split; reflexivity.
  - exists 16%nat. split; [cbn; auto 6|reflexivity].
Qed.

Theorem C71_refuted : forall (C : crypto), crypto_ok C -> exists d f,
  Forall is_byte d /\ pkr_layout d f /\ pkr_complete d f /\ forall root, pkr_check_padding d root = Panic.
Proof.
  intros C HC. exists c71_long, c71_f. destruct c71_layout as (HL & Hc).
  split. { apply all_bytes. vm_compute. reflexivity. }
  split; [exact HL|]. split; [exact Hc|]. intros root.
  apply (C71_check_padding_partial C HC c71_long c71_f root HL Hc). vm_compute. lia.
Qed.

(** A key that does not fit in the blocks: the key, the leaf and the padding panic. *)
Theorem C71_key_does_not_fit : forall (C : crypto) d n, pkr_number_of_blocks d = Ok (Some n) -> List.length d = (13 * n)%nat ->
  pkr_new_public_key_type d = Ok (NpktEcdsaKey P521Sha512) -> (n < 16)%nat ->
  pkr_new_public_key d = Panic /\ pkr_padding d = Panic /\ pkr_merkle_tree_leaf d = Panic /\
  forall root, pkr_check_padding d root = Panic.
Proof.
  intros C d n Hn Hl Ht Hlt. destruct (pkr_no_room d n Hn Hl Ht Hlt) as (E1 & E2 & E3).
  split; [exact E1|]. split; [exact E2|]. split; [exact E3|]. intros root. unfold pkr_check_padding. now rewrite E2.
Qed.

(** ** Examples *)

(** The DSM-KROOT of the test vectors. *)
Definition c70_f : kroot_fields :=
  mkKF 2 2 1 1 0 0 4 9 33 0 1176 33 41590689997730 (sub 13 29 test_kroot) (sub 29 93 test_kroot) (sub 93 104 test_kroot).
Example C70_example : Forall is_byte test_kroot /\ kroot_layout test_kroot c70_f /\
  means nb_dk_table (kf_nb c70_f) (Some 8%nat) /\ means nb_dk_table 9 None /\ means tag_size_table 4 None.
Proof.
  split; [apply all_bytes; vm_compute; reflexivity|]. split.
  { constructor; try (vm_compute; reflexivity).
    - repeat (constructor; [vm_compute; split; congruence|]). constructor.
    - split; [|split]; apply all_bytes; vm_compute; reflexivity.
    - vm_compute. intuition congruence.
    - left. reflexivity.
    - split; [vm_compute; lia|]. exists 8%nat. reflexivity. }
  split; [cbn; auto|]. split; cbn; intros x H; intuition congruence.
Qed.
(** A message that is too short to have the layout. *)
Example C70_example_panics : kroot_padding (firstn 30 test_kroot) = Panic.
Proof. vm_compute. reflexivity. Qed.

(** A DSM-PKR of the test vectors: the padding is right, and is not for another root. *)
Definition c71_vector_f : pkr_fields :=
  mkPF 7 0 (map (fun j => sub (1 + 32 * j) (33 + 32 * j) test_pkr0) (seq 0 4)) 1 1 (sub 130 163 test_pkr0) (sub 163 169 test_pkr0).
Example C71_example : pkr_layout test_pkr0 c71_vector_f /\ pkr_complete test_pkr0 c71_vector_f /\
  pkr_check_padding (C := toy_crypto) test_pkr0 [] = Ok false /\
  pkr_new_public_key c71_short = Panic /\ List.length c71_short = 169%nat /\
  pkr_new_public_key_type c71_short = Ok (NpktEcdsaKey P521Sha512).
Proof.
  split.
  { constructor; [vm_compute; reflexivity|split; [reflexivity|repeat (apply Forall_cons; [vm_compute; reflexivity|]); apply Forall_nil]|vm_compute; intuition congruence|].
    left. split; reflexivity. }
  split; [exists 13%nat; split; [cbn; auto|vm_compute; reflexivity]|].
  repeat split; vm_compute; reflexivity.
Qed.
Example C71_example_right : pkr_check_padding (C := Examples.Sha256.demo_crypto) test_pkr0 test_merkle_root = Ok true.
Proof. exact (proj1 (proj2 (proj2 (proj2 (proj2 (proj2 (proj2 (proj2 test_dsm_pkr)))))))). Qed.

Print Assumptions C70_headers.
Print Assumptions C70_kroot_fields.
Print Assumptions C70_kroot_checks.
Print Assumptions C70_kroot_panics.
Print Assumptions C70_pkr_fields.
Print Assumptions C70_pkr_reserved_type.
Print Assumptions C71_check_padding_partial.
Print Assumptions C71_usual_sizes_partial.
Print Assumptions C71_reserved_rejected.
Print Assumptions C71_refuted.
Print Assumptions C71_key_does_not_fit.

(** The test vectors of the repository's unit tests, run on the model.  These are tests of
    the faithfulness of the model, not proofs of properties. *)
From Coq Require Import ZArith String List Bool.
From Verif Require Import Model.Prelude Model.Params Model.Gst Model.Bitfields Model.Maclt Model.Tesla
  Model.Merkle Model.Dsm Examples.Sha256.
Import ListNotations.
Open Scope list_scope.
Open Scope Z_scope.

Global Existing Instance demo_crypto.
Global Instance debug_build : build := {| overflow_checks := true; feature_p521 := true |}.

(** To show that a concrete list consists of bytes. *)
Lemma all_bytes l : forallb (fun x => (0 <=? x) && (x <? 256)) l = true -> Forall is_byte l.
Proof.
  intros H. apply Forall_forall. intros x Hx. rewrite forallb_forall in H. specialize (H x Hx).
  apply andb_prop in H. destruct H as (H1 & H2). apply Z.leb_le in H1. apply Z.ltb_lt in H2. now split.
Qed.

(** tesla.rs:1055-1079 *)
Definition test_chain : chain := mkChain 1 HashSha256 MacHmacSha256 16 40 33 (load_be (bits_of_bytes (hex "25d3964da3a2"))).
Definition test_chain_2023 : chain := mkChain 0 HashSha256 MacHmacSha256 16 40 34 (load_be (bits_of_bytes (hex "e409305bb856"))).

Definition test_kroot_key : outcome tkey :=
  key_from_slice (hex "84 1e 1d e4 d4 58 c0 e9 84 24 76 e0 04 66 6c f3") (mkGst 1176 (33 * 3600 - 30)) test_chain.
Definition test_key0 : outcome tkey :=
  key_from_slice (hex "42 b4 19 da 6a da 1c 0a 3d 6f 56 a5 e5 dc 59 a7") (mkGst 1176 120930) test_chain.

(** [one_way_function], tesla.rs:1081-1096 *)
Example test_one_way_function :
  (k1 <- key_from_slice (hex "95 42 aa d4 7a bf 39 ba fe 56 68 61 af e8 80 b2") (mkGst 1176 120960) test_chain ;;
   one_way_function k1) = test_key0.
Proof. vm_compute. reflexivity. Qed.

(** [validation_kroot], tesla.rs:1098-1115 *)
Example test_validation_kroot :
  (kroot <- test_kroot_key ;; key <- test_key0 ;; validate_key kroot key)
  = (key <- test_key0 ;; Ok (ROk key)).
Proof. vm_compute. reflexivity. Qed.

Definition test_key : outcome tkey :=
  key_from_slice (hex "19 58 e7 76 6f b4 08 cb d6 a8 de fc e4 c7 d5 66") (mkGst 1176 121080) test_chain.
Definition test_key_2023 : outcome tkey :=
  key_from_slice (hex "33 4f d3 e5 68 c0 4e 2a 44 db a7 8a 03 01 c3 4a") (mkGst 1268 208920) test_chain_2023.

(** Navigation data of E21, tesla.rs:1130-1138 *)
Definition test_navdata : list bool := firstn 549 (bits_of_bytes (hex
  "12 07 d0 ec 19 90 2e 00 1f e1 06 aa 04 ed 97 12 11 f0 56 1f 49 ea ce 67 88 4d 18 57 81 9f 12 3f
   f0 37 48 93 42 c3 c2 96 c7 65 c3 83 1a c4 85 40 01 7f fd 87 d0 fe 85 ee 31 ff f6 20 0c 68 0b fe
   48 00 50 14 00")).

(** [tag0], tesla.rs:1117-1140 *)
Example test_tag0 :
  (k <- test_key ;;
   validate_tag0 k (bits_of_bytes (hex "8f 54 58 88 71")) (mkGst 1176 121050) 21 NmaTest test_navdata) = Ok true.
Proof. vm_compute. reflexivity. Qed.

Definition test_mack : mack := mack_new (hex
  "7e ff 9e 16 a5 dd f0 04 f0 3c 9b 6b 1b 07 4d 49 2e dd 67 0b 02 60 ef 9b 83 36 13 c0 94 a8 72 a7
   f6 12 05 8f 2e f7 63 24 0e c5 ca 40 0f ad f1 12 47 9f 05 44 9a 25 d8 2e 80 c8 00 00") 128 40.
Definition test_mack_2023 : mack := mack_new (hex
  "88 36 af a3 5b eb b1 32 bf 2f 08 e9 24 0f 0a d4 c0 4f a2 08 0f 1d 02 fb 7f 53 03 c1 d4 a6 c5 3b
   4a 05 0f 82 b1 53 4c fe 08 cf b3 2c df 02 5f 50 cf 39 04 d2 78 26 30 39 10 bf 00 00") 128 40.

(** [adkd], [macseq] and [macseq_2023], tesla.rs:1189-1240 *)
Example test_adkd_macseq :
  (k <- test_key ;; mack_validate test_mack k 19 (mkGst 1176 121050)) = Ok (ROk test_mack).
Proof. vm_compute. reflexivity. Qed.
Example test_adkd_macseq_2023 :
  (k <- test_key_2023 ;; mack_validate test_mack_2023 k 3 (mkGst 1268 208890)) = Ok (ROk test_mack_2023).
Proof. vm_compute. reflexivity. Qed.
Example test_adkd_2023 :
  (k <- test_key ;; validate_adkds k test_mack_2023 3 (mkGst 1268 208890) [1; 2; 3; 4; 5]%nat) = Ok (ROk tt).
Proof. vm_compute. reflexivity. Qed.

(** [nma_header] and [dsm_header], bitfields.rs:1026-1046 *)
Example test_nma_header :
  nma_status 82 = NmaTest /\ nma_chain_id 82 = 1 /\ nma_cpks 82 = CpksNominal.
Proof. vm_compute. repeat split. Qed.
Example test_dsm_header : dsm_id 23 = 1 /\ dsm_block_id 23 = 7 /\ dsm_type 23 = DsmKroot.
Proof. vm_compute. repeat split. Qed.

(** DSM-PKR broadcast on 2023-12-12 and 2023-12-15, bitfields.rs:1048-1159 *)
Definition test_pkr0 : list Z := hex
  "70 01 63 1b dc ed 79 d4 31 7b c2 87 0e e3 89 5b d5 9c f2 b6 ea 51 6f ab bf df 1d 73 96 26 14 6f
   fe 31 6f a9 28 5f 5a 1e 44 04 24 13 bd af 18 aa 3c f6 84 72 33 97 d7 b8 32 5a ec a1 eb ca 9f 0f
   64 99 05 42 4c be 48 2a 1a 32 b0 10 64 f8 5d 0c 36 df 03 8e 52 ce 12 8e 7e c5 f3 23 e1 65 b1 82
   a7 15 37 bd b0 10 97 2e b4 a3 b9 0b aa cd 14 94 1e f4 0d a2 cb 2b 82 d3 78 b3 15 c0 08 de ce fd
   8e 11 03 74 a9 25 cf a0 ff 18 05 e5 c5 a5 8f db a3 1b f0 14 5d 5b 5b e2 f0 62 d3 f8 bb 2e e9 8f
   0f 6d b0 e8 23 c5 e7 5e 78".
Definition test_pkr1 : list Z := hex
  "71 e5 53 0a 33 d5 cb 60 c9 50 16 b8 ae c7 45 93 db cd f2 71 1d 39 9e a2 48 69 17 3c a2 29 37 9a
   15 31 6f a9 28 5f 5a 1e 44 04 24 13 bd af 18 aa 3c f6 84 72 33 97 d7 b8 32 5a ec a1 eb ca 9f 0f
   64 99 05 42 4c be 48 2a 1a 32 b0 10 64 f8 5d 0c 36 df 03 8e 52 ce 12 8e 7e c5 f3 23 e1 65 b1 82
   a7 15 37 bd b0 10 97 2e b4 a3 b9 0b aa cd 14 94 1e f4 0d a2 cb 2b 82 d3 78 b3 15 c0 08 de ce fd
   8e 12 03 35 78 e5 c7 11 a9 c3 bd dd 1c a4 ee 85 f7 c5 1b 36 78 97 cb 40 b8 85 68 a0 c8 97 da 30
   ef b7 c3 24 e0 22 2c 90 80".
Definition test_merkle_root : list Z :=
  hex "0E63F552C8021709043C239032EFFE941BF22C8389032F5F2701E0FBC80148B8".
Definition test_pubkey0 : list Z :=
  hex "03 74 a9 25 cf a0 ff 18 05 e5 c5 a5 8f db a3 1b f0 14 5d 5b 5b e2 f0 62 d3 f8 bb 2e e9 8f 0f 6d b0".

Example test_dsm_pkr :
  pkr_number_of_blocks test_pkr0 = Ok (Some 13%nat) /\ pkr_message_id test_pkr0 = Ok 0 /\
  pkr_intermediate_tree_node test_pkr0 3
  = Ok (hex "15 37 bd b0 10 97 2e b4 a3 b9 0b aa cd 14 94 1e f4 0d a2 cb 2b 82 d3 78 b3 15 c0 08 de ce fd 8e") /\
  pkr_new_public_key_type test_pkr0 = Ok (NpktEcdsaKey P256Sha256) /\
  pkr_new_public_key_id test_pkr0 = Ok 1 /\
  pkr_new_public_key test_pkr0 = Ok (Some test_pubkey0) /\
  pkr_padding test_pkr0 = Ok (Some (hex "e8 23 c5 e7 5e 78")) /\
  pkr_check_padding test_pkr0 test_merkle_root = Ok true /\
  pkr_message_id test_pkr1 = Ok 1 /\
  pkr_check_padding test_pkr1 test_merkle_root = Ok true.
Proof. vm_compute. repeat split. Qed.

(** [message_0] and [message_1], merkle_tree.rs, with the injected errors *)
Definition flip (i : nat) (d : list Z) : list Z := put i [Z.lxor 1 (nth i d 0)] d.
Example test_merkle :
  merkle_validate test_merkle_root test_pkr0 = Ok (ROk tt) /\
  merkle_validate test_merkle_root (flip 40 test_pkr0) = Ok (RErr PkrInvalid) /\
  merkle_validate test_merkle_root test_pkr1 = Ok (ROk tt) /\
  merkle_validate test_merkle_root (flip 123 test_pkr1) = Ok (RErr PkrInvalid).
Proof. vm_compute. repeat split. Qed.

(** [dsm_kroot], bitfields.rs:1161-1203 *)
Definition test_kroot : list Z := hex
  "22 50 49 21 04 98 21 25 d3 96 4d a3 a2 84 1e 1d e4 d4 58 c0 e9 84 24 76 e0 04 66 6c f3 79 58 de
   28 51 97 a2 63 53 f1 a4 c6 6d 7e 3d 29 18 53 ba 5a 13 c9 c3 48 4a 26 77 70 11 2a 13 38 3e a5 2d
   3a 01 9d 5b 6e 1d d1 87 b9 45 3c df 06 ca 7f 34 ea 14 97 52 5a af 18 f1 f9 f1 fc cb 12 29 89 77
   35 c0 21 b0 41 73 93 b5".
Example test_dsm_kroot :
  kroot_number_of_blocks test_kroot = Ok (Some 8%nat) /\ kroot_public_key_id test_kroot = Ok 2 /\
  chain_from_dsm_kroot test_kroot = Ok (Some test_chain) /\
  kroot_wn test_kroot = Ok 1176 /\ kroot_towh test_kroot = Ok 33 /\
  kroot_kroot test_kroot = Ok (hex "84 1e 1d e4 d4 58 c0 e9 84 24 76 e0 04 66 6c f3") /\
  kroot_ecdsa_function test_kroot = Ok P256Sha256 /\
  kroot_digital_signature test_kroot = Ok (hex
    "79 58 de 28 51 97 a2 63 53 f1 a4 c6 6d 7e 3d 29 18 53 ba 5a 13 c9 c3 48 4a 26 77 70 11 2a 13 38
     3e a5 2d 3a 01 9d 5b 6e 1d d1 87 b9 45 3c df 06 ca 7f 34 ea 14 97 52 5a af 18 f1 f9 f1 fc cb 12") /\
  kroot_padding test_kroot = Ok (hex "29 89 77 35 c0 21 b0 41 73 93 b5") /\
  kroot_check_padding test_kroot 82 = Ok true /\ kroot_check_padding test_kroot 83 = Ok false.
Proof. vm_compute. repeat split. Qed.

(** [mack], bitfields.rs:1205-1250 *)
Example test_mack_fields :
  let m := mack_new (hex
    "11 55 d3 71 f2 1f 30 a8 e4 ec e0 c0 1b 07 6d 17 7d 64 03 12 05 d4 02 7e 77 13 15 c0 4c ca 1c 16
     99 1a 05 48 91 07 a7 f7 0e c5 42 b4 19 da 6a da 1c 0a 3d 6f 56 a5 e5 dc 59 a7 00 00") 128 40 in
  mack_tag0 m = Ok (bits_of_bytes (hex "11 55 d3 71 f2")) /\ mack_macseq m = Ok 499 /\
  mack_num_tags m = 6%nat /\
  (t <- mack_tag_and_info m 3 ;; Ok (tag_tag t, tag_prnd t, tag_adkd t))
  = Ok (bits_of_bytes (hex "d4 02 7e 77 13"), PrndSvid 21, AdkdSlowMac) /\
  mack_key m = Ok (bits_of_bytes (hex "42 b4 19 da 6a da 1c 0a 3d 6f 56 a5 e5 dc 59 a7")).
Proof. vm_compute. repeat split. Qed.

(** [collect_dsm], dsm.rs:210-256 *)
Definition test_hkroots : list (list Z) := map hex [
  "52 25 01 9d 5b 6e 1d d1 87 b9 45 3c df 06 ca"; "52 23 a4 c6 6d 7e 3d 29 18 53 ba 5a 13 c9 c3";
  "52 27 cb 12 29 89 77 35 c0 21 b0 41 73 93 b5"; "52 26 7f 34 ea 14 97 52 5a af 18 f1 f9 f1 fc";
  "52 24 48 4a 26 77 70 11 2a 13 38 3e a5 2d 3a"; "52 20 22 50 49 21 04 98 21 25 d3 96 4d a3 a2";
  "52 27 cb 12 29 89 77 35 c0 21 b0 41 73 93 b5"; "52 25 01 9d 5b 6e 1d d1 87 b9 45 3c df 06 ca";
  "52 20 22 50 49 21 04 98 21 25 d3 96 4d a3 a2"; "52 20 22 50 49 21 04 98 21 25 d3 96 4d a3 a2";
  "52 26 7f 34 ea 14 97 52 5a af 18 f1 f9 f1 fc"; "52 21 84 1e 1d e4 d4 58 c0 e9 84 24 76 e0 04";
  "52 27 cb 12 29 89 77 35 c0 21 b0 41 73 93 b5"; "52 22 66 6c f3 79 58 de 28 51 97 a2 63 53 f1"]%string.

(** Only the last block completes the message. *)
Example test_collect_dsm :
  let go (acc : outcome (collect_dsm * list (option dsm))) (hk : list Z) :=
    '(st, rs) <- acc ;;
    h <- index hk 1 ;;
    '(st, r) <- dsm_feed st h (skipn 2 hk) ;;
    Ok (st, rs ++ [r]) in
  (x <- fold_left go test_hkroots (Ok (dsm_new, [])) ;; Ok (snd x))
  = Ok (repeat None 13 ++ [Some (mkDsm 2 DsmKroot test_kroot)]).
Proof. vm_compute. reflexivity. Qed.

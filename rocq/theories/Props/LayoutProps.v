(** Property C20: the layout of the MACK message. *)
From Coq Require Import ZArith List Bool Lia.
From Verif Require Import Model.Prelude Model.Params Model.Bitfields Proofs.Base Proofs.LayoutProofs.
Import ListNotations.
Open Scope Z_scope.

(** A KROOT can only announce these sizes (in bits). *)
Theorem C20_announced_sizes : forall kroot ks ts,
  kroot_key_size kroot = Ok (Some ks) -> kroot_tag_size kroot = Ok (Some ts) ->
  In ks [96; 104; 112; 120; 128; 160; 192; 224; 256]%nat /\ In ts [20; 24; 28; 32; 40]%nat.
Proof.
  intros kroot ks ts Hk Ht. split; [exact (kroot_key_size_in _ _ Hk)|exact (kroot_tag_size_in _ _ Ht)].
Qed.

(** For every 60-byte message and all sizes that can be announced the accessors return, with
    no panic, consecutive fields: tag0, MACSEQ (12 bits), COP (4 bits), the tag-and-info
    sections, the key; what is left at the end is shorter than one more section.  The
    accessor of tag-and-info sections panics exactly for the numbers of no section. *)
Theorem C20_mack_layout : forall data ks ts,
  length data = 60%nat ->
  In ks [96; 104; 112; 120; 128; 160; 192; 224; 256]%nat -> In ts [20; 24; 28; 32; 40]%nat ->
  let m := mack_new data ks ts in
  let nt := mack_num_tags m in
  (4 <= nt <= 10)%nat /\
  exists tag0 macseq cop infos key rest,
    mack_tag0 m = Ok tag0 /\ mack_macseq m = Ok macseq /\ mack_cop m = Ok cop /\
    mack_key m = Ok key /\
    (forall n, (1 <= n < nt)%nat -> exists t, mack_tag_and_info m n = Ok t /\
                                              nth_error infos (n - 1) = Some t) /\
    (forall n, mack_tag_and_info m n = Panic <-> (n = 0 \/ nt <= n)%nat) /\
    length tag0 = ts /\ length infos = (nt - 1)%nat /\
    Forall (fun t => length t = (ts + 16)%nat) infos /\ length key = ks /\
    0 <= macseq < 4096 /\ 0 <= cop < 16 /\ (length rest < ts + 16)%nat /\
    bits_of_bytes data
    = tag0 ++ store_be 12 macseq ++ store_be 4 cop ++ concat infos ++ key ++ rest.
Proof.
  intros data ks ts Hd Hk Ht m nt. pose proof (announced_sizes_ok ks ts Hk Ht) as Hs. split.
  - exact (proj1 (num_tags_bounds data ks ts Hd Hs)).
  - exact (mack_layout data ks ts Hd Hs).
Qed.

(** A tag-and-info section is the tag followed by the 16-bit info: PRND (8 bits), ADKD (4
    bits), COP (4 bits). *)
Theorem C20_tag_and_info_layout : forall t, (16 <= length t)%nat ->
  exists prnd adkd,
    length prnd = 8%nat /\ length adkd = 4%nat /\
    t = tag_tag t ++ prnd ++ adkd ++ store_be 4 (tag_cop t) /\
    tag_tag_info t = prnd ++ adkd ++ store_be 4 (tag_cop t) /\
    0 <= tag_cop t < 16.
Proof.
  intros t H. destruct (tag_fields t H) as (H1 & H2).
  assert (E4 : store_be 4 (tag_cop t) = sub (length t - 4) (length t) t).
  { unfold tag_cop. rewrite <- store_load_be. f_equal. rewrite length_sub by lia. lia. }
  exists (sub (length t - 16) (length t - 8) t), (sub (length t - 8) (length t - 4) t).
  rewrite E4, <- H2.
  repeat split; auto; try (rewrite length_sub by lia; lia).
  - pose proof (load_be_range (sub (length t - 4) (length t) t)). unfold tag_cop. lia.
  - pose proof (load_be_range (sub (length t - 4) (length t) t)) as R. unfold tag_cop.
    rewrite length_sub in R by lia. replace (length t - (length t - 4))%nat with 4%nat in R by lia.
    change (2 ^ Z.of_nat 4) with 16 in R. lia.
Qed.

(** 128-bit keys and 40-bit tags, as transmitted today: 6 sections. *)
Example C20_example :
  mack_num_tags (mack_new (repeat 165 60) 128 40) = 6%nat /\
  mack_macseq (mack_new (map Z.of_nat (seq 0 60)) 128 40) = Ok 80 /\
  mack_cop (mack_new (map Z.of_nat (seq 0 60)) 128 40) = Ok 6 /\
  mack_tag_and_info (mack_new (map Z.of_nat (seq 0 60)) 128 40) 6 = Panic.
Proof. vm_compute. repeat split. Qed.

Print Assumptions C20_announced_sizes.
Print Assumptions C20_mack_layout.
Print Assumptions C20_tag_and_info_layout.

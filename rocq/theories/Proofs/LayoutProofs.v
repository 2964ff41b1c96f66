(** Lemmas about the layout of the MACK message. *)
From Coq Require Import ZArith List Bool Lia ZifyBool ZifyNat.
From Verif Require Import Model.Prelude Model.Params Model.Bitfields Proofs.Base.
Import ListNotations.
Open Scope Z_scope.

Lemma sub_app_sub {A} a b c (l : list A) :
  (a <= b)%nat -> (b <= c)%nat -> (c <= length l)%nat -> sub a b l ++ sub b c l = sub a c l.
Proof.
  intros H1 H2 H3. apply nth_error_ext; intros i. rewrite nth_error_sub.
  destruct (Nat.lt_ge_cases i (b - a)) as [Hi|Hi].
  - rewrite nth_error_app1 by (rewrite length_sub; lia). rewrite nth_error_sub.
    replace (i <? b - a)%nat with true by lia. replace (i <? c - a)%nat with true by lia. reflexivity.
  - rewrite nth_error_app2 by (rewrite length_sub; lia). rewrite length_sub by lia.
    rewrite nth_error_sub. replace (i - (b - a) <? c - b)%nat with (i <? c - a)%nat by lia.
    replace (b + (i - (b - a)))%nat with (a + i)%nat by lia. reflexivity.
Qed.

(** Consecutive fields of the same size. *)
Lemma concat_fields {A} s (l : list A) n k :
  (s * (k + n) <= length l)%nat ->
  concat (map (fun i => sub (s * i) (s * (i + 1)) l) (seq k n)) = sub (s * k) (s * (k + n)) l.
Proof.
  revert k; induction n as [|n IH]; intros k H.
  - cbn. rewrite Nat.add_0_r. unfold sub. replace (s * k - s * k)%nat with 0%nat by lia. reflexivity.
  - cbn [seq map concat]. rewrite IH by lia. replace (S k) with (k + 1)%nat by lia.
    rewrite sub_app_sub by lia. f_equal. lia.
Qed.

Definition announced_key_sizes : list nat := [96; 104; 112; 120; 128; 160; 192; 224; 256]%nat.
Definition announced_tag_sizes : list nat := [20; 24; 28; 32; 40]%nat.

Lemma kroot_key_size_in d ks : kroot_key_size d = Ok (Some ks) -> In ks announced_key_sizes.
Proof.
  unfold kroot_key_size. intros H. bind_inv H.
  destruct x as [|p|p]; try discriminate; [injection H as <-; cbn; auto|].
  repeat (destruct p as [p|p|]; try discriminate);
    injection H as <-; cbn; auto 20.
Qed.

Lemma kroot_tag_size_in d ts : kroot_tag_size d = Ok (Some ts) -> In ts announced_tag_sizes.
Proof.
  unfold kroot_tag_size. intros H. bind_inv H.
  destruct x as [|p|p]; try discriminate.
  repeat (destruct p as [p|p|]; try discriminate);
    injection H as <-; cbn; auto 20.
Qed.

Definition sizes_ok (ks ts : nat) : Prop :=
  (96 <= ks <= 256)%nat /\ (20 <= ts <= 40)%nat.

Lemma announced_sizes_ok ks ts :
  In ks announced_key_sizes -> In ts announced_tag_sizes -> sizes_ok ks ts.
Proof.
  unfold announced_key_sizes, announced_tag_sizes, sizes_ok. cbn [In]. intros H1 H2. lia.
Qed.

Section Layout.
Variable data : list Z.
Variables ks ts : nat.
Hypothesis Hdata : length data = 60%nat.
Hypothesis Hsizes : sizes_ok ks ts.

Let m := mack_new data ks ts.
Let nt := mack_num_tags m.

Lemma mack_len : length (mk_data m) = 480%nat.
Proof. unfold m. cbn [mack_new mk_data]. rewrite length_bits_of_bytes. lia. Qed.

Lemma num_tags_bounds : (4 <= nt <= 10)%nat /\ ((ts + 16) * nt + ks <= 480)%nat /\
  (480 - ks < (ts + 16) * (nt + 1))%nat.
Proof.
  unfold nt, mack_num_tags. cbn [m mack_new mk_key_size mk_tag_size].
  destruct Hsizes as (Hk & Ht).
  pose proof (Nat.div_mod (480 - ks) (ts + 16) ltac:(lia)) as E.
  pose proof (Nat.mod_upper_bound (480 - ks) (ts + 16) ltac:(lia)) as Hm.
  set (q := ((480 - ks) / (ts + 16))%nat) in *. clearbody q. nia.
Qed.

Lemma mack_tag0_ok : mack_tag0 m = Ok (sub 0 ts (bits_of_bytes data)).
Proof.
  destruct Hsizes. unfold mack_tag0.
  rewrite slice_in by (rewrite ?mack_len; cbn [m mack_new mk_tag_size]; lia). reflexivity.
Qed.

Lemma mack_macseq_ok : mack_macseq m = Ok (load_be (sub ts (ts + 12) (bits_of_bytes data))).
Proof.
  destruct Hsizes. unfold mack_macseq.
  rewrite slice_in by (rewrite ?mack_len; cbn [m mack_new mk_tag_size]; lia). reflexivity.
Qed.

Lemma mack_cop_ok : mack_cop m = Ok (load_be (sub (ts + 12) (ts + 16) (bits_of_bytes data))).
Proof.
  destruct Hsizes. unfold mack_cop.
  rewrite slice_in by (rewrite ?mack_len; cbn [m mack_new mk_tag_size]; lia).
  cbn [bind m mack_new mk_tag_size mk_data]. do 3 f_equal. lia.
Qed.

Lemma mack_key_ok : mack_key m = Ok (sub ((ts + 16) * nt) ((ts + 16) * nt + ks) (bits_of_bytes data)).
Proof.
  pose proof num_tags_bounds as (_ & H & _). unfold mack_key. fold nt.
  rewrite slice_in by (rewrite ?mack_len; cbn [m mack_new mk_tag_size mk_key_size]; lia).
  reflexivity.
Qed.

Lemma mack_tag_and_info_ok n : (1 <= n < nt)%nat ->
  mack_tag_and_info m n = Ok (sub ((ts + 16) * n) ((ts + 16) * (n + 1)) (bits_of_bytes data)).
Proof.
  intros Hn. pose proof num_tags_bounds as (_ & H & _). unfold mack_tag_and_info. fold nt.
  unfold assert_. replace ((0 <? n) && (n <? nt))%nat with true by lia. cbn [bind].
  rewrite slice_in by (rewrite ?mack_len; cbn [m mack_new mk_tag_size]; nia).
  reflexivity.
Qed.

Lemma mack_tag_and_info_panic n : mack_tag_and_info m n = Panic <-> (n = 0 \/ nt <= n)%nat.
Proof.
  split.
  - intros H. destruct n as [|n]; [auto|]. destruct (Nat.lt_ge_cases (S n) nt); [|auto].
    rewrite mack_tag_and_info_ok in H by lia. discriminate.
  - intros H. unfold mack_tag_and_info. fold nt. unfold assert_.
    replace ((0 <? n) && (n <? nt))%nat with false by lia. reflexivity.
Qed.

Lemma mack_layout :
  exists tag0 macseq cop infos key rest,
    mack_tag0 m = Ok tag0 /\ mack_macseq m = Ok macseq /\ mack_cop m = Ok cop /\
    mack_key m = Ok key /\
    (forall n, (1 <= n < nt)%nat -> exists t, mack_tag_and_info m n = Ok t /\
                                          nth_error infos (n - 1) = Some t) /\
    (forall n, mack_tag_and_info m n = Panic <-> (n = 0 \/ nt <= n)%nat) /\
    length tag0 = ts /\ length infos = (nt - 1)%nat /\
    Forall (fun t => length t = (ts + 16)%nat) infos /\ length key = ks /\
    0 <= macseq < 4096 /\ 0 <= cop < 16 /\ (length rest < ts + 16)%nat /\
    bits_of_bytes data
    = tag0 ++ store_be 12 macseq ++ store_be 4 cop ++ concat infos ++ key ++ rest.
Proof.
  pose proof num_tags_bounds as (Hnt & Hle & Hmax). destruct Hsizes as (Hk & Ht).
  set (l := bits_of_bytes data).
  assert (Hl : length l = 480%nat) by (unfold l; rewrite length_bits_of_bytes; lia).
  exists (sub 0 ts l), (load_be (sub ts (ts + 12) l)), (load_be (sub (ts + 12) (ts + 16) l)),
    (map (fun i => sub ((ts + 16) * i) ((ts + 16) * (i + 1)) l) (seq 1 (nt - 1))),
    (sub ((ts + 16) * nt) ((ts + 16) * nt + ks) l),
    (sub ((ts + 16) * nt + ks) 480 l).
  repeat match goal with |- _ /\ _ => split end.
  - apply mack_tag0_ok.
  - apply mack_macseq_ok.
  - apply mack_cop_ok.
  - apply mack_key_ok.
  - intros n Hn. exists (sub ((ts + 16) * n) ((ts + 16) * (n + 1)) l).
    split; [apply mack_tag_and_info_ok; auto|].
    rewrite nth_error_map.
    rewrite (nth_error_nth' _ 0%nat) by (rewrite seq_length; lia).
    rewrite seq_nth by lia. cbn [option_map]. do 2 f_equal; f_equal; lia.
  - apply mack_tag_and_info_panic.
  - rewrite length_sub by lia. lia.
  - rewrite map_length, seq_length. reflexivity.
  - apply Forall_forall. intros t Hin. apply in_map_iff in Hin. destruct Hin as (n & <- & Hn).
    apply in_seq in Hn. rewrite length_sub by nia. nia.
  - rewrite length_sub by lia. lia.
  - pose proof (load_be_range (sub ts (ts + 12) l)) as R. rewrite length_sub in R by lia.
    replace (ts + 12 - ts)%nat with 12%nat in R by lia. lia.
  - pose proof (load_be_range (sub ts (ts + 12) l)) as R. rewrite length_sub in R by lia.
    replace (ts + 12 - ts)%nat with 12%nat in R by lia. change (2 ^ Z.of_nat 12) with 4096 in R. lia.
  - pose proof (load_be_range (sub (ts + 12) (ts + 16) l)) as R. lia.
  - pose proof (load_be_range (sub (ts + 12) (ts + 16) l)) as R. rewrite length_sub in R by lia.
    replace (ts + 16 - (ts + 12))%nat with 4%nat in R by lia. change (2 ^ Z.of_nat 4) with 16 in R. lia.
  - rewrite length_sub by lia. nia.
  - assert (E12 : store_be 12 (load_be (sub ts (ts + 12) l)) = sub ts (ts + 12) l).
    { rewrite <- store_load_be. f_equal. rewrite length_sub by lia. lia. }
    assert (E4 : store_be 4 (load_be (sub (ts + 12) (ts + 16) l)) = sub (ts + 12) (ts + 16) l).
    { rewrite <- store_load_be. f_equal. rewrite length_sub by lia. lia. }
    rewrite E12, E4, concat_fields by nia.
    replace (1 + (nt - 1))%nat with nt by lia. rewrite Nat.mul_1_r.
    rewrite (sub_app_sub ((ts + 16) * nt)) by lia.
    rewrite (sub_app_sub (ts + 16)) by lia.
    rewrite (sub_app_sub (ts + 12)) by lia.
    rewrite (sub_app_sub ts) by lia.
    rewrite (sub_app_sub 0) by lia.
    rewrite <- Hl. now rewrite sub_full.
Qed.

End Layout.

(** The fields of a tag and info section. *)
Lemma tag_fields t : (16 <= length t)%nat ->
  t = tag_tag t ++ tag_tag_info t /\
  tag_tag_info t = sub (length t - 16) (length t - 8) t ++ sub (length t - 8) (length t - 4) t
                   ++ sub (length t - 4) (length t) t.
Proof.
  intros H. unfold tag_tag, tag_tag_info. split.
  - rewrite sub_app_sub by lia. now rewrite sub_full.
  - rewrite (sub_app_sub (length t - 8)) by lia. now rewrite (sub_app_sub (length t - 16)) by lia.
Qed.

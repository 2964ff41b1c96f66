(** Verification of DSM-KROOT messages. *)
From Coq Require Import ZArith List Bool Lia ZifyBool ZifyNat.
From Verif Require Import Model.Prelude Model.Params Model.Gst Model.Bitfields Model.Maclt Model.Tesla
  Spec.TimeSpec Spec.TeslaSpec Spec.KrootSpec Proofs.Base Proofs.GstProofs Proofs.LayoutProofs
  Proofs.TeslaProofs.
Import ListNotations.
Open Scope list_scope.
Open Scope Z_scope.
Ltac Zify.zify_post_hook ::= Z.div_mod_to_equations.

Lemma be_load_be l : be (length l) (load_be l) = l.
Proof. rewrite <- store_be_is_be. apply store_load_be. Qed.

Lemma be_load_sub n a b (l : list bool) : (b <= length l)%nat -> n = (b - a)%nat ->
  be n (load_be (sub a b l)) = sub a b l.
Proof.
  intros H ->. rewrite <- (length_sub a b l H) at 1. apply be_load_be.
Qed.

(** Reading a field of a message given as a list of pieces. *)
Lemma bits_at_piece d ls tail i n v a b :
  bits_of_bytes d = concat ls ++ tail -> nth_error ls i = Some (be n v) ->
  length (concat (firstn i ls)) = a -> b = (a + n)%nat -> 0 <= v < 2 ^ Z.of_nat n ->
  bits_at d a b = Ok v.
Proof.
  intros Hd Hi Ha Hb Hv.
  apply nth_error_split in Hi. destruct Hi as (l1 & l2 & -> & Hl1).
  assert (Ef : firstn i (l1 ++ be n v :: l2) = l1).
  { subst i. rewrite firstn_app, Nat.sub_diag, firstn_O, app_nil_r. apply firstn_all. }
  rewrite Ef in Ha. rewrite concat_app in Hd. cbn [concat] in Hd. rewrite <- !app_assoc in Hd.
  pose proof (length_bits_of_bytes d) as L. rewrite Hd, !app_length, length_be in L.
  apply bits_at_ok. repeat split; try lia.
  rewrite Hd. unfold sub. rewrite skipn_app, skipn_all2 by lia.
  replace (a - length (concat l1))%nat with 0%nat by lia. cbn [app skipn].
  rewrite firstn_app, length_be. replace (b - a - n)%nat with 0%nat by lia.
  rewrite firstn_O, app_nil_r, firstn_all2 by (rewrite length_be; lia).
  rewrite load_be_be. now rewrite Z.mod_small.
Qed.

Lemma padding_unique k s p n : (13 + k + s + p = 13 * n)%nat -> (p < 13)%nat ->
  ((13 - (k + s) mod 13) mod 13 = p)%nat.
Proof.
  intros H Hp. destruct p as [|p].
  - replace ((k + s) mod 13)%nat with 0%nat; [reflexivity|].
    apply (Nat.mod_unique _ _ (n - 1)); lia.
  - replace ((k + s) mod 13)%nat with (13 - S p)%nat.
    + replace (13 - (13 - S p))%nat with (S p) by lia. apply Nat.mod_small. lia.
    + apply (Nat.mod_unique _ _ (n - 2)); lia.
Qed.

Definition all_params (f : kroot_fields) : list (nat * Z) :=
  (4%nat, kf_nb f) :: (4%nat, kf_pkid f) :: kroot_params f.

Lemma length_written ps : length (written ps) = list_sum (map fst ps).
Proof.
  induction ps as [|p ps IH]; [reflexivity|]. unfold written in *. cbn [map concat list_sum fold_right].
  rewrite app_length, length_be, IH. reflexivity.
Qed.

Lemma length_all_params f : length (written (all_params f)) = 104%nat.
Proof. rewrite length_written. reflexivity. Qed.

Lemma firstn_written i ps : concat (firstn i (map (fun p => be (fst p) (snd p)) ps)) = written (firstn i ps).
Proof. unfold written. now rewrite firstn_map. Qed.

Section Crypto.
Context {C : crypto} {B : build}.
Hypothesis HC : crypto_ok C.

Section Layout.
Variables (d : list Z) (f : kroot_fields).
Hypothesis HL : kroot_layout d f.

Lemma kroot_layout_len : length d = (13 + length (kf_kroot f) + length (kf_sig f) + length (kf_pad f))%nat.
Proof.
  pose proof (kl_bits _ _ HL) as H. apply (f_equal (@length bool)) in H.
  fold (all_params f) in H. rewrite !app_length, length_all_params, !length_bits_of_bytes in H. lia.
Qed.

Lemma kroot_param_at i n v a b :
  nth_error (all_params f) i = Some (n, v) -> list_sum (map fst (firstn i (all_params f))) = a ->
  b = (a + n)%nat -> bits_at d a b = Ok v.
Proof.
  intros Hi Ha ->. pose proof (kl_bits _ _ HL) as H. fold (all_params f) in H. unfold written in H.
  eapply bits_at_piece with (i := i) (n := n); [exact H| | |reflexivity|].
  - rewrite nth_error_map, Hi. reflexivity.
  - rewrite firstn_written, length_written. exact Ha.
  - pose proof (kl_width _ _ HL) as W. fold (all_params f) in W.
    rewrite Forall_forall in W. apply nth_error_In in Hi. exact (W _ Hi).
Qed.

Lemma kroot_bytes_from : Forall is_byte d -> skipn 13 d = kf_kroot f ++ kf_sig f ++ kf_pad f.
Proof.
  intros Hd. destruct (kl_bytes _ _ HL) as (H1 & H2 & H3).
  apply bits_of_bytes_inj.
  - apply Forall_forall. intros x Hx. apply In_skipn in Hx. rewrite Forall_forall in Hd. auto.
  - rewrite !Forall_app. auto.
  - rewrite bits_of_bytes_skipn, !bits_of_bytes_app. rewrite (kl_bits _ _ HL). fold (all_params f).
    rewrite skipn_app, skipn_all2 by (rewrite length_all_params; lia).
    rewrite length_all_params. reflexivity.
Qed.

Lemma kroot_len_in : In (length (kf_kroot f)) [12; 13; 14; 15; 16; 20; 24; 28; 32]%nat.
Proof.
  pose proof (kl_kroot _ _ HL) as H. unfold key_size_table in H. cbn [In] in *.
  repeat (destruct H as [H|H]; [injection H as _ H; lia|]). contradiction.
Qed.

Lemma kroot_key_size_layout : kroot_key_size d = Ok (Some (8 * length (kf_kroot f))%nat).
Proof.
  unfold kroot_key_size. rewrite (kroot_param_at 6 4 (kf_ks f) 16 20) by reflexivity. cbn [bind]. f_equal.
  pose proof (kl_kroot _ _ HL) as H. unfold key_size_table in H. cbn [In] in H.
  repeat (destruct H as [H|H]; [apply pair_equal_spec in H; destruct H as (H1 & H2); rewrite <- H1, <- H2; reflexivity|]).
  contradiction.
Qed.

Hypothesis Hd : Forall is_byte d.

Lemma sub_from a b (x l : list Z) n : skipn n d = x -> (n <= a)%nat -> sub a b d = sub (a - n) (b - n) x.
Proof.
  intros Hx Ha. apply nth_error_ext. intros i. rewrite !nth_error_sub, <- Hx.
  replace (b - n - (a - n))%nat with (b - a)%nat by lia.
  destruct (i <? b - a)%nat; auto. rewrite nth_error_skipn. f_equal. lia.
Qed.

Lemma kroot_kroot_layout : kroot_kroot d = Ok (kf_kroot f).
Proof.
  unfold kroot_kroot. rewrite kroot_key_size_layout. cbn [bind unwrap].
  replace (8 * length (kf_kroot f) / 8)%nat with (length (kf_kroot f)) by (rewrite Nat.mul_comm, Nat.div_mul; lia).
  pose proof kroot_layout_len. rewrite slice_in by lia. f_equal.
  rewrite (sub_from _ _ _ [] 13 (kroot_bytes_from Hd)) by lia.
  replace (13 - 13)%nat with 0%nat by lia. rewrite sub_0.
  replace (13 + length (kf_kroot f) - 13)%nat with (length (kf_kroot f)) by lia.
  rewrite firstn_app, Nat.sub_diag, firstn_O, app_nil_r. apply firstn_all.
Qed.

Lemma kroot_ecdsa_layout :
  kroot_ecdsa_function d = Ok (if (length (kf_sig f) =? 64)%nat then P256Sha256 else P521Sha512).
Proof.
  unfold kroot_ecdsa_function. rewrite kroot_kroot_layout. cbn [bind]. rewrite kroot_layout_len.
  destruct (kl_pad _ _ HL) as (Hp & n & Hn). rewrite kroot_layout_len in Hn.
  pose proof (kl_sig _ _ HL) as Hs. pose proof kroot_len_in as Hk. cbn [In] in Hk.
  set (k := length (kf_kroot f)) in *. set (s := length (kf_sig f)) in *. set (p := length (kf_pad f)) in *.
  clearbody k s p. clear Hk.
  pose proof (padding_unique k s p n Hn Hp) as Ep.
  destruct Hs as [-> | ->].
  - rewrite Ep. change (64 =? 64)%nat with true. cbn [negb].
    replace (13 + k + 64 + p - 13 - k =? 64 + p)%nat with true by lia. reflexivity.
  - rewrite Ep. change (132 =? 64)%nat with false.
    pose proof (Nat.mod_upper_bound (13 - (k + 64) mod 13) 13 ltac:(lia)) as Hb.
    set (q := ((13 - (k + 64) mod 13) mod 13)%nat) in *. clearbody q.
    replace (13 + k + 132 + p - 13 - k =? 64 + q)%nat with false by lia.
    replace (13 + k + 132 + p - 13 - k =? 132 + p)%nat with true by lia. reflexivity.
Qed.

Lemma kroot_sig_layout : kroot_digital_signature d = Ok (kf_sig f).
Proof.
  unfold kroot_digital_signature. rewrite kroot_ecdsa_layout, kroot_kroot_layout. cbn [bind].
  pose proof kroot_layout_len.
  assert (E : (match (if (length (kf_sig f) =? 64)%nat then P256Sha256 else P521Sha512) with
              | P256Sha256 => 64 | P521Sha512 => 132 end = length (kf_sig f))%nat).
  { destruct (kl_sig _ _ HL) as [-> | ->]; reflexivity. }
  rewrite E. rewrite slice_in by lia. f_equal.
  rewrite (sub_from _ _ _ [] 13 (kroot_bytes_from Hd)) by lia. unfold sub.
  rewrite skipn_app. replace (13 + length (kf_kroot f) - 13)%nat with (length (kf_kroot f)) by lia.
  rewrite skipn_all, Nat.sub_diag. cbn [app skipn].
  replace (13 + length (kf_kroot f) + length (kf_sig f) - 13 - length (kf_kroot f))%nat
    with (length (kf_sig f)) by lia.
  rewrite firstn_app, Nat.sub_diag, firstn_O, app_nil_r. apply firstn_all.
Qed.

Lemma kroot_pad_layout : kroot_padding d = Ok (kf_pad f).
Proof.
  unfold kroot_padding. rewrite kroot_kroot_layout, kroot_sig_layout. cbn [bind].
  pose proof kroot_layout_len.
  rewrite slice_in by lia. f_equal.
  rewrite (sub_from _ _ _ [] 13 (kroot_bytes_from Hd)) by lia. unfold sub.
  rewrite app_assoc, skipn_app.
  replace (13 + length (kf_kroot f) + length (kf_sig f) - 13)%nat
    with (length (kf_kroot f ++ kf_sig f)) by (rewrite app_length; lia).
  rewrite skipn_all, Nat.sub_diag. cbn [app skipn]. apply firstn_all2. rewrite app_length. lia.
Qed.

Lemma kroot_message_layout h : is_byte h ->
  exists m, kroot_signature_message d h = Ok m /\ kroot_signed h f m.
Proof.
  intros Hh. unfold kroot_signature_message. rewrite kroot_kroot_layout. cbn [bind].
  pose proof kroot_layout_len. rewrite slice_in by lia. eexists. split; [reflexivity|].
  apply encodes_full.
  - constructor; [exact Hh|]. now apply Forall_sub.
  - rewrite bits_of_bytes_cons, is_byte_store. f_equal.
    unfold sub. rewrite bits_of_bytes_firstn, bits_of_bytes_skipn, (kl_bits _ _ HL).
    assert (Ew : written ((4%nat, kf_nb f) :: (4%nat, kf_pkid f) :: kroot_params f)
                 = (be 4 (kf_nb f) ++ be 4 (kf_pkid f)) ++ written (kroot_params f)).
    { change (written ((4%nat, kf_nb f) :: (4%nat, kf_pkid f) :: kroot_params f))
        with (be 4 (kf_nb f) ++ be 4 (kf_pkid f) ++ written (kroot_params f)). now rewrite app_assoc. }
    assert (Lw : length (written (kroot_params f)) = 96%nat) by (rewrite length_written; reflexivity).
    rewrite Ew, <- (app_assoc (be 4 (kf_nb f) ++ be 4 (kf_pkid f))).
    set (hd := be 4 (kf_nb f) ++ be 4 (kf_pkid f)).
    assert (Lh : length hd = 8%nat) by (unfold hd; rewrite app_length, !length_be; reflexivity).
    rewrite skipn_app, skipn_all2 by lia. rewrite Lh. replace (8 * 1 - 8)%nat with 0%nat by lia. cbn [app skipn].
    rewrite (app_assoc (written (kroot_params f))). rewrite firstn_app.
    rewrite firstn_all2 by (rewrite app_length, Lw, length_bits_of_bytes; lia).
    rewrite app_length, Lw, length_bits_of_bytes.
    replace (8 * (13 + length (kf_kroot f) - 1) - (96 + 8 * length (kf_kroot f)))%nat with 0%nat by lia.
    now rewrite firstn_O, app_nil_r.
Qed.

Lemma kroot_check_padding_layout h m : kroot_signature_message d h = Ok m ->
  exists r, kroot_check_padding d h = Ok r /\
    (r = true <-> kf_pad f = firstn (length (kf_pad f)) (sha256 (m ++ kf_sig f))).
Proof.
  intros Hm. unfold kroot_check_padding. rewrite Hm, kroot_sig_layout, kroot_pad_layout. cbn [bind].
  destruct (kl_pad _ _ HL) as (Hp & _). destruct HC as (Hh & _).
  rewrite slice_in by (rewrite ?(proj1 (Hh _)); lia). cbn [bind]. eexists. split; [reflexivity|].
  rewrite sub_0, bytes_eqb_eq. split; congruence.
Qed.

End Layout.

(** The fields of the bytes of a message. *)
Definition num_at (d : list Z) (a b : nat) : Z := load_be (sub a b (bits_of_bytes d)).
Definition fields_of (d : list Z) (klen slen : nat) : kroot_fields :=
  mkKF (num_at d 0 4) (num_at d 4 8) (num_at d 8 10) (num_at d 10 12) (num_at d 12 14) (num_at d 14 16)
       (num_at d 16 20) (num_at d 20 24) (num_at d 24 32) (num_at d 32 36) (num_at d 36 48)
       (num_at d 48 56) (num_at d 56 104)
       (sub 13 (13 + klen) d) (sub (13 + klen) (13 + klen + slen) d) (sub (13 + klen + slen) (length d) d).

Lemma num_at_range d a b : (a <= b)%nat -> (b <= 8 * length d)%nat ->
  0 <= num_at d a b < 2 ^ Z.of_nat (b - a).
Proof. intros. apply (bits_at_range d a b). apply bits_at_ok. auto. Qed.

(** If the signature type is recognised, the message has the layout. *)
Lemma ecdsa_function_layout d fn : Forall is_byte d -> kroot_ecdsa_function d = Ok fn ->
  exists f, kroot_layout d f /\ length (kf_sig f) = match fn with P256Sha256 => 64 | P521Sha512 => 132 end%nat.
Proof.
  intros Hd H. unfold kroot_ecdsa_function in H. bind_inv H. rename x into k.
  unfold kroot_kroot in E. bind_inv E. bind_inv E. rename x into o, x0 into size.
  apply unwrap_ok in E1. subst o. apply slice_ok in E. destruct E as (Hs1 & Hs2 & ->).
  pose proof (kroot_key_size_in _ _ E0) as Hin.
  set (klen := (size / 8)%nat) in *.
  assert (Hk8 : size = (8 * klen)%nat /\ In klen [12; 13; 14; 15; 16; 20; 24; 28; 32]%nat).
  { unfold klen. clear - Hin. unfold announced_key_sizes in Hin. cbn [In] in Hin.
    repeat (destruct Hin as [<-|Hin]; [split; [reflexivity|cbn; auto 20]|]). contradiction. }
  destruct Hk8 as (Hsz & Hkin). clearbody klen. subst size.
  rewrite length_sub in H by lia. replace (13 + klen - 13)%nat with klen in H by lia.
  set (slen := match fn with P256Sha256 => 64 | P521Sha512 => 132 end%nat).
  assert (Hlen : (exists p, length d = 13 + klen + slen + p /\ p < 13 /\ exists n, length d = 13 * n)%nat).
  { clear - H Hkin Hs2. set (L := length d) in *. clearbody L.
    assert (P : forall s, exists q, ((klen + s) + (13 - (klen + s) mod 13) mod 13 = 13 * q)%nat).
    { intros s. exists (((klen + s) + (13 - (klen + s) mod 13) mod 13) / 13)%nat.
      set (a := (klen + s)%nat). zify. lia. }
    assert (Q : forall s, ((13 - (klen + s) mod 13) mod 13 < 13)%nat) by (intros; apply Nat.mod_upper_bound; lia).
    destruct (L - 13 - klen =? 64 + (13 - (klen + 64) mod 13) mod 13)%nat eqn:Ea.
    - injection H as <-. apply Nat.eqb_eq in Ea. destruct (P 64%nat) as (q & Hq). specialize (Q 64%nat).
      exists ((13 - (klen + 64) mod 13) mod 13)%nat. unfold slen.
      set (pp := ((13 - (klen + 64) mod 13) mod 13)%nat) in *. clearbody pp.
      split; [lia|]. split; [lia|]. exists (q + 1)%nat. lia.
    - destruct (L - 13 - klen =? 132 + (13 - (klen + 132) mod 13) mod 13)%nat eqn:Eb; [|discriminate].
      injection H as <-. apply Nat.eqb_eq in Eb. destruct (P 132%nat) as (q & Hq). specialize (Q 132%nat).
      exists ((13 - (klen + 132) mod 13) mod 13)%nat. unfold slen.
      set (pp := ((13 - (klen + 132) mod 13) mod 13)%nat) in *. clearbody pp.
      split; [lia|]. split; [lia|]. exists (q + 1)%nat. lia. }
  destruct Hlen as (p & Hp & Hp13 & n & Hn).
  assert (Hl : length (bits_of_bytes d) = (8 * length d)%nat) by apply length_bits_of_bytes.
  exists (fields_of d klen slen). split.
  - constructor; cbn [fields_of kf_nb kf_pkid kf_cid kf_res1 kf_hf kf_mf kf_ks kf_ts kf_maclt kf_res2 kf_wn
                      kf_towh kf_alpha kf_kroot kf_sig kf_pad kroot_params].
    + unfold written, kroot_params.
      cbn [map concat fst snd fields_of kf_nb kf_pkid kf_cid kf_res1 kf_hf kf_mf kf_ks kf_ts kf_maclt kf_res2 kf_wn
           kf_towh kf_alpha]. unfold num_at.
      rewrite !be_load_sub by lia. rewrite app_nil_r.
      assert (Hb : forall a b, bits_of_bytes (sub a b d) = sub (8 * a) (8 * b) (bits_of_bytes d)).
      { intros a b. unfold sub. rewrite bits_of_bytes_firstn, bits_of_bytes_skipn. f_equal. lia. }
      rewrite !Hb. rewrite <- !app_assoc.
      rewrite (sub_app_sub (8 * (13 + klen))) by lia.
      change (8 * 13)%nat with 104%nat. rewrite (sub_app_sub 104) by lia.
      rewrite (sub_app_sub 56), (sub_app_sub 48), (sub_app_sub 36), (sub_app_sub 32), (sub_app_sub 24),
        (sub_app_sub 20), (sub_app_sub 16), (sub_app_sub 14), (sub_app_sub 12), (sub_app_sub 10),
        (sub_app_sub 8), (sub_app_sub 4), (sub_app_sub 0) by lia.
      rewrite <- Hl. now rewrite sub_full.
    + unfold kroot_params, in_width.
      repeat constructor; cbn [fst snd fields_of kf_nb kf_pkid kf_cid kf_res1 kf_hf kf_mf kf_ks kf_ts kf_maclt kf_res2 kf_wn
           kf_towh kf_alpha]; apply num_at_range; lia.
    + repeat split; now apply Forall_sub.
    + rewrite length_sub by lia. replace (13 + klen - 13)%nat with klen by lia.
      unfold kroot_key_size in E0. rewrite bits_at_in in E0 by lia. cbn [bind] in E0.
      fold (num_at d 16 20) in E0. set (v := num_at d 16 20) in *. clearbody v.
      unfold key_size_table. set (k8 := (8 * klen)%nat) in *. clearbody k8.
      apply (f_equal (fun o => match o with Ok (Some n) => n | _ => 0%nat end)) in E0. cbv beta iota in E0.
      assert (k8 <> 0)%nat by (unfold announced_key_sizes in Hin; cbn [In] in Hin; lia).
      destruct v as [|v|v]; try (exfalso; lia); [rewrite <- E0; cbn; auto|].
      do 4 (try (destruct v as [v|v|]; try (exfalso; lia)));
        rewrite <- E0; cbn; auto 20.
    + rewrite length_sub by lia. unfold slen. destruct fn; lia.
    + rewrite length_sub by lia. split; [lia|]. eauto.
  - cbn [fields_of kf_sig]. rewrite length_sub by lia. unfold slen. destruct fn; lia.
Qed.

(** ** The chain *)

Lemma In_key_sizes z n : In (z, n) key_size_table -> In n announced_key_sizes.
Proof. unfold key_size_table, announced_key_sizes. cbn [In]. intuition (try congruence). all: right; auto 20. Qed.

Lemma chain_from_layout d f c : kroot_layout d f -> Forall is_byte d ->
  (chain_from_dsm_kroot d = Ok (Some c) <->
   ch_id c = kf_cid f /\ In (kf_hf f, ch_hash c) hash_table /\ In (kf_mf f, ch_mac c) mac_table /\
   ch_key_bytes c = length (kf_kroot f) /\ In (kf_ts f, ch_tag_bits c) tag_size_table /\
   ch_maclt c = kf_maclt f /\ ch_alpha c = kf_alpha f).
Proof.
  intros HL Hd. unfold chain_from_dsm_kroot, kroot_hash_function, kroot_mac_function, kroot_tag_size,
    kroot_chain_id, kroot_mac_lookup_table, kroot_alpha.
  rewrite (kroot_param_at d f HL 4 2 (kf_hf f) 12 14) by reflexivity.
  rewrite (kroot_param_at d f HL 5 2 (kf_mf f) 14 16) by reflexivity.
  rewrite (kroot_key_size_layout d f HL).
  rewrite (kroot_param_at d f HL 7 4 (kf_ts f) 20 24) by reflexivity.
  rewrite (kroot_param_at d f HL 2 2 (kf_cid f) 8 10) by reflexivity.
  rewrite (kroot_param_at d f HL 8 8 (kf_maclt f) 24 32) by reflexivity.
  rewrite (kroot_param_at d f HL 12 48 (kf_alpha f) 56 104) by reflexivity.
  cbn [bind].
  pose proof (kl_width _ _ HL) as W. unfold kroot_params in W.
  repeat match goal with K : Forall _ (_ :: _) |- _ => inversion K; clear K; subst end.
  unfold in_width in *. cbn [fst snd] in *.
  assert (Hhf : forall x, In (kf_hf f, x) hash_table <->
                match kf_hf f with 0 => Some HashSha256 | 2 => Some HashSha3_256 | _ => None end = Some x).
  { intros x. unfold hash_table. cbn [In]. split.
    - intros [E|[E|[]]]; injection E as <- <-; reflexivity.
    - destruct (kf_hf f) as [|[| [| |]|]|]; try discriminate; intros E; injection E as <-; auto. }
  assert (Hmf : forall x, In (kf_mf f, x) mac_table <->
                match kf_mf f with 0 => Some MacHmacSha256 | 1 => Some MacCmacAes | _ => None end = Some x).
  { intros x. unfold mac_table. cbn [In]. split.
    - intros [E|[E|[]]]; injection E as <- <-; reflexivity.
    - destruct (kf_mf f) as [|[| |]|]; try discriminate; intros E; injection E as <-; auto. }
  assert (Hts : forall x, In (kf_ts f, x) tag_size_table <->
                match kf_ts f with 5 => Some 20%nat | 6 => Some 24%nat | 7 => Some 28%nat
                | 8 => Some 32%nat | 9 => Some 40%nat | _ => None end = Some x).
  { intros x. unfold tag_size_table. cbn [In]. split.
    - intros [E|[E|[E|[E|[E|[]]]]]]; injection E as <- <-; reflexivity.
    - destruct (kf_ts f) as [|p|p]; try discriminate.
      do 4 (try (destruct p as [p|p|]; try discriminate)); intros E; injection E as <-; auto 10. }
  destruct (match kf_hf f with 0 => Some HashSha256 | 2 => Some HashSha3_256 | _ => None end) as [h|].
  2:{ split; [discriminate|]. intros (_ & E & _). apply Hhf in E. discriminate. }
  destruct (match kf_mf f with 0 => Some MacHmacSha256 | 1 => Some MacCmacAes | _ => None end) as [m|].
  2:{ split; [discriminate|]. intros (_ & _ & E & _). apply Hmf in E. discriminate. }
  unfold assert_. replace ((8 * length (kf_kroot f)) mod 8 =? 0)%nat with true
    by (rewrite Nat.mul_comm, Nat.mod_mul by lia; reflexivity). cbn [bind].
  replace (8 * length (kf_kroot f) / 8)%nat with (length (kf_kroot f)) by (rewrite Nat.mul_comm, Nat.div_mul; lia).
  destruct (match kf_ts f with 5 => Some 20%nat | 6 => Some 24%nat | 7 => Some 28%nat
                | 8 => Some 32%nat | 9 => Some 40%nat | _ => None end) as [t|].
  2:{ split; [discriminate|]. intros (_ & _ & _ & _ & E & _). apply Hts in E. discriminate. }
  cbn [bind]. split.
  - intros E. injection E as <-. cbn [ch_id ch_hash ch_mac ch_key_bytes ch_tag_bits ch_maclt ch_alpha].
    repeat split; auto; [now apply Hhf|now apply Hmf|now apply Hts].
  - destruct c as [i h' m' kb tb lt al]. cbn [ch_id ch_hash ch_mac ch_key_bytes ch_tag_bits ch_maclt ch_alpha].
    intros (-> & Eh & Em & -> & Et & -> & ->). apply Hhf in Eh. apply Hmf in Em. apply Hts in Et.
    injection Eh as ->. injection Em as ->. injection Et as ->. reflexivity.
Qed.

(** ** The exact behaviour of [key_from_dsm_kroot] *)

Lemma signed_unique h f m m' : kroot_signed h f m -> kroot_signed h f m' -> m = m'.
Proof. apply encodes_unique. Qed.

Lemma kroot_signature_iff d f h pk m : kroot_layout d f -> Forall is_byte d ->
  kroot_signature_message d h = Ok m ->
  match pk, (if (length (kf_sig f) =? 64)%nat then P256Sha256 else P521Sha512) with
         | VkP256 pk, P256Sha256 =>
             ok <- kroot_check_signature_p256 d h pk ;;
             Ok (if ok then None else Some WrongEcdsa)
         | VkP521 pk, P521Sha512 =>
             if feature_p521 then
               ok <- kroot_check_signature_p521 d h pk ;;
               Ok (if ok then None else Some WrongEcdsa)
             else Ok (Some WrongEcdsaKeyType)
         | _, _ => Ok (Some WrongEcdsaKeyType)
         end = Ok None <->
  match pk with
    | VkP256 k => length (kf_sig f) = 64%nat /\ p256_sig_parses (kf_sig f) = true /\
                  p256_verify k m (kf_sig f) = true
    | VkP521 k => feature_p521 = true /\
                  length (kf_sig f) = 132%nat /\ p521_sig_parses (kf_sig f) = true /\
                  p521_verify k m (kf_sig f) = true
    end.
Proof.
  intros HL Hd Hm. unfold kroot_check_signature_p256, kroot_check_signature_p521.
  rewrite (kroot_ecdsa_layout d f HL Hd), Hm, (kroot_sig_layout d f HL Hd). cbn [bind].
  destruct pk as [pk|pk]; destruct (kl_sig _ _ HL) as [E|E]; rewrite E;
    [change (64 =? 64)%nat with true|change (132 =? 64)%nat with false
    |change (64 =? 64)%nat with true|change (132 =? 64)%nat with false];
    cbn [ecdsa_fn_eqb assert_ bind]; unfold assert_.
  - destruct (p256_sig_parses (kf_sig f)); cbn [bind]; [|split; [discriminate|intuition discriminate]].
    destruct (p256_verify pk m (kf_sig f)); cbn [bind]; split; auto; try discriminate; intuition discriminate.
  - split; [discriminate|]. intros (K & _). discriminate K.
  - split; [discriminate|]. intros (_ & K & _). discriminate K.
  - destruct feature_p521; [|split; [discriminate|intuition discriminate]].
    destruct (p521_sig_parses (kf_sig f)); cbn [bind]; [|split; [discriminate|intuition discriminate]].
    destruct (p521_verify pk m (kf_sig f)); cbn [bind]; split; auto; try discriminate; intuition discriminate.
Qed.

Lemma key_from_dsm_kroot_sound h d pk k : is_byte h -> Forall is_byte d ->
  key_from_dsm_kroot h d pk = Ok (ROk k) ->
  exists f, kroot_layout d f /\ kroot_verified h f pk /\ kroot_key f k /\ key_ok k.
Proof.
  intros Hh Hd H. unfold key_from_dsm_kroot in H.
  bind_inv H. destruct x as [c|]; [|discriminate]. rename E into Ec.
  bind_inv H. destruct x; cbn [negb] in H; [|discriminate]. rename E into Ep.
  bind_inv H. rename x into fn, E into Ef.
  destruct (ecdsa_function_layout d fn Hd Ef) as (f & HL & Hs).
  bind_inv H. destruct x as [e|]; [discriminate|]. rename E into Esig.
  bind_inv H. rename x into wn, E into Ewn. bind_inv H. rename x into towh, E into Etow.
  bind_inv H. rename x into g0, E into Eg0. bind_inv H. bind_inv H. rename x0 into g, E0 into Eg.
  bind_inv H. rename x0 into s, E0 into Es. bind_inv H. rename x0 into k0, E0 into Ek. injection H as <-.
  exists f. split; auto.
  destruct (kroot_message_layout d f HL Hd h Hh) as (m & Em & Hm).
  destruct (kroot_check_padding_layout d f HL Hd h m Em) as (r & Er & Hr).
  rewrite Ep in Er. injection Er as <-. pose proof (proj1 Hr eq_refl) as Hpad. clear Hr.
  rewrite (kroot_ecdsa_layout d f HL Hd) in Ef. injection Ef as <-.
  apply (kroot_signature_iff d f h pk m HL Hd Em) in Esig.
  unfold kroot_wn in Ewn.
  rewrite (kroot_param_at d f HL 10 12 (kf_wn f) 36 48) in Ewn by reflexivity. injection Ewn as <-.
  unfold kroot_towh in Etow.
  rewrite (kroot_param_at d f HL 11 8 (kf_towh f) 48 56) in Etow by reflexivity. injection Etow as <-.
  rewrite (kroot_kroot_layout d f HL Hd) in Es. injection Es as <-.
  pose proof (chain_from_dsm_kroot_ok _ _ Ec) as Hcok.
  apply (proj1 (chain_from_layout d f c HL Hd)) in Ec.
  destruct Ec as (C1 & C2 & C3 & C4 & C5 & C6 & C7).
  unfold gst_new, secs_in_week in Eg0. bind_inv Eg0. apply assert_ok' in E0. injection Eg0 as <-.
  pose proof (kl_width _ _ HL) as W. unfold kroot_params in W.
  repeat match goal with K : Forall _ (_ :: _) |- _ => inversion K; clear K; subst end.
  unfold in_width in *. cbn [fst snd] in *.
  assert (Hgok : gst_ok (mkGst (kf_wn f) (kf_towh f * 3600))).
  { unfold gst_ok. cbn [g_wn g_tow]. lia. }
  apply add_seconds_exact in Eg; auto; [|lia]. destruct Eg as (Hg & Ht & _ & _).
  unfold time_of in Ht at 2. cbn [g_wn g_tow] in Ht.
  unfold key_from_slice in Ek. bind_inv Ek. apply assert_ok' in E1. rename E1 into Hsub.
  bind_inv Ek. apply copy_from_ok in E1. destruct E1 as (K1 & K2 & K3 & ->). injection Ek as <-.
  split; [exists m; split; auto; split; auto; destruct pk; tauto|].
  assert (Hput : put 0 (kf_kroot f) (repeat 0 max_key_bytes) = kf_kroot f ++ repeat 0 (32 - length (kf_kroot f))).
  { unfold put. rewrite firstn_O. cbn [app Nat.add]. f_equal.
    rewrite repeat_length in K2.
    change max_key_bytes with 32%nat in *.
    replace 32%nat with (length (kf_kroot f) + (32 - length (kf_kroot f)))%nat at 1 by lia.
    rewrite repeat_app, skipn_app, skipn_all2 by (rewrite repeat_length; lia).
    rewrite repeat_length, Nat.sub_diag. reflexivity. }
  split.
  - constructor; cbn [k_chain k_gst k_data]; auto; try lia.
  - constructor; cbn [k_chain k_gst k_data]; auto.
    change (bytes_ok 32 (put 0 (kf_kroot f) (repeat 0 max_key_bytes))). rewrite Hput. destruct (kl_bytes _ _ HL) as (Hb & _).
    rewrite repeat_length in K2. change max_key_bytes with 32%nat in *.
    split; [rewrite app_length, repeat_length; lia|]. apply Forall_app. split; auto.
    apply Forall_forall. intros y1 Hx. apply repeat_spec in Hx. subst y1. unfold is_byte. lia.
Qed.

Lemma key_from_dsm_kroot_complete h d pk f k : is_byte h -> Forall is_byte d ->
  kroot_layout d f -> kroot_verified h f pk -> kroot_key f k -> gst_ok (k_gst k) ->
  (overflow_checks = true -> 30 <= 604800 * kf_wn f + 3600 * kf_towh f) ->
  (forall k521, pk = VkP521 k521 -> feature_p521 = true) ->
  key_from_dsm_kroot h d pk = Ok (ROk k).
Proof.
  intros Hh Hd HL (m & Hm & Hpad & Hsig) HK Hg Hov Hfeat.
  destruct HK as [K1 K2 K3 K4 K5 K6 K7 K8 K9 K10].
  unfold key_from_dsm_kroot.
  rewrite (proj2 (chain_from_layout d f (k_chain k) HL Hd)) by auto 10. cbn [bind].
  destruct (kroot_message_layout d f HL Hd h Hh) as (m' & Em & Hm').
  rewrite (signed_unique _ _ _ _ Hm' Hm) in *. clear m' Hm'.
  destruct (kroot_check_padding_layout d f HL Hd h m Em) as (r & Er & Hr).
  rewrite Er. rewrite (proj2 Hr Hpad). cbn [bind negb].
  rewrite (kroot_ecdsa_layout d f HL Hd). cbn [bind].
  rewrite (proj2 (kroot_signature_iff d f h pk m HL Hd Em))
    by (destruct pk; auto; repeat split; try apply Hsig; eauto).
  cbn [bind]. unfold kroot_wn, kroot_towh.
  rewrite (kroot_param_at d f HL 10 12 (kf_wn f) 36 48) by reflexivity.
  rewrite (kroot_param_at d f HL 11 8 (kf_towh f) 48 56) by reflexivity. cbn [bind].
  pose proof (kl_width _ _ HL) as W. unfold kroot_params in W.
  repeat match goal with K : Forall _ (_ :: _) |- _ => inversion K; clear K; subst end.
  unfold in_width in *. cbn [fst snd] in *.
  unfold gst_new, secs_in_week, assert_. replace (kf_towh f * 3600 <? 604800) with true by lia. cbn [bind].
  unfold is_subframe, secs_per_subframe. cbn [g_tow].
  replace (kf_towh f * 3600 mod 30 =? 0) with true by lia. cbn [bind].
  assert (Hgok : gst_ok (mkGst (kf_wn f) (kf_towh f * 3600))).
  { unfold gst_ok. cbn [g_wn g_tow]. lia. }
  assert (Egs : add_seconds (mkGst (kf_wn f) (kf_towh f * 3600)) (-30) = Ok (k_gst k)).
  { destruct (add_seconds (mkGst (kf_wn f) (kf_towh f * 3600)) (-30)) as [g|] eqn:Eg.
    - f_equal. apply add_seconds_exact in Eg; auto; [|lia]. destruct Eg as (Hg' & Ht & _ & _).
      unfold time_of in Ht at 2. cbn [g_wn g_tow] in Ht. apply time_of_inj; auto. rewrite Ht, K10. f_equal. lia.
    - apply add_seconds_panic in Eg; auto; [|lia]. exfalso. destruct Eg as [Eg|(Eo & Eg)]; [lia|].
      apply Eg. unfold representable, time_of. cbn [g_wn g_tow]. specialize (Hov Eo). lia. }
  rewrite Egs. cbn [bind]. rewrite (kroot_kroot_layout d f HL Hd). cbn [bind].
  unfold key_from_slice, assert_.
  assert (Hsf : is_subframe (k_gst k) = true).
  { apply is_subframe_start. rewrite K10.
    exists ((604800 * kf_wn f + 3600 * kf_towh f - 30) mod (65536 * 604800) / 30).
    set (T := 604800 * kf_wn f + 3600 * kf_towh f - 30). assert (HT : exists q, T = 30 * q) by (exists (20160 * kf_wn f + 120 * kf_towh f - 1); unfold T; lia).
    destruct HT as (q & HT). clearbody T. change (65536 * 604800) with (30 * 1321205760). subst T.
    rewrite Z.mul_mod_distr_l by lia. rewrite (Z.mul_comm 30 (q mod _)), Z.div_mul by lia. lia. }
  rewrite Hsf. cbn [bind].
  pose proof (kroot_len_in d f HL) as Hkl. cbn [In] in Hkl.
  rewrite copy_from_in by (rewrite ?repeat_length; unfold max_key_bytes; lia). cbn [bind].
  do 2 f_equal. destruct k as [kd kc kg]. cbn [k_data k_chain k_gst] in *. f_equal. rewrite K8.
  unfold put. rewrite firstn_O. cbn [app Nat.add]. f_equal.
  change max_key_bytes with 32%nat in *.
  replace 32%nat with (length (kf_kroot f) + (32 - length (kf_kroot f)))%nat at 1 by lia.
  rewrite repeat_app, skipn_app, skipn_all2 by (rewrite repeat_length; lia).
  rewrite repeat_length, Nat.sub_diag. reflexivity.
Qed.

(** Keys are functions of the signed bytes. *)
Lemma split_app {A} (a b c d : list A) : length a = length b -> a ++ c = b ++ d -> a = b /\ c = d.
Proof.
  revert b. induction a as [|x a IH]; intros [|y b] Hl H; cbn in *; try discriminate; auto.
  injection H as -> H. injection Hl as Hl. destruct (IH _ Hl H) as (-> & ->). auto.
Qed.

Lemma written_inj ps qs x y : map fst ps = map fst qs -> Forall in_width ps -> Forall in_width qs ->
  written ps ++ x = written qs ++ y -> ps = qs /\ x = y.
Proof.
  revert qs. induction ps as [|[n v] ps IH]; intros [|[n' v'] qs] Hm Hp Hq H; cbn [map fst] in Hm; try discriminate.
  - split; auto.
  - injection Hm as -> Hm. inversion Hp as [|? ? P1 P2]. inversion Hq as [|? ? Q1 Q2]. subst.
    unfold written in H. cbn [map concat fst snd] in H. rewrite <- !app_assoc in H.
    apply split_app in H; [|now rewrite !length_be]. destruct H as (E & H).
    apply be_inj in E. unfold in_width in P1, Q1. cbn [fst snd] in P1, Q1.
    rewrite !Z.mod_small in E by lia. subst v'. destruct (IH qs Hm P2 Q2 H) as (-> & ->). auto.
Qed.

Lemma kroot_signed_inj h h' f f' d d' m : is_byte h -> is_byte h' ->
  kroot_layout d f -> kroot_layout d' f' -> kroot_signed h f m -> kroot_signed h' f' m ->
  h = h' /\ kroot_params f = kroot_params f' /\ kf_kroot f = kf_kroot f'.
Proof.
  intros Hh Hh' HL HL' (_ & z & Hz & E) (_ & z' & Hz' & E'). rewrite E in E'. clear E.
  rewrite <- !app_assoc in E'.
  apply split_app in E'; [|now rewrite !length_be]. destruct E' as (Eh & E').
  pose proof (kl_width _ _ HL) as W. inversion W as [|? ? _ W1]. inversion W1 as [|? ? _ Wp]. subst.
  pose proof (kl_width _ _ HL') as W'. inversion W' as [|? ? _ W1']. inversion W1' as [|? ? _ Wp']. subst.
  apply written_inj in E'; auto. destruct E' as (Ep & E').
  split.
  { apply be_inj in Eh. unfold is_byte in *. change (2 ^ Z.of_nat 8) with 256 in Eh.
    rewrite !Z.mod_small in Eh by lia. exact Eh. }
  split; auto.
  assert (Hks : kf_ks f = kf_ks f') by (unfold kroot_params in Ep; congruence).
  assert (Hlen : length (kf_kroot f) = length (kf_kroot f')).
  { pose proof (kl_kroot _ _ HL) as A. pose proof (kl_kroot _ _ HL') as A'. rewrite <- Hks in A'.
    unfold key_size_table in A, A'. cbn [In] in A, A'.
    repeat (destruct A as [A|A]; [
      apply pair_equal_spec in A; destruct A as (A1 & A2); rewrite <- A1 in A';
      repeat (destruct A' as [A'|A']; [apply pair_equal_spec in A'; destruct A' as (B1 & B2); first [discriminate B1|lia]|]); contradiction|]).
    contradiction. }
  apply split_app in E'; [|rewrite !length_bits_of_bytes; lia]. destruct E' as (E' & _).
  destruct (kl_bytes _ _ HL) as (B1 & _). destruct (kl_bytes _ _ HL') as (B1' & _).
  now apply bits_of_bytes_inj.
Qed.

Lemma hash_table_fun a b c : In (a, b) hash_table -> In (a, c) hash_table -> b = c.
Proof. unfold hash_table. cbn [In]. intros [E|[E|[]]] [E'|[E'|[]]]; congruence. Qed.
Lemma mac_table_fun a b c : In (a, b) mac_table -> In (a, c) mac_table -> b = c.
Proof. unfold mac_table. cbn [In]. intros [E|[E|[]]] [E'|[E'|[]]]; congruence. Qed.
Lemma tag_table_fun a b c : In (a, b) tag_size_table -> In (a, c) tag_size_table -> b = c.
Proof.
  unfold tag_size_table. cbn [In]. intros [E|[E|[E|[E|[E|[]]]]]] [E'|[E'|[E'|[E'|[E'|[]]]]]]; congruence.
Qed.

Lemma kroot_key_fun f f' k k' : kroot_params f = kroot_params f' -> kf_kroot f = kf_kroot f' ->
  kroot_key f k -> kroot_key f' k' -> gst_ok (k_gst k) -> gst_ok (k_gst k') -> k = k'.
Proof.
  intros Hp Hk [A1 A2 A3 A4 A5 A6 A7 A8 A9 A10] [B1 B2 B3 B4 B5 B6 B7 B8 B9 B10] Hg Hg'.
  unfold kroot_params in Hp. injection Hp as P1 P2 P3 P4 P5 P6 P7 P8 P9 P10 P11.
  destruct k as [kd [ci ch cm ck ct cl ca] kg], k' as [kd' [ci' ch' cm' ck' ct' cl' ca'] kg'].
  cbn [k_data k_chain k_gst ch_id ch_hash ch_mac ch_key_bytes ch_tag_bits ch_maclt ch_alpha] in *.
  rewrite <- P3 in B2. rewrite <- P4 in B3. rewrite <- P6 in B5.
  pose proof (hash_table_fun _ _ _ A2 B2). pose proof (mac_table_fun _ _ _ A3 B3).
  pose proof (tag_table_fun _ _ _ A5 B5).
  assert (kg = kg') by (apply time_of_inj; auto; congruence).
  subst. rewrite <- Hk. congruence.
Qed.

End Crypto.

(** The layout determines the fields. *)
Lemma key_size_len f f' d d' : kroot_layout d f -> kroot_layout d' f' -> kf_ks f = kf_ks f' ->
  length (kf_kroot f) = length (kf_kroot f').
Proof.
  intros HL HL' Hks. pose proof (kl_kroot _ _ HL) as A. pose proof (kl_kroot _ _ HL') as A'. rewrite <- Hks in A'.
  unfold key_size_table in A, A'. cbn [In] in A, A'.
  repeat (destruct A as [A|A]; [
    apply pair_equal_spec in A; destruct A as (A1 & A2); rewrite <- A1 in A';
    repeat (destruct A' as [A'|A']; [apply pair_equal_spec in A'; destruct A' as (B1 & B2); first [discriminate B1|lia]|]); contradiction|]).
  contradiction.
Qed.

Lemma kroot_layout_fun d f f' : kroot_layout d f -> kroot_layout d f' -> f = f'.
Proof.
  intros HL HL'. pose proof (kl_bits _ _ HL) as E. rewrite (kl_bits _ _ HL') in E. symmetry in E.
  apply written_inj in E; [|reflexivity|apply HL|apply HL']. destruct E as (Ep & E).
  assert (Hks : kf_ks f = kf_ks f') by (unfold kroot_params in Ep; congruence).
  pose proof (key_size_len _ _ _ _ HL HL' Hks) as Hk.
  apply split_app in E; [|rewrite !length_bits_of_bytes; lia]. destruct E as (Ek & E).
  pose proof (kl_pad _ _ HL) as (P & _). pose proof (kl_pad _ _ HL') as (P' & _).
  pose proof (kl_sig _ _ HL) as S1. pose proof (kl_sig _ _ HL') as S2.
  pose proof (f_equal (@length bool) E) as El. rewrite !app_length, !length_bits_of_bytes in El.
  apply split_app in E; [|rewrite !length_bits_of_bytes; lia]. destruct E as (Es & E).
  destruct (kl_bytes _ _ HL) as (B1 & B2 & B3). destruct (kl_bytes _ _ HL') as (B1' & B2' & B3').
  apply bits_of_bytes_inj in Ek; auto. apply bits_of_bytes_inj in Es; auto. apply bits_of_bytes_inj in E; auto.
  destruct f, f'. cbn in *. unfold kroot_params in Ep. cbn in Ep.
  injection Ep as -> -> -> -> -> -> -> -> -> -> -> -> ->. now subst.
Qed.

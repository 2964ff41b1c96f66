(** TESLA keys, the one-way function and tags. *)
From Coq Require Import ZArith List Bool Lia ZifyBool ZifyNat.
From Verif Require Import Model.Prelude Model.Params Model.Gst Model.Bitfields Model.Maclt Model.Tesla
  Spec.TimeSpec Spec.TeslaSpec Proofs.Base Proofs.GstProofs Proofs.LayoutProofs Proofs.EntryProofs.
Import ListNotations.
Open Scope Z_scope.
Ltac Zify.zify_post_hook ::= Z.div_mod_to_equations.

(** ** Bit strings *)

Lemma length_be n v : length (be n v) = n.
Proof. revert v. induction n as [|n IH]; intros v; cbn [be]; [reflexivity|]. rewrite app_length, IH. cbn. lia. Qed.

Lemma load_be_be n v : load_be (be n v) = v mod 2 ^ Z.of_nat n.
Proof.
  revert v. induction n as [|n IH]; intros v; cbn [be].
  - change (2 ^ Z.of_nat 0) with 1. now rewrite Z.mod_1_r.
  - rewrite load_be_app, IH. cbn [length]. change (2 ^ Z.of_nat 1) with 2.
    change (load_be [Z.odd v]) with (2 * 0 + Z.b2z (Z.odd v)).
    rewrite Nat2Z.inj_succ, Z.pow_succ_r by lia.
    rewrite (Z.rem_mul_r v 2 (2 ^ Z.of_nat n)) by (try lia; apply Z.pow_pos_nonneg; lia).
    rewrite (Zmod_odd v). destruct (Z.odd v); cbn [Z.b2z]; lia.
Qed.

Lemma store_be_is_be n v : store_be n v = be n v.
Proof.
  apply load_be_inj; [now rewrite length_store_be, length_be|]. now rewrite load_store_be, load_be_be.
Qed.

Lemma be_mod n v : be n (v mod 2 ^ Z.of_nat n) = be n v.
Proof. apply load_be_inj; [now rewrite !length_be|]. rewrite !load_be_be. now rewrite Z.mod_mod by (apply Z.pow_nonzero; lia). Qed.

Lemma be_inj n v w : be n v = be n w -> v mod 2 ^ Z.of_nat n = w mod 2 ^ Z.of_nat n.
Proof. intros H. rewrite <- !load_be_be. congruence. Qed.

Lemma encodes_unique m m' bits : encodes m bits -> encodes m' bits -> m = m'.
Proof.
  intros (H1 & z & Hz & E) (H1' & z' & Hz' & E').
  apply bits_of_bytes_inj; auto. rewrite E, E'. f_equal. f_equal.
  apply (f_equal (@length bool)) in E, E'. rewrite length_bits_of_bytes, app_length, repeat_length in E, E'. lia.
Qed.

Lemma encodes_full m bits : Forall is_byte m -> bits_of_bytes m = bits -> encodes m bits.
Proof. intros H E. split; auto. exists 0%nat. split; [lia|]. cbn [repeat]. now rewrite app_nil_r. Qed.

Lemma time_wn g : gst_ok g -> time_of g / 604800 = g_wn g.
Proof. destruct g as [w t]. unfold gst_ok, time_of. cbn [g_wn g_tow]. lia. Qed.
Lemma time_tow g : gst_ok g -> time_of g mod 604800 = g_tow g.
Proof. destruct g as [w t]. unfold gst_ok, time_of. cbn [g_wn g_tow]. lia. Qed.

Lemma gst_bits_field g : gst_ok g -> gst_bits g = gst_field (time_of g).
Proof. intros H. unfold gst_bits, gst_field. now rewrite !store_be_is_be, time_wn, time_tow. Qed.

Lemma length_gst_bits g : length (gst_bits g) = 32%nat.
Proof. unfold gst_bits. now rewrite app_length, !length_store_be. Qed.

Lemma is_byte_store v : bits_of_byte v = be 8 v.
Proof. rewrite bits_of_byte_store. apply store_be_is_be. Qed.

Lemma bits_of_bytes_cons b l : bits_of_bytes (b :: l) = bits_of_byte b ++ bits_of_bytes l.
Proof. reflexivity. Qed.

(** ** Well-formed chains and keys *)

Record chain_ok (c : chain) : Prop := {
  co_key : In (ch_key_bytes c * 8)%nat announced_key_sizes;
  co_tag : In (ch_tag_bits c) announced_tag_sizes;
  co_id : 0 <= ch_id c < 4;
  co_maclt : 0 <= ch_maclt c < 256;
  co_alpha : 0 <= ch_alpha c < 2 ^ 48
}.

Record key_ok (k : tkey) : Prop := {
  ko_chain : chain_ok (k_chain k);
  ko_data : bytes_ok 32 (k_data k);
  ko_gst : gst_ok (k_gst k);
  ko_sub : is_subframe (k_gst k) = true
}.

Lemma key_bytes_bound c : chain_ok c -> (12 <= ch_key_bytes c <= 32)%nat.
Proof. intros [H _ _ _ _]. unfold announced_key_sizes in H. cbn [In] in H. lia. Qed.

Lemma tag_bits_bound c : chain_ok c -> (20 <= ch_tag_bits c <= 40)%nat.
Proof. intros [_ H _ _ _]. unfold announced_tag_sizes in H. cbn [In] in H. lia. Qed.

Lemma length_key_bytes k : key_ok k -> length (key_bytes k) = ch_key_bytes (k_chain k).
Proof.
  intros [Hc (Hl & _) _ _]. pose proof (key_bytes_bound _ Hc). unfold key_bytes. rewrite firstn_length. lia.
Qed.

Lemma key_bytes_are_bytes k : key_ok k -> Forall is_byte (key_bytes k).
Proof. intros [_ (_ & H) _ _]. unfold key_bytes. rewrite <- sub_0. now apply Forall_sub. Qed.

Lemma bits_at_range d a b v : bits_at d a b = Ok v -> 0 <= v < 2 ^ Z.of_nat (b - a).
Proof.
  intros H. apply bits_at_ok in H. destruct H as (H1 & H2 & ->).
  pose proof (load_be_range (sub a b (bits_of_bytes d))) as R.
  rewrite length_sub in R by (rewrite length_bits_of_bytes; lia). exact R.
Qed.

Lemma chain_from_dsm_kroot_ok d c : chain_from_dsm_kroot d = Ok (Some c) -> chain_ok c.
Proof.
  unfold chain_from_dsm_kroot. intros H.
  bind_inv H. destruct x as [h|]; [|discriminate].
  bind_inv H. destruct x as [m|]; [|discriminate].
  bind_inv H. destruct x as [ks|]; [|discriminate].
  bind_inv H. bind_inv H. destruct x0 as [ts|]; [|discriminate].
  bind_inv H. bind_inv H. bind_inv H. injection H as <-.
  constructor; cbn [ch_key_bytes ch_tag_bits ch_id ch_maclt ch_alpha].
  - match goal with K : kroot_key_size _ = _ |- _ => apply kroot_key_size_in in K; rename K into Hk end.
    unfold announced_key_sizes in *. cbn [In] in *.
    repeat (destruct Hk as [<-|Hk]; [cbn; auto 20|]). contradiction.
  - eapply kroot_tag_size_in; eauto.
  - unfold kroot_chain_id in *. match goal with K : bits_at _ 8 10 = _ |- _ => apply bits_at_range in K; exact K end.
  - unfold kroot_mac_lookup_table in *. match goal with K : bits_at _ 24 32 = _ |- _ => apply bits_at_range in K; exact K end.
  - unfold kroot_alpha in *. match goal with K : bits_at _ 56 104 = _ |- _ => apply bits_at_range in K; exact K end.
Qed.

Lemma chain_eqb_eq a b : chain_eqb a b = true <-> a = b.
Proof.
  destruct a as [i h m kb tb lt al], b as [i' h' m' kb' tb' lt' al']. unfold chain_eqb.
  cbn [ch_id ch_hash ch_mac ch_key_bytes ch_tag_bits ch_maclt ch_alpha]. split.
  - intros H. repeat (apply andb_true_iff in H; destruct H as (H & ?)).
    assert (h = h') by (destruct h, h'; cbn in *; congruence).
    assert (m = m') by (destruct m, m'; cbn in *; congruence).
    assert (i = i') by lia. assert (kb = kb') by lia. assert (tb = tb') by lia.
    assert (lt = lt') by lia. assert (al = al') by lia. now subst.
  - intros H. injection H as -> -> -> -> -> -> ->.
    rewrite !Z.eqb_refl, !Nat.eqb_refl. destruct h', m'; reflexivity.
Qed.

Section Crypto.
Context {C : crypto} {B : build}.
Hypothesis HC : crypto_ok C.

Lemma hash_bytes h m : bytes_ok 32 (chain_hash h m).
Proof. destruct HC as (H1 & H2 & _). destruct h; cbn [chain_hash]; auto. Qed.

Lemma put_zeros_key size h : length h = size -> (size <= 32)%nat -> Forall is_byte h ->
  bytes_ok 32 (put 0 h (repeat 0 max_key_bytes)) /\ firstn size (put 0 h (repeat 0 max_key_bytes)) = h.
Proof.
  intros Hl Hs Hh. split.
  - split; [rewrite length_put; rewrite repeat_length; [reflexivity|cbn; unfold max_key_bytes; lia]|].
    apply Forall_put; auto. apply Forall_forall. intros x Hx. apply repeat_spec in Hx. subst x. unfold is_byte. lia.
  - rewrite <- sub_0. apply sub_put_same; [rewrite repeat_length; unfold max_key_bytes; lia|lia].
Qed.

(** One step back. *)
Lemma one_way_function_spec k : key_ok k -> 30 <= time_of (k_gst k) ->
  exists k', one_way_function k = Ok k' /\ key_ok k' /\ k_chain k' = k_chain k /\
    time_of (k_gst k') = time_of (k_gst k) - 30 /\
    previous_key (k_chain k) (key_bytes k) (time_of (k_gst k)) (key_bytes k').
Proof.
  intros Hk Ht. pose proof Hk as [Hc (Hd1 & Hd2) Hg Hsub].
  pose proof (key_bytes_bound _ Hc) as Hsize.
  unfold one_way_function. rewrite slice_in by lia. cbn [bind].
  destruct (add_seconds_in (k_gst k) (-30)) as (g' & E & Hg' & Htg'); auto; try lia.
  { destruct (k_gst k) as [w t]. unfold representable, gst_ok, time_of in *. cbn [g_wn g_tow] in *. lia. }
  rewrite E. cbn [bind].
  set (msg := sub 0 (ch_key_bytes (k_chain k)) (k_data k) ++ _).
  pose proof (hash_bytes (ch_hash (k_chain k)) msg) as (Hh1 & Hh2).
  rewrite slice_in by lia. cbn [bind].
  set (h := sub 0 (ch_key_bytes (k_chain k)) (chain_hash (ch_hash (k_chain k)) msg)).
  assert (Hlh : length h = ch_key_bytes (k_chain k)) by (unfold h; rewrite length_sub by lia; lia).
  assert (Hbh : Forall is_byte h) by (now apply Forall_sub).
  rewrite copy_from_in by (rewrite ?repeat_length; unfold max_key_bytes; lia). cbn [bind].
  eexists. split; [reflexivity|].
  destruct (put_zeros_key (ch_key_bytes (k_chain k)) h Hlh) as (P1 & P2); auto; [lia|].
  cbn [k_chain k_gst k_data]. repeat match goal with |- _ /\ _ => split end; auto.
  - constructor; cbn [k_chain k_gst k_data]; auto.
    apply is_subframe_start. apply is_subframe_start in Hsub. destruct Hsub as (n & Hn).
    exists (n - 1). lia.
  - exists msg. split.
    + apply encodes_full.
      * unfold msg. rewrite !Forall_app. repeat split.
        -- now apply Forall_sub.
        -- apply (bytes_of_bits_are_bytes 4). apply length_gst_bits.
        -- apply (bytes_of_bits_are_bytes 6). unfold alpha_bytes. apply length_store_be.
      * unfold msg. rewrite !bits_of_bytes_app, sub_0. f_equal. f_equal.
        -- rewrite (bits_of_bytes_bits 4) by apply length_gst_bits. rewrite gst_bits_field by auto.
           f_equal. lia.
        -- unfold alpha_bytes. rewrite (bits_of_bytes_bits 6) by apply length_store_be. apply store_be_is_be.
    + unfold key_bytes. cbn [k_chain k_data]. rewrite P2. unfold h. now rewrite sub_0.
Qed.

Lemma previous_key_fun c key t k1 k2 : previous_key c key t k1 -> previous_key c key t k2 -> k1 = k2.
Proof.
  intros (m1 & E1 & ->) (m2 & E2 & ->). now rewrite (encodes_unique _ _ _ E1 E2).
Qed.

Lemma key_before_fun c n key t k1 k2 : key_before c n key t k1 -> key_before c n key t k2 -> k1 = k2.
Proof.
  revert key t. induction n as [|n IH]; cbn [key_before]; intros key t; [congruence|].
  intros (a & Ha & Ha') (b & Hb & Hb'). rewrite <- (previous_key_fun _ _ _ _ _ Ha Hb) in Hb'. eauto.
Qed.

Lemma key_before_app c m n key t k0 :
  key_before c (n + m) key t k0 <->
  exists k1, key_before c n key t k1 /\ key_before c m k1 (t - 30 * Z.of_nat n) k0.
Proof.
  revert key t. induction n as [|n IH]; intros key t; cbn [Nat.add key_before].
  - replace (t - 30 * Z.of_nat 0) with t by lia. split; [eauto|]. intros (k1 & -> & H). auto.
  - replace (t - 30 * Z.of_nat (Datatypes.S n)) with (t - 30 - 30 * Z.of_nat n) by lia. split.
    + intros (k' & Hp & H). apply IH in H. destruct H as (k1 & H1 & H2). eauto.
    + intros (k1 & (k' & Hp & H) & H2). exists k'. split; auto. apply IH. eauto.
Qed.

(** [n] steps back. *)
Lemma derive_spec n : forall k, key_ok k -> 30 * Z.of_nat n <= time_of (k_gst k) ->
  exists k', derive k n = Ok k' /\ key_ok k' /\ k_chain k' = k_chain k /\
    time_of (k_gst k') = time_of (k_gst k) - 30 * Z.of_nat n /\
    key_before (k_chain k) n (key_bytes k) (time_of (k_gst k)) (key_bytes k').
Proof.
  induction n as [|n IH]; intros k Hk Ht.
  - exists k. cbn [derive key_before]. repeat split; auto; lia || apply Hk.
  - destruct (one_way_function_spec k Hk) as (k1 & E1 & Hk1 & Hc1 & Ht1 & Hp1); [lia|].
    destruct (IH k1 Hk1) as (k2 & E2 & Hk2 & Hc2 & Ht2 & Hp2); [lia|].
    exists k2. cbn [derive]. rewrite E1. cbn [bind]. rewrite E2.
    rewrite Hc1 in *. rewrite Ht1 in *.
    repeat match goal with |- _ /\ _ => split end; auto; try lia.
    cbn [key_before]. eauto.
Qed.

Lemma derive_app m n k : derive k (n + m) = (k' <- derive k n ;; derive k' m).
Proof.
  revert k. induction n as [|n IH]; intros k; [reflexivity|]. cbn [Nat.add derive].
  destruct (one_way_function k) as [k1|]; cbn [bind]; auto.
Qed.

(** Exact behaviour of [validate_key]. *)
Lemma validate_key_exact self other : key_ok self -> key_ok other ->
  exists r, validate_key self other = Ok r /\
  (match r with ROk k => k = other | RErr _ => True end) /\
  ((exists k, r = ROk k) <->
   k_chain other = k_chain self /\
   exists n, (1 <= n <= 3000)%nat /\ time_of (k_gst other) = time_of (k_gst self) + 30 * Z.of_nat n /\
     key_before (k_chain self) n (key_bytes other) (time_of (k_gst other)) (key_bytes self)).
Proof.
  intros Hs Ho. pose proof Hs as [Hsc (Hsd & _) Hsg Hss]. pose proof Ho as [Hoc (Hod & _) Hog Hos].
  unfold validate_key.
  destruct (chain_eqb (k_chain self) (k_chain other)) eqn:Ec; cbn [negb].
  2:{ eexists. split; [reflexivity|]. split; [exact I|]. split; [intros (k & K); discriminate|].
      intros (K & _). rewrite K in Ec. rewrite (proj2 (chain_eqb_eq _ _) eq_refl) in Ec. discriminate. }
  apply chain_eqb_eq in Ec.
  pose proof (gst_ltb_time _ _ Hsg Hog) as Hlt.
  pose proof (subframes_difference_exact _ _ Hog Hsg Hos Hss) as Hd.
  set (dd := subframes_difference (k_gst other) (k_gst self)) in *.
  assert (Hself0 : 0 <= time_of (k_gst self)).
  { destruct (k_gst self) as [w t]. unfold gst_ok, time_of in *. cbn [g_wn g_tow] in *. lia. }
  destruct (gst_ltb (k_gst self) (k_gst other)) eqn:El; cbn [negb].
  2:{ eexists. split; [reflexivity|]. split; [exact I|]. split; [intros (k & K); discriminate|].
      intros (_ & n & Hn & Ht & _). exfalso.
      assert (false = true) by (apply Hlt; lia). discriminate. }
  assert (Hlt' : time_of (k_gst self) < time_of (k_gst other)) by now apply Hlt.
  unfold assert_. replace (1 <=? dd) with true by lia. cbn [bind].
  destruct (3000 <? dd) eqn:E3.
  { eexists. split; [reflexivity|]. split; [exact I|]. split; [intros (k & K); discriminate|].
    intros (_ & n & Hn & Ht & _). lia. }
  destruct (derive_spec (Z.to_nat dd) other Ho) as (k' & Ek & Hk' & Hkc & Hkt & Hkb); [lia|].
  rewrite Ek. cbn [bind]. pose proof Hk' as [_ (Hkd & _) Hkg _].
  assert (Eg : k_gst k' = k_gst self) by (apply time_of_inj; auto; lia).
  rewrite Eg, gst_eqb_refl. cbn [bind].
  pose proof (key_bytes_bound _ Hsc) as Hsize.
  rewrite !slice_in by lia. cbn [bind]. rewrite !sub_0.
  assert (Eb1 : firstn (ch_key_bytes (k_chain self)) (k_data k') = key_bytes k')
    by (unfold key_bytes; now rewrite Hkc, Ec).
  fold (key_bytes self). rewrite Eb1.
  assert (Hiff : key_bytes k' = key_bytes self <->
    exists n, (1 <= n <= 3000)%nat /\ time_of (k_gst other) = time_of (k_gst self) + 30 * Z.of_nat n /\
     key_before (k_chain self) n (key_bytes other) (time_of (k_gst other)) (key_bytes self)).
  { rewrite Ec. split.
    - intros E. exists (Z.to_nat dd). rewrite <- E. repeat split; auto; lia.
    - intros (n & Hn & Ht & Hkb'). replace n with (Z.to_nat dd) in Hkb' by lia.
      eapply key_before_fun; eauto. }
  destruct (bytes_eqb (key_bytes k') (key_bytes self)) eqn:Eb.
  - apply bytes_eqb_eq in Eb. eexists. split; [reflexivity|]. split; [reflexivity|].
    split; [intros _; split; [auto|now apply Hiff]|eauto].
  - eexists. split; [reflexivity|]. split; [exact I|]. split; [intros (k & K); discriminate|].
    intros (_ & Hx). apply Hiff in Hx. rewrite Hx, bytes_eqb_refl in Eb. discriminate.
Qed.

(** Keys made by the public constructors are well formed. *)
Lemma key_from_slice_ok s g c : chain_ok c -> gst_ok g -> is_subframe g = true ->
  length s = ch_key_bytes c -> Forall is_byte s ->
  exists k, key_from_slice s g c = Ok k /\ key_ok k /\ k_chain k = c /\ k_gst k = g /\ key_bytes k = s.
Proof.
  intros Hc Hg Hs Hl Hb. pose proof (key_bytes_bound _ Hc) as Hsize.
  unfold key_from_slice, assert_. rewrite Hs. cbn [bind].
  rewrite copy_from_in by (rewrite ?repeat_length; unfold max_key_bytes; lia). cbn [bind].
  destruct (put_zeros_key (ch_key_bytes c) s Hl) as (P1 & P2); auto; [lia|].
  eexists. split; [reflexivity|]. cbn [k_chain k_gst].
  repeat match goal with |- _ /\ _ => split end; auto. constructor; auto.
Qed.

Lemma key_from_bitslice_ok s g c : chain_ok c -> gst_ok g -> is_subframe g = true ->
  length s = (ch_key_bytes c * 8)%nat ->
  exists k, key_from_bitslice s g c = Ok k /\ key_ok k /\ k_chain k = c /\ k_gst k = g /\
            bits_of_bytes (key_bytes k) = s.
Proof.
  intros Hc Hg Hs Hl. pose proof (key_bytes_bound _ Hc) as Hsize.
  unfold key_from_bitslice, assert_. rewrite Hs. cbn [bind].
  rewrite copy_from_in by (rewrite ?bits_of_bytes_repeat0, ?repeat_length; unfold max_key_bytes; lia).
  cbn [bind]. eexists. split; [reflexivity|].
  set (d := put 0 s (bits_of_bytes (repeat 0 max_key_bytes))).
  assert (Hd : length d = (8 * 32)%nat).
  { unfold d. rewrite length_put; rewrite bits_of_bytes_repeat0, repeat_length; unfold max_key_bytes; lia. }
  cbn [k_chain k_gst]. repeat match goal with |- _ /\ _ => split end; auto.
  - constructor; cbn [k_chain k_gst k_data]; auto. split.
    + now apply length_bytes_of_bits.
    + now apply (bytes_of_bits_are_bytes 32).
  - unfold key_bytes. cbn [k_chain k_data]. rewrite bits_of_bytes_firstn.
    rewrite (bits_of_bytes_bits 32) by auto. rewrite <- sub_0. unfold d.
    apply sub_put_same; [rewrite bits_of_bytes_repeat0, repeat_length; unfold max_key_bytes; lia|lia].
Qed.

(** ** Tags *)

Lemma mac_message_spec g prna ctr s navdata : gst_ok g -> is_byte prna -> is_byte ctr ->
  (length navdata <= 550)%nat ->
  exists m, mac_message g prna ctr s navdata = Ok m /\
    encodes m (tag_bits None prna (time_of g) ctr s navdata).
Proof.
  intros Hg Hp Hct Hl. unfold mac_message, status_and_navdata, max_navdata_size.
  rewrite bits_of_bytes_repeat0.
  rewrite copy_from_in by (rewrite ?repeat_length, ?length_store_be; lia). cbn [bind].
  set (st := store_be 2 (nma_status_code s)).
  set (rest0 := put 0 st (repeat false (8 * 69))).
  assert (Hst : length st = 2%nat) by apply length_store_be.
  assert (Hr0 : length rest0 = (8 * 69)%nat)
    by (unfold rest0; rewrite length_put; rewrite repeat_length; lia).
  rewrite copy_from_in by (rewrite ?Hr0; lia). cbn [bind].
  set (rest := put 2 navdata rest0).
  assert (Hr : length rest = (8 * 69)%nat) by (unfold rest; rewrite length_put; lia).
  assert (Hhdr : length (tag_header g prna ctr) = 6%nat).
  { unfold tag_header. cbn [length]. rewrite app_length.
    rewrite (length_bytes_of_bits 4) by apply length_gst_bits. reflexivity. }
  set (nb := div_ceil8 (2 + length navdata)).
  assert (Hnb : (8 * nb < 2 + length navdata + 8)%nat /\ (2 + length navdata <= 8 * nb)%nat).
  { unfold nb, div_ceil8. pose proof (Nat.div_mod (2 + length navdata + 7) 8 ltac:(lia)).
    pose proof (Nat.mod_upper_bound (2 + length navdata + 7) 8 ltac:(lia)). lia. }
  assert (Hlen : length (bytes_of_bits rest) = 69%nat) by now apply length_bytes_of_bits.
  assert (Hbytes : Forall is_byte (tag_header g prna ctr ++ bytes_of_bits rest)).
  { apply Forall_app. split.
    - unfold tag_header. constructor; auto. apply Forall_app. split.
      + apply (bytes_of_bits_are_bytes 4), length_gst_bits.
      + constructor; auto.
    - now apply (bytes_of_bits_are_bytes 69). }
  rewrite slice_in by (rewrite ?app_length, ?Hhdr, ?Hlen; lia).
  eexists. split; [reflexivity|]. split; [now apply Forall_sub|].
  exists (8 * nb - (2 + length navdata))%nat. split; [lia|].
  rewrite sub_0, bits_of_bytes_firstn, bits_of_bytes_app, (bits_of_bytes_bits 69) by auto.
  rewrite firstn_app, length_bits_of_bytes, Hhdr.
  replace (8 * (6 + nb) - 8 * 6)%nat with (8 * nb)%nat by lia.
  rewrite (firstn_all2 (n := (8 * (6 + nb))%nat)) by (rewrite length_bits_of_bytes, Hhdr; lia).
  assert (Eh : bits_of_bytes (tag_header g prna ctr) = be 8 prna ++ gst_field (time_of g) ++ be 8 ctr).
  { unfold tag_header. rewrite bits_of_bytes_cons, bits_of_bytes_app, is_byte_store.
    rewrite (bits_of_bytes_bits 4) by apply length_gst_bits. rewrite gst_bits_field by auto.
    rewrite bits_of_bytes_cons. change (bits_of_bytes []) with (@nil bool). now rewrite app_nil_r, is_byte_store. }
  rewrite Eh. unfold tag_bits. cbn [app]. rewrite <- !app_assoc. do 3 f_equal.
  assert (Ests : st = be 2 (nmas_code s)) by (unfold st; rewrite store_be_is_be; destruct s; reflexivity).
  rewrite <- Ests.
  (* the rest of the buffer *)
  apply nth_error_ext. intros i. rewrite nth_error_firstn.
  unfold rest. rewrite nth_error_put by lia. unfold rest0.
  rewrite nth_error_put by (rewrite repeat_length; lia).
  rewrite Hst. rewrite Nat.sub_0_r. change (0 <=? i)%nat with true. cbn [andb]. change (0 + 2)%nat with 2%nat.
  destruct (i <? 8 * nb)%nat eqn:Ei.
  - destruct (Nat.lt_ge_cases i 2) as [H2|H2].
    + rewrite nth_error_app1 by lia.
      replace ((2 <=? i) && (i <? 2 + length navdata))%nat with false by lia.
      replace (i <? 2)%nat with true by lia. reflexivity.
    + rewrite (nth_error_app2 st) by lia. rewrite Hst.
      destruct (Nat.lt_ge_cases i (2 + length navdata)) as [H3|H3].
      * replace ((2 <=? i) && (i <? 2 + length navdata))%nat with true by lia.
        rewrite nth_error_app1 by lia. reflexivity.
      * replace ((2 <=? i) && (i <? 2 + length navdata))%nat with false by lia.
        replace (i <? 2)%nat with false by lia.
        rewrite nth_error_app2 by lia. rewrite !nth_error_repeat by lia. reflexivity.
  - symmetry. apply nth_error_None. rewrite !app_length, repeat_length. lia.
Qed.

Lemma check_common_spec k message tag : (length tag <= 128)%nat ->
  exists r, check_common k message tag = Ok r /\
    (r = true <-> tag = firstn (length tag) (bits_of_bytes (mac_of_fn (ch_mac (k_chain k)) (key_bytes k) message))).
Proof.
  intros Hl. unfold check_common. destruct HC as (_ & _ & H3 & H4).
  set (mac := mac_of_fn (ch_mac (k_chain k)) (key_bytes k) message).
  assert (Hlm : (16 <= length mac)%nat).
  { unfold mac, mac_of_fn. destruct (ch_mac (k_chain k)); [rewrite (proj1 (H3 _ _))|rewrite (proj1 (H4 _ _))]; lia. }
  assert (Hf : sub 0 (length tag) (bits_of_bytes (chain_mac (ch_mac (k_chain k)) (key_bytes k) message))
               = firstn (length tag) (bits_of_bytes mac)).
  { rewrite sub_0. unfold mac, mac_of_fn, chain_mac. destruct (ch_mac (k_chain k)); [reflexivity|].
    rewrite bits_of_bytes_app, firstn_app, length_bits_of_bytes, (proj1 (H4 _ _)).
    replace (length tag - 8 * 16)%nat with 0%nat by lia. now rewrite firstn_O, app_nil_r. }
  rewrite slice_in.
  - cbn [bind]. eexists. split; [reflexivity|]. rewrite Hf. rewrite bits_eqb_eq. split; congruence.
  - lia.
  - rewrite length_bits_of_bytes. unfold chain_mac, mac, mac_of_fn in *.
    destruct (ch_mac (k_chain k)); rewrite ?app_length; lia.
Qed.

Definition mac_usable (k : tkey) : Prop := ch_mac (k_chain k) = MacCmacAes -> ch_key_bytes (k_chain k) = 16%nat.

Lemma mac_digest_ok_iff k u : key_ok k -> (mac_digest_ok k = Ok u <-> mac_usable k).
Proof.
  intros Hk. unfold mac_digest_ok, mac_usable. rewrite length_key_bytes by auto. destruct u.
  destruct (ch_mac (k_chain k)); [split; [discriminate|reflexivity]|].
  rewrite assert_ok. rewrite Nat.eqb_eq. split; auto.
Qed.

Lemma encodes_cons b m bits : is_byte b -> encodes m bits -> encodes (b :: m) (be 8 b ++ bits).
Proof.
  intros Hb (H & z & Hz & E). split; [constructor; auto|]. exists z. split; auto.
  rewrite bits_of_bytes_cons, is_byte_store, E. now rewrite app_assoc.
Qed.

Lemma tag_of_iff f key bits tag m : encodes m bits ->
  (tag = firstn (length tag) (bits_of_bytes (mac_of_fn f key m)) <-> tag_of f key bits tag).
Proof.
  intros Hm. split; [intros H; exists m; auto|]. intros (m' & Hm' & H). now rewrite (encodes_unique _ _ _ Hm Hm').
Qed.

Lemma validate_tag_spec k tag g prnd prna ctr s navdata : key_ok k -> mac_usable k -> gst_ok g ->
  is_byte prnd -> is_byte prna -> is_byte ctr -> (length navdata <= 550)%nat -> (length tag <= 128)%nat ->
  exists r, validate_tag k tag g prnd prna ctr s navdata = Ok r /\
    (r = true <-> tag_of (ch_mac (k_chain k)) (key_bytes k)
                         (tag_bits (Some prnd) prna (time_of g) ctr s navdata) tag).
Proof.
  intros Hk Hu Hg H1 H2 H3 Hn Ht. unfold validate_tag.
  rewrite (proj2 (mac_digest_ok_iff k tt Hk) Hu). cbn [bind].
  destruct (mac_message_spec g prna ctr s navdata) as (m & -> & Hm); auto. cbn [bind].
  destruct (check_common_spec k (prnd :: m) tag Ht) as (r & -> & Hr). exists r. split; [reflexivity|].
  rewrite Hr. apply tag_of_iff. apply (encodes_cons prnd) in Hm; auto.
Qed.

Lemma validate_tag0_spec k tag g prna s navdata : key_ok k -> mac_usable k -> gst_ok g ->
  is_byte prna -> (length navdata <= 550)%nat -> (length tag <= 128)%nat ->
  exists r, validate_tag0 k tag g prna s navdata = Ok r /\
    (r = true <-> tag_of (ch_mac (k_chain k)) (key_bytes k)
                         (tag_bits None prna (time_of g) 1 s navdata) tag).
Proof.
  intros Hk Hu Hg H2 Hn Ht. unfold validate_tag0.
  rewrite (proj2 (mac_digest_ok_iff k tt Hk) Hu). cbn [bind].
  destruct (mac_message_spec g prna 1 s navdata) as (m & -> & Hm); auto; [unfold is_byte; lia|]. cbn [bind].
  destruct (check_common_spec k m tag Ht) as (r & -> & Hr). exists r. split; [reflexivity|].
  rewrite Hr. now apply tag_of_iff.
Qed.

(** A dummy tag is a tag over zeros. *)
Lemma mac_message_dummy_eq g prna ctr s n : (n <= 550)%nat ->
  mac_message_dummy g prna ctr s n = mac_message g prna ctr s (repeat false n).
Proof.
  intros Hn. unfold mac_message_dummy, mac_message, status_and_navdata. rewrite repeat_length.
  rewrite bits_of_bytes_repeat0. unfold max_navdata_size.
  rewrite copy_from_in by (rewrite ?repeat_length, ?length_store_be; lia). cbn [bind].
  set (st := store_be 2 (nma_status_code s)). assert (Hst : length st = 2%nat) by apply length_store_be.
  set (r0 := put 0 st (repeat false (8 * 69))).
  assert (Hr0 : length r0 = (8 * 69)%nat) by (unfold r0; rewrite length_put; rewrite repeat_length; lia).
  rewrite copy_from_in by (rewrite ?repeat_length; lia). cbn [bind].
  assert (E : put 2 (repeat false n) r0 = r0).
  { apply nth_error_ext. intros i. rewrite nth_error_put by (rewrite repeat_length; lia).
    rewrite repeat_length. destruct ((2 <=? i) && (i <? 2 + n))%nat eqn:Ei; [|reflexivity].
    unfold r0. rewrite nth_error_put by (rewrite repeat_length; lia). rewrite Hst.
    replace ((0 <=? i) && (i <? 0 + 2))%nat with false by lia. rewrite !nth_error_repeat by lia. reflexivity. }
  now rewrite E.
Qed.

Lemma validate_tag_dummy_eq k tag g prnd prna ctr s n : (n <= 550)%nat ->
  validate_tag_dummy k tag g prnd prna ctr s n = validate_tag k tag g prnd prna ctr s (repeat false n).
Proof. intros H. unfold validate_tag_dummy, validate_tag. now rewrite mac_message_dummy_eq by auto. Qed.

Lemma validate_tag0_dummy_eq k tag g prna s n : (n <= 550)%nat ->
  validate_tag0_dummy k tag g prna s n = validate_tag0 k tag g prna s (repeat false n).
Proof. intros H. unfold validate_tag0_dummy, validate_tag0. now rewrite mac_message_dummy_eq by auto. Qed.

End Crypto.

(** ** Injectivity of the encoding of tags *)

Lemma encodes_inj m bits bits' : encodes m bits -> encodes m bits' ->
  length bits = length bits' -> bits = bits'.
Proof.
  intros (_ & z & Hz & E) (_ & z' & Hz' & E') Hl. rewrite E in E'.
  apply (f_equal (firstn (length bits))) in E'.
  rewrite !firstn_app, Hl, !Nat.sub_diag, !firstn_O, !app_nil_r in E'.
  rewrite <- Hl in E' at 1. rewrite !firstn_all in E'. exact E'.
Qed.

Lemma length_tag_bits w prna t ctr s n :
  length (tag_bits w prna t ctr s n) =
  ((match w with Some _ => 8 | None => 0 end) + 50 + length n)%nat.
Proof.
  unfold tag_bits, gst_field. rewrite !app_length, !length_be. destruct w; rewrite ?length_be; cbn [length]; lia.
Qed.

Lemma encodes_length m bits : encodes m bits -> length m = ((length bits + 7) / 8)%nat.
Proof.
  intros (_ & z & Hz & E). apply (f_equal (@length bool)) in E.
  rewrite length_bits_of_bytes, app_length, repeat_length in E.
  apply Nat.div_unique with (7 - z)%nat; lia.
Qed.

Lemma tag_bits_inj m w w' prna prna' t t' ctr ctr' s s' n n' :
  encodes m (tag_bits w prna t ctr s n) -> encodes m (tag_bits w' prna' t' ctr' s' n') ->
  (length n = 549 \/ (length n = 141 /\ w <> None))%nat ->
  (length n' = 549 \/ (length n' = 141 /\ w' <> None))%nat ->
  (forall x, w = Some x -> is_byte x) -> (forall x, w' = Some x -> is_byte x) ->
  is_byte prna -> is_byte prna' -> is_byte ctr -> is_byte ctr' ->
  w = w' /\ prna = prna' /\ t / 604800 mod 4096 = t' / 604800 mod 4096 /\
  t mod 604800 = t' mod 604800 /\ ctr = ctr' /\ s = s' /\ n = n'.
Proof.
  intros E E' Hn Hn' Hw Hw' Hp Hp' Hc Hc'.
  pose proof (encodes_length _ _ E) as L. pose proof (encodes_length _ _ E') as L'.
  rewrite length_tag_bits in L, L'.
  assert (Hll : length n = length n' /\ (w = None <-> w' = None)).
  { clear - L L' Hn Hn'. rewrite L in L'. clear L.
    destruct w, w'; destruct Hn as [Hn|(Hn & Hx)], Hn' as [Hn'|(Hn' & Hx')]; rewrite Hn, Hn' in *;
      try congruence; try (vm_compute in L'; discriminate L'); split; try reflexivity; split; congruence. }
  destruct Hll as (Hl & Hww).
  assert (Eb : tag_bits w prna t ctr s n = tag_bits w' prna' t' ctr' s' n').
  { apply (encodes_inj m); auto. rewrite !length_tag_bits, Hl.
    destruct w, w'; try reflexivity; [destruct Hww as (_ & Hww)|destruct Hww as (Hww & _)]; discriminate Hww; reflexivity. }
  unfold tag_bits, gst_field in Eb.
  assert (Hsplit : forall (a b c d : list bool), length a = length b -> a ++ c = b ++ d -> a = b /\ c = d).
  { clear. induction a as [|x a IH]; intros [|y b] c d Hlen HH; cbn in *; try discriminate; auto.
    injection HH as -> HH. injection Hlen as Hlen. destruct (IH _ _ _ Hlen HH) as (-> & ->). auto. }
  assert (Hbyte : forall x y, is_byte x -> is_byte y -> be 8 x = be 8 y -> x = y).
  { intros x y Hx Hy Exy. apply be_inj in Exy. unfold is_byte in *. change (2 ^ Z.of_nat 8) with 256 in Exy.
    rewrite !Z.mod_small in Exy by lia. exact Exy. }
  assert (Ew : w = w' /\ be 8 prna ++ (be 12 (t / 604800) ++ be 20 (t mod 604800)) ++ be 8 ctr ++ be 2 (nmas_code s) ++ n
             = be 8 prna' ++ (be 12 (t' / 604800) ++ be 20 (t' mod 604800)) ++ be 8 ctr' ++ be 2 (nmas_code s') ++ n').
  { destruct w as [x|], w' as [x'|].
    - apply Hsplit in Eb; [|now rewrite !length_be]. destruct Eb as (Ex & Eb). split; auto. f_equal. auto.
    - destruct Hww as (_ & Hww). discriminate Hww; reflexivity.
    - destruct Hww as (Hww & _). discriminate Hww; reflexivity.
    - auto. }
  destruct Ew as (Ew & E1). split; auto.
  apply Hsplit in E1; [|now rewrite !length_be]. destruct E1 as (Ep & E1). split; auto.
  rewrite <- !app_assoc in E1.
  apply Hsplit in E1; [|now rewrite !length_be]. destruct E1 as (Et1 & E1).
  apply Hsplit in E1; [|now rewrite !length_be]. destruct E1 as (Et2 & E1).
  apply Hsplit in E1; [|now rewrite !length_be]. destruct E1 as (Ec & E1).
  apply Hsplit in E1; [|now rewrite !length_be]. destruct E1 as (Es & E1).
  apply be_inj in Et1, Et2, Es. change (2 ^ Z.of_nat 12) with 4096 in Et1.
  change (2 ^ Z.of_nat 20) with 1048576 in Et2.
  split; [exact Et1|]. split.
  { rewrite !(Z.mod_small _ 1048576) in Et2 by lia. exact Et2. }
  split; [auto|]. split; auto. destruct s, s'; try reflexivity; vm_compute in Es; discriminate Es.
Qed.

(** One entry of the navigation data storage. *)
From Coq Require Import ZArith List Bool Lia ZifyBool ZifyNat.
From Verif Require Import Model.Prelude Model.Params Model.Gst Model.Svn Model.Nav
  Spec.NavSpec Proofs.Base.
Import ListNotations.
Open Scope Z_scope.

(** ** Bits of words *)

Lemma nth_error_bits_of_bytes l n : (n < 8 * length l)%nat ->
  nth_error (bits_of_bytes l) n = Some (Z.testbit (nth (n / 8) l 0) (Z.of_nat (7 - n mod 8))).
Proof.
  revert n. induction l as [|b l IH]; intros n Hn; [cbn in Hn; lia|].
  cbn [length] in Hn. unfold bits_of_bytes in *. cbn [flat_map].
  destruct (Nat.lt_ge_cases n 8) as [H|H].
  - rewrite nth_error_app1 by (rewrite length_bits_of_byte; lia).
    rewrite Nat.div_small, Nat.mod_small by lia. cbn [nth].
    do 8 (destruct n as [|n]; [reflexivity|]). lia.
  - rewrite nth_error_app2 by (rewrite length_bits_of_byte; lia). rewrite length_bits_of_byte.
    rewrite IH by lia. set (m := (n - 8)%nat). assert (En : n = (m + 1 * 8)%nat) by lia.
    clearbody m. subst n.
    rewrite Nat.div_add, Nat.mod_add by lia. rewrite Nat.add_1_r. reflexivity.
Qed.

Lemma nw_bits_sub w a b : (b <= 8 * length (nw_data w))%nat ->
  nw_bits w a b = sub a b (bits_of_bytes (nw_data w)).
Proof.
  intros Hb. apply nth_error_ext. intros i. rewrite nth_error_sub. unfold nw_bits.
  rewrite nth_error_map. destruct (i <? b - a)%nat eqn:E.
  - assert (Hi : (i < b - a)%nat) by lia.
    rewrite (nth_error_nth' _ 0%nat) by (rewrite seq_length; lia). rewrite seq_nth by lia.
    cbn [option_map]. rewrite nth_error_bits_of_bytes by lia. reflexivity.
  - rewrite (proj2 (nth_error_None _ _)) by (rewrite seq_length; lia). reflexivity.
Qed.

Lemma length_nw_bits w a b : length (nw_bits w a b) = (b - a)%nat.
Proof. unfold nw_bits. now rewrite map_length, seq_length. Qed.

Lemma word_type_spec l : l <> [] -> Forall is_byte l ->
  word_type (bits_of_bytes l) = nth 0 l 0 / 4.
Proof.
  destruct l as [|b l]; [congruence|]. intros _ H. inversion H as [|? ? Hb _]; subst.
  unfold word_type, bits_of_bytes. cbn [flat_map nth].
  rewrite sub_0, firstn_app, length_bits_of_byte. change (6 - 8)%nat with 0%nat.
  rewrite firstn_O, app_nil_r.
  pose proof (load_bits_of_byte b Hb) as E.
  rewrite <- (firstn_skipn 6 (bits_of_byte b)) in E. rewrite load_be_app in E.
  pose proof (load_be_range (skipn 6 (bits_of_byte b))) as R.
  change (length (skipn 6 (bits_of_byte b))) with 2%nat in *.
  change (2 ^ Z.of_nat 2) with 4 in *.
  set (x := load_be (skipn 6 (bits_of_byte b))) in *.
  set (y := load_be (firstn 6 (bits_of_byte b))) in *.
  change (load_be (firstn 6 (bits_of_byte b))) with y.
  apply Z.div_unique with x; [lia|]. lia.
Qed.

(** ** Fields *)

(** Case analysis on [nth_error l i = Some x] for a literal list. *)
Ltac nth_cases i H :=
  repeat (destruct i as [|i]; cbn [icd_fields nth_error] in H;
          [first [discriminate H | injection H as <-]|try discriminate H]).

Definition offs (k : nav_kind) : list nat :=
  match k with Ced => [0; 120; 240; 362; 482; 549]%nat | Timing => [0; 99; 141]%nat end.
Definition foff (k : nav_kind) (i : nat) : nat := nth i (offs k) 0%nat.

(** Field [i] of an entry. *)
Definition efield (k : nav_kind) (i : nat) (e : entry) : list bool :=
  sub (foff k i) (foff k (i + 1)) (e_data e).

Lemma nfields k : length (icd_fields k) = kind_words k.
Proof. destruct k; reflexivity. Qed.

Lemma field_width k i f : nth_error (icd_fields k) i = Some f ->
  (foff k (i + 1) - foff k i = f_to f - f_from f)%nat /\ (foff k i <= foff k (i + 1))%nat /\
  (f_from f <= f_to f)%nat /\ (f_to f <= 128)%nat /\ (foff k (i + 1) <= kind_bits k)%nat /\ (i < kind_words k)%nat.
Proof.
  intros H. destruct k; nth_cases i H; cbn; repeat split; lia.
Qed.

Lemma fields_disjoint k i j : (i < j)%nat -> (j < kind_words k)%nat -> (foff k (i + 1) <= foff k j)%nat.
Proof.
  intros H Hj. destruct k; cbn [kind_words] in Hj;
    do 5 (destruct j as [|j]; [do 5 (destruct i as [|i]; [cbn; lia|]); lia|]); lia.
Qed.

Lemma kind_bits_bytes k : (kind_bits k <= kind_bytes k * 8)%nat.
Proof. destruct k; cbn; lia. Qed.

Lemma skipn_skipn {A} a b (l : list A) : skipn a (skipn b l) = skipn (b + a) l.
Proof. apply nth_error_ext. intros i. rewrite !nth_error_skipn. f_equal. lia. Qed.

Lemma sub_join {A} a b c (l : list A) : (a <= b)%nat -> (b <= c)%nat ->
  sub a c l = sub a b l ++ sub b c l.
Proof.
  intros H1 H2. unfold sub. replace (c - a)%nat with ((b - a) + (c - b))%nat by lia.
  rewrite <- (firstn_skipn (b - a) (skipn a l)) at 1.
  assert (E : skipn (b - a) (skipn a l) = skipn b l)
    by (rewrite skipn_skipn; f_equal; lia).
  rewrite E, firstn_app, firstn_firstn.
  replace (Nat.min (b - a + (c - b)) (b - a)) with (b - a)%nat by lia. f_equal.
  destruct (Nat.le_gt_cases (b - a) (length (skipn a l))) as [H|H].
  - f_equal. rewrite firstn_length. lia.
  - rewrite skipn_length in H. rewrite (skipn_all2 (n := b)) by lia. now rewrite !firstn_nil.
Qed.

Lemma message_bits_fields k e :
  message_bits k e = concat (map (fun i => efield k i e) (seq 0 (kind_words k))).
Proof.
  unfold message_bits. destruct k; cbn [kind_words seq map concat kind_bits]; unfold efield, foff, offs;
    cbn [nth Nat.add].
  - rewrite (sub_join 0 482 549), (sub_join 0 362 482), (sub_join 0 240 362), (sub_join 0 120 240) by lia.
    now rewrite !app_nil_r, <- !app_assoc.
  - rewrite (sub_join 0 99 141) by lia. now rewrite app_nil_r.
Qed.

Lemma message_bits_eq k e e' : length (e_data e) = (kind_bytes k * 8)%nat ->
  length (e_data e') = (kind_bytes k * 8)%nat ->
  (message_bits k e = message_bits k e' <->
   forall i, (i < kind_words k)%nat -> efield k i e = efield k i e').
Proof.
  intros H H'. split.
  - unfold message_bits, efield. intros E i Hi.
    destruct (nth_error (icd_fields k) i) as [f|] eqn:Ef;
      [|apply nth_error_None in Ef; rewrite nfields in Ef; lia].
    destruct (field_width k i f Ef) as (W1 & W2 & W3 & W4 & W5 & W6).
    pose proof (kind_bits_bytes k).
    apply (f_equal (sub (foff k i) (foff k (i + 1)))) in E. rewrite !sub_sub in E by lia. exact E.
  - intros E. rewrite !message_bits_fields. f_equal. apply map_ext_in. intros i Hi.
    apply in_seq in Hi. apply E. lia.
Qed.

(** ** Well-formed entries *)

Record entry_ok (k : nav_kind) (e : entry) : Prop := {
  eo_data : length (e_data e) = (kind_bytes k * 8)%nat;
  eo_age : length (e_age e) = kind_words k;
  eo_ages : Forall (fun a => 0 <= a <= 255) (e_age e);
  eo_auth : 0 <= e_authbits e <= 65535;
  eo_none : e_svn e = None -> e_authbits e = 0;
  eo_svn : forall s, e_svn e = Some s -> 1 <= s <= 36
}.

Lemma entry_new_ok k : entry_ok k (entry_new k).
Proof.
  unfold entry_new. constructor; cbn [e_data e_age e_svn e_authbits]; rewrite ?repeat_length; auto;
    try lia; try discriminate.
  apply Forall_forall. intros a H. apply repeat_spec in H. lia.
Qed.

Lemma age_entry_ok k e : entry_ok k e -> entry_ok k (age_entry e).
Proof.
  intros [H1 H2 H3 H4 H5 H6]. unfold age_entry.
  constructor; cbn [e_data e_age e_svn e_authbits]; rewrite ?map_length; auto.
  rewrite Forall_forall in *. intros a Ha. apply in_map_iff in Ha. destruct Ha as (x & <- & Hx).
  specialize (H3 _ Hx). unfold sat_add_u8. lia.
Qed.

Lemma entry_select_ok k svn e : entry_ok k e -> 1 <= svn <= 36 -> entry_ok k (entry_select_svn svn e).
Proof.
  intros [H1 H2 H3 H4 H5 H6] Hs. unfold entry_select_svn.
  destruct (e_svn e) as [s|] eqn:E; [destruct (s =? svn) eqn:Es|];
    constructor; unfold entry_reset; cbn [e_data e_age e_svn e_authbits]; rewrite ?map_length; auto;
    try discriminate; try lia; try congruence; try (intros ? K; injection K as <-; lia).
  - intros s0 K. rewrite E in K. now apply H6.
  - apply Forall_forall. intros a Ha. apply in_map_iff in Ha. destruct Ha as (x & <- & Hx). lia.
Qed.

(** ** Feeding a word *)

Lemma ced_cases {A} t (a b c d e f : A) :
  match t with 1 => a | 2 => b | 3 => c | 4 => d | 5 => e | _ => f end =
  if t =? 1 then a else if t =? 2 then b else if t =? 3 then c else if t =? 4 then d
  else if t =? 5 then e else f.
Proof.
  destruct t as [|p|p]; try reflexivity; do 4 (try destruct p as [p|p|]; try reflexivity).
Qed.

Lemma timing_cases {A} t bb (a b f : A) :
  match t, bb with 6, E1B => a | 10, E1B => b | _, _ => f end =
  if (t =? 6) && match bb with E1B => true | E5B => false end then a
  else if (t =? 10) && match bb with E1B => true | E5B => false end then b else f.
Proof.
  destruct t as [|p|p]; destruct bb; try reflexivity;
    do 5 (try destruct p as [p|p|]; try reflexivity).
Qed.

(** The word as seen by the specification. *)
Definition the_word (word : list Z) (svn : Z) (b : band) : nword := mkNWord word svn (mkGst 0 0) b.

Lemma carries_unique k i j f f' w :
  nth_error (icd_fields k) i = Some f -> nth_error (icd_fields k) j = Some f' ->
  carries k f w = true -> carries k f' w = true -> i = j.
Proof.
  unfold carries. intros Hi Hj C1 C2.
  assert (E : f_type f = f_type f') by lia. clear C1 C2.
  destruct k; nth_cases i Hi; nth_cases j Hj; cbn in E; try reflexivity; discriminate E.
Qed.

Lemma copy_word_spec k i f source e : entry_ok k e ->
  nth_error (icd_fields k) i = Some f -> length source = (f_to f - f_from f)%nat ->
  let e' := copy_word (foff k i) (foff k (i + 1)) source i e in
  entry_ok k e' /\ e_svn e' = e_svn e /\
  efield k i e' = source /\ nth_error (e_age e') i = Some 0 /\
  (forall j, (j < kind_words k)%nat -> j <> i ->
     efield k j e' = efield k j e /\ nth_error (e_age e') j = nth_error (e_age e) j) /\
  (message_bits k e' = message_bits k e -> e_authbits e' = e_authbits e) /\
  (message_bits k e' <> message_bits k e -> e_authbits e' = 0).
Proof.
  intros He Hf Hs. pose proof He as [H1 H2 H3 H4 H5 H6].
  destruct (field_width k i f Hf) as (W1 & W2 & W3 & W4 & W5 & W6).
  pose proof (kind_bits_bytes k) as Hkb.
  unfold copy_word. cbn zeta.
  assert (Hage : Forall (fun a => 0 <= a <= 255) (put i [0] (e_age e)))
    by (apply Forall_put; [constructor; [lia|constructor]|auto]).
  assert (Hagei : nth_error (put i [0] (e_age e)) i = Some 0)
    by (rewrite nth_error_put1 by lia; now rewrite Nat.eqb_refl).
  assert (Hagej : forall j, j <> i -> nth_error (put i [0] (e_age e)) j = nth_error (e_age e) j)
    by (intros j Hj; rewrite nth_error_put1 by lia; now replace (i =? j)%nat with false by lia).
  destruct (bits_eqb (sub (foff k i) (foff k (i + 1)) (e_data e)) source) eqn:Eb.
  - apply bits_eqb_eq in Eb. cbn [e_data e_age e_svn e_authbits].
    repeat match goal with |- _ /\ _ => split end; auto.
    + constructor; cbn [e_data e_age e_svn e_authbits]; rewrite ?length_put1 by lia; auto.
    + intros N. exfalso. apply N. reflexivity.
  - assert (Hd : length (put (foff k i) source (e_data e)) = (kind_bytes k * 8)%nat)
      by (rewrite length_put by lia; auto).
    assert (Hfi : sub (foff k i) (foff k (i + 1)) (put (foff k i) source (e_data e)) = source)
      by (apply sub_put_same; lia).
    repeat match goal with |- _ /\ _ => split end; auto.
    + constructor; cbn [e_data e_age e_svn e_authbits]; rewrite ?length_put1 by lia; auto; lia.
    + intros j Hj Hne. split; [|cbn [e_age]; auto]. unfold efield. cbn [e_data].
      apply sub_put_other; [lia|].
      assert (i < j \/ j < i)%nat as [K|K] by lia;
        [right; pose proof (fields_disjoint k i j K Hj)|left; pose proof (fields_disjoint k j i K W6)]; lia.
    + intros E. exfalso. pose proof (proj1 (message_bits_eq k
        (mkEntry (put (foff k i) source (e_data e)) (put i [0] (e_age e)) (e_svn e) 0) e Hd H1) E i W6) as E'.
      clear E. rename E' into E. unfold efield in E. cbn [e_data] in E. rewrite Hfi in E.
      rewrite <- E, bits_eqb_refl in Eb. discriminate.
Qed.

(** What feeding does to the entry selected for the satellite. *)
Lemma entry_feed_cases k word svn b e : bytes_ok 16 word ->
  let w := the_word word svn b in
  (exists i f, nth_error (icd_fields k) i = Some f /\ carries k f w = true /\
     entry_feed k word svn b e =
     copy_word (foff k i) (foff k (i + 1)) (nw_bits w (f_from f) (f_to f)) i (entry_select_svn svn e)) \/
  ((forall i f, nth_error (icd_fields k) i = Some f -> carries k f w = false) /\
   entry_feed k word svn b e = entry_select_svn svn e).
Proof.
  intros (Hl & Hb) w.
  assert (Ht : word_type (bits_of_bytes word) = nw_type w).
  { apply word_type_spec; auto. intros ->. discriminate Hl. }
  assert (Hsub : forall a c, (c <= 128)%nat -> sub a c (bits_of_bytes word) = nw_bits w a c).
  { intros a c Hc. rewrite nw_bits_sub; [reflexivity|]. cbn [nw_data w the_word]. lia. }
  destruct k; cbn [entry_feed].
  - unfold ced_feed. rewrite Ht, ced_cases, !Hsub by lia. unfold carries.
    destruct (nw_type w =? 1) eqn:E1; [left; exists 0%nat; eexists; split; [reflexivity|]; cbn [f_type]; rewrite E1; split; reflexivity|].
    destruct (nw_type w =? 2) eqn:E2; [left; exists 1%nat; eexists; split; [reflexivity|]; cbn [f_type]; rewrite E2; split; reflexivity|].
    destruct (nw_type w =? 3) eqn:E3; [left; exists 2%nat; eexists; split; [reflexivity|]; cbn [f_type]; rewrite E3; split; reflexivity|].
    destruct (nw_type w =? 4) eqn:E4; [left; exists 3%nat; eexists; split; [reflexivity|]; cbn [f_type]; rewrite E4; split; reflexivity|].
    destruct (nw_type w =? 5) eqn:E5; [left; exists 4%nat; eexists; split; [reflexivity|]; cbn [f_type]; rewrite E5; split; reflexivity|].
    right. split; [|reflexivity]. intros i f Hf.
    nth_cases i Hf; cbn [f_type]; lia.
  - unfold timing_feed. rewrite Ht, timing_cases, !Hsub by lia. unfold carries.
    change (nw_band w) with b.
    destruct b; rewrite ?andb_true_r, ?andb_false_r.
    + destruct (nw_type w =? 6) eqn:E1; [left; exists 0%nat; eexists; split; [reflexivity|]; cbn [f_type]; rewrite E1; split; reflexivity|].
      destruct (nw_type w =? 10) eqn:E2; [left; exists 1%nat; eexists; split; [reflexivity|]; cbn [f_type]; rewrite E2; split; reflexivity|].
      right. split; [|reflexivity]. intros i f Hf.
      nth_cases i Hf; cbn [f_type]; lia.
    + right. split; [|reflexivity]. intros i f Hf. apply andb_false_r.
Qed.

Lemma entry_select_svn_spec svn e :
  let e' := entry_select_svn svn e in
  e_svn e' = Some svn /\ e_data e' = e_data e /\
  (e_svn e = Some svn -> e' = e) /\
  (forall s, e_svn e = Some s -> s <> svn -> e_authbits e' = 0 /\ e_age e' = map (fun _ => 255) (e_age e)) /\
  (e_svn e = None -> e_authbits e' = e_authbits e /\ e_age e' = e_age e).
Proof.
  unfold entry_select_svn. cbn zeta.
  destruct (e_svn e) as [s|] eqn:E; [destruct (s =? svn) eqn:Es|].
  - assert (s = svn) by lia. subst s. repeat split; auto; try discriminate; congruence.
  - cbn. repeat split; auto; try discriminate. intros K. injection K as ->. lia.
  - cbn. repeat split; auto; discriminate.
Qed.

Lemma entry_feed_spec k word svn b e : entry_ok k e -> bytes_ok 16 word -> 1 <= svn <= 36 ->
  let w := the_word word svn b in
  let e0 := entry_select_svn svn e in
  let e' := entry_feed k word svn b e in
  entry_ok k e' /\ e_svn e' = Some svn /\
  (forall i f, nth_error (icd_fields k) i = Some f ->
     if carries k f w then efield k i e' = nw_bits w (f_from f) (f_to f) /\ nth_error (e_age e') i = Some 0
     else efield k i e' = efield k i e /\ nth_error (e_age e') i = nth_error (e_age e0) i) /\
  (message_bits k e' = message_bits k e -> e_authbits e' = e_authbits e0) /\
  (message_bits k e' <> message_bits k e -> e_authbits e' = 0).
Proof.
  intros He Hw Hs w e0 e'.
  pose proof (entry_select_ok k svn e He Hs) as He0. fold e0 in He0.
  destruct (entry_select_svn_spec svn e) as (S1 & S2 & _). fold e0 in S1, S2.
  assert (Hfld : forall i, efield k i e0 = efield k i e) by (intros i; unfold efield; now rewrite S2).
  assert (Hmb : message_bits k e0 = message_bits k e) by (unfold message_bits; now rewrite S2).
  destruct (entry_feed_cases k word svn b e Hw) as [(i & f & Hf & Hc & E)|(Hn & E)];
    fold w in E; fold e0 in E; fold e' in E; [fold w in Hc|fold w in Hn].
  - destruct (field_width k i f Hf) as (W1 & W2 & W3 & W4 & W5 & W6).
    destruct (copy_word_spec k i f (nw_bits w (f_from f) (f_to f)) e0 He0 Hf)
      as (C1 & C2 & C3 & C4 & C5 & C6 & C7); [apply length_nw_bits|].
    rewrite <- E in *. rewrite <- Hmb.
    repeat match goal with |- _ /\ _ => split end; auto; try congruence.
    intros j f' Hf'. destruct (carries k f' w) eqn:Ec.
    + assert (i = j) by (eapply carries_unique; eauto). subst j.
      rewrite Hf in Hf'. injection Hf' as <-. auto.
    + destruct (field_width k j f' Hf') as (_ & _ & _ & _ & _ & W6').
      destruct (C5 j W6') as (C51 & C52); [intros ->; congruence|].
      split; [now rewrite C51, Hfld|auto].
  - rewrite E. rewrite Hmb. repeat match goal with |- _ /\ _ => split end; auto; try congruence.
    intros i f Hf. rewrite (Hn i f Hf). auto.
Qed.

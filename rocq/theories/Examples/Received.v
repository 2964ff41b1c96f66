(** A list of all the subframes received in a concrete history, to compute with. *)
From Coq Require Import ZArith List Bool Lia.
From Verif Require Import Model.Prelude Model.Params Model.Gst Model.Bitfields Model.Tesla Model.Osnma
  Spec.TimeSpec Spec.CollectSpec Spec.TeslaSpec Spec.KrootSpec Spec.SystemSpec
  Proofs.Base Proofs.GstProofs Proofs.KrootProofs Proofs.SubframeProofs Proofs.SystemProofs.
Import ListNotations.
Open Scope Z_scope.

(** The words are in the order of time and, at the same time, of satellites; none comes twice. *)
Definition word_key (w : oword) : Z := time_of (w_gst w) * 64 + w_svn w.
Fixpoint sorted_from (k : Z) (ws : list oword) : bool :=
  match ws with
  | [] => true
  | w :: ws => (k <? word_key w) && (0 <=? w_svn w) && (w_svn w <? 64) && Z.even (g_tow (w_gst w)) && sorted_from (word_key w) ws
  end.
Lemma sorted_from_In k ws w : sorted_from k ws = true -> In w ws ->
  k < word_key w /\ 0 <= w_svn w < 64 /\ Z.even (g_tow (w_gst w)) = true.
Proof.
  revert k. induction ws as [|v ws IH]; intros k H Hw; [destruct Hw|]. cbn [sorted_from] in H. rewrite !andb_true_iff in H.
  destruct H as ((((H1 & H2) & H3) & H4) & H5), Hw as [->|Hw].
  - split; [lia|]. split; [lia|exact H4].
  - destruct (IH _ H5 Hw) as (K1 & K2). split; [lia|exact K2].
Qed.
Lemma sorted_from_unique k ws w w' : sorted_from k ws = true -> In w ws -> In w' ws -> word_key w = word_key w' -> w = w'.
Proof.
  revert k. induction ws as [|v ws IH]; intros k H Hw H' E; [destruct Hw|]. cbn [sorted_from] in H. rewrite !andb_true_iff in H.
  destruct H as (_ & H5), Hw as [Hw|Hw], H' as [H'|H']; subst; try congruence.
  - pose proof (proj1 (sorted_from_In _ _ _ H5 H')). lia.
  - pose proof (proj1 (sorted_from_In _ _ _ H5 Hw)). lia.
  - exact (IH _ H5 Hw H' E).
Qed.

Definition is_word (svn : Z) (g : gst) (i : nat) (w : oword) : bool :=
  (w_svn w =? svn) && gst_eqb (subframe_of (w_gst w)) g && (w_index w =? Z.of_nat i).
Definition words_at (ws : list oword) (svn : Z) (g : gst) (is : list nat) : list oword :=
  flat_map (fun i => match find (is_word svn g i) ws with Some w => [w] | None => [] end) is.
(** Satellite, time, HKROOT message and MACK message. *)
Definition received_list (ws : list oword) : list (Z * gst * list Z * list Z) :=
  flat_map (fun w => if w_index w =? 0 then
                       let l := words_at ws (w_svn w) (subframe_of (w_gst w)) (seq 0 15) in
                       [(w_svn w, subframe_of (w_gst w), hkroot_of l, mack_of l)]
                     else []) ws.

Lemma is_word_unique k ws svn g i w w' : sorted_from k ws = true -> In w ws -> In w' ws ->
  is_word svn g i w = true -> is_word svn g i w' = true -> w = w'.
Proof.
  unfold is_word. rewrite !andb_true_iff, !gst_eqb_eq, !Z.eqb_eq. unfold w_index, subframe_of. intros Hs Hw Hw' ((A1 & <-) & A2) ((B1 & B) & B2).
  apply (sorted_from_unique k ws); auto.
  destruct (sorted_from_In _ _ _ Hs Hw) as (_ & _ & E), (sorted_from_In _ _ _ Hs Hw') as (_ & _ & E').
  rewrite Zeven_mod in E, E'. apply Zeq_bool_eq in E, E'.
  pose proof (f_equal g_wn B) as B3. pose proof (f_equal g_tow B) as B4. cbn [g_wn g_tow] in B3, B4. unfold word_key, time_of. rewrite A1, B1, B3.
  set (a := g_tow (w_gst w)) in *. set (b := g_tow (w_gst w')) in *. clearbody a b.
  assert (a = b); [|subst; reflexivity]. clear - A2 B2 E E' B4. Z.div_mod_to_equations. lia.
Qed.

Lemma words_at_all k ws svn g l n : sorted_from k ws = true -> (forall w, In w l -> In w ws /\ subframe_of (w_gst w) = g) ->
  (forall i w, nth_error l i = Some w -> w_svn w = svn /\ w_index w = Z.of_nat (n + i)) ->
  words_at ws svn g (seq n (length l)) = l.
Proof.
  intros Hs. revert n. induction l as [|w l IH]; intros n H1 H2; [reflexivity|].
  cbn [length seq]. unfold words_at. cbn [flat_map]. fold (words_at ws svn g (seq (Datatypes.S n) (length l))).
  assert (E : find (is_word svn g n) ws = Some w).
  { assert (Hw : is_word svn g n w = true).
    { unfold is_word. rewrite !andb_true_iff, gst_eqb_eq, !Z.eqb_eq. destruct (H2 0%nat w eq_refl) as (-> & ->).
      rewrite Nat.add_0_r. destruct (H1 w (or_introl eq_refl)). auto. }
    destruct (find (is_word svn g n) ws) as [v|] eqn:Ef.
    - apply find_some in Ef. f_equal. apply (is_word_unique k ws svn g n v w); try tauto. now apply H1; left.
    - pose proof (find_none _ _ Ef w (proj1 (H1 w (or_introl eq_refl)))). congruence. }
  rewrite E, IH; [reflexivity|intros; apply H1; now right|].
  intros i v Hi. specialize (H2 (Datatypes.S i) v Hi).
  replace (Datatypes.S n + i)%nat with (n + Datatypes.S i)%nat by lia. exact H2.
Qed.

Lemma received_in k h svn g hk mk : sorted_from k (osnma_words h) = true -> subframe_received h svn g hk mk ->
  In (svn, g, hk, mk) (received_list (osnma_words h)).
Proof.
  intros Hs (l & (L1 & L2 & L3) & L4 & -> & ->).
  assert (E : words_at (osnma_words h) svn g (seq 0 15) = l).
  { rewrite <- L1. apply (words_at_all k); [exact Hs| |intros i w Hi; now apply L3].
    intros w Hw. split; [now apply (subsequence_in l)|now apply L4]. }
  unfold received_list. apply in_flat_map. destruct l as [|w l]; [discriminate L1|].
  destruct (L3 0%nat w eq_refl) as (X1 & X2). specialize (L4 w (or_introl eq_refl)).
  exists w. split; [apply (subsequence_in (w :: l)); [exact L2|now left]|].
  rewrite X2. cbn [Z.of_nat Z.eqb]. rewrite X1, L4. cbv zeta. rewrite E. now left.
Qed.

(** The fields of a DSM-KROOT that are in its first block. *)
Lemma sub_prefix {A} a b (p q : list A) : (b <= length p)%nat -> sub a b (p ++ q) = sub a b p.
Proof.
  intros H. unfold sub. destruct (le_lt_dec a b).
  - rewrite skipn_app, firstn_app, skipn_length. replace (b - a - (length p - a))%nat with 0%nat by lia.
    now rewrite firstn_O, app_nil_r.
  - replace (b - a)%nat with 0%nat by lia. reflexivity.
Qed.
Lemma kroot_num d p q f i n v a b : kroot_layout d f -> d = p ++ q -> (b <= 8 * length p)%nat ->
  nth_error (all_params f) i = Some (n, v) -> list_sum (map fst (firstn i (all_params f))) = a ->
  b = (a + n)%nat -> v = num_at p a b.
Proof.
  intros HL -> Hb H1 H2 H3. pose proof (kroot_param_at _ f HL i n v a b H1 H2 H3) as H. unfold bits_at, slice in H.
  destruct (_ && _); [|discriminate]. cbn [bind] in H. injection H as <-. unfold num_at. f_equal.
  rewrite bits_of_bytes_app. apply sub_prefix. now rewrite length_bits_of_bytes.
Qed.
Lemma kroot_first_block k h id d f : Forall op_ok h -> sorted_from k (osnma_words h) = true -> id < 12 -> dsm_received h id d -> kroot_layout d f ->
  exists svn g hk mk, In (svn, g, hk, mk) (received_list (osnma_words h)) /\ nth 1 hk 0 = 16 * id /\
    kf_cid f = num_at (skipn 2 hk) 8 10 /\ kf_ts f = num_at (skipn 2 hk) 20 24 /\
    kf_wn f = num_at (skipn 2 hk) 36 48 /\ kf_towh f = num_at (skipn 2 hk) 48 56.
Proof.
  intros Hok Hs Hid (blocks & Hd & Hn & Hb) HL. destruct blocks as [|b bs].
  { exfalso. subst d. unfold blocks_needed in Hn. cbn in Hn. destruct (is_pkr id); discriminate. }
  destruct (Hb 0%nat b eq_refl) as (svn & g & hk & mk & Hsf & H1 & H2).
  exists svn, g, hk, mk. split; [now apply (received_in k)|]. split; [lia|].
  pose proof (subframe_received_bytes _ _ _ _ _ Hok Hsf) as ((Hlen & _) & _).
  assert (Hl : length (skipn 2 hk) = 13%nat) by (rewrite skipn_length; lia).
  cbn [concat] in Hd. rewrite <- H2 in Hd.
  split; [|split; [|split]].
  - apply (kroot_num d (skipn 2 hk) (concat bs) f 2 2 (kf_cid f) 8 10 HL Hd); [lia|reflexivity..].
  - apply (kroot_num d (skipn 2 hk) (concat bs) f 7 4 (kf_ts f) 20 24 HL Hd); [lia|reflexivity..].
  - apply (kroot_num d (skipn 2 hk) (concat bs) f 10 12 (kf_wn f) 36 48 HL Hd); [lia|reflexivity..].
  - apply (kroot_num d (skipn 2 hk) (concat bs) f 11 8 (kf_towh f) 48 56 HL Hd); [lia|reflexivity..].
Qed.

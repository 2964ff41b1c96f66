(** Words that are received again change nothing. *)
From Coq Require Import ZArith List Bool Lia ZifyBool ZifyNat.
From Verif Require Import Model.Prelude Model.Params Model.Gst Model.Svn Model.Bitfields
  Model.Maclt Model.Tesla Model.Merkle Model.Subframe Model.Dsm Model.MackStore Model.Nav Model.Osnma
  Spec.TimeSpec Spec.CollectSpec Spec.NavSpec Spec.SystemSpec Spec.StoredSpec Spec.RepeatSpec
  Proofs.Base Proofs.SubframeProofs Proofs.SystemProofs Proofs.StepProofs Proofs.TotalProofs Proofs.KeyStoreProofs
  Proofs.Rows Proofs.EntryProofs Proofs.NavProofs Proofs.NavInv Proofs.NavHistory Proofs.GstProofs Proofs.StoredProofs Proofs.OrderProofs.
Import ListNotations.
Open Scope Z_scope.
Local Ltac Zify.zify_post_hook ::= Z.div_mod_to_equations.

Lemma same_subframe_eq a b : same_subframe a b = true -> g_wn a = g_wn b /\ g_tow a / 30 = g_tow b / 30.
Proof. unfold same_subframe. intros H. apply andb_true_iff in H. lia. Qed.

Lemma later_index w x : same_subframe (w_gst w) (w_gst x) = true -> g_tow (w_gst w) <= g_tow (w_gst x) -> w_index w <= w_index x.
Proof. intros H L. apply same_subframe_eq in H. unfold w_index. lia. Qed.

(** After the word, the number of words collected is never again the place of the word. *)
Lemma repeat_count p w q :
  (forall x, In x q -> same_subframe (w_gst w) (w_gst x) = true /\ (w_svn x = w_svn w -> g_tow (w_gst w) <= g_tow (w_gst x))) ->
  let run := current_run (p ++ w :: q) in
  (exists r rs, run = r :: rs /\ same_subframe (w_gst w) (w_gst r) = true) /\
  Z.of_nat (length (collected (w_svn w) run)) <> w_index w.
Proof.
  cbv zeta. induction q as [|x q IH] using rev_ind; intros H.
  - rewrite current_run_snoc. split.
    + destruct (run_for (current_run p) w) as [|r rs] eqn:E.
      * exists w, []. split; [reflexivity|]. unfold same_subframe. now rewrite !Z.eqb_refl.
      * exists r, (rs ++ [w]). split; [reflexivity|]. destruct (run_for_in p w r) as (_ & Hs); [rewrite E; now left|].
        apply same_subframe_eq in Hs. unfold same_subframe. lia.
    + rewrite collected_snoc_same. cbv zeta. destruct (w_index w =? Z.of_nat (length (collected (w_svn w) (run_for (current_run p) w)))) eqn:E.
      * rewrite app_length. cbn [length]. lia.
      * lia.
  - destruct IH as ((r & rs & E & Hs) & Hn). { intros y Hy. apply H. apply in_or_app. now left. }
    destruct (H x) as (Hx & Hl). { apply in_or_app. right. now left. }
    rewrite app_comm_cons, app_assoc, current_run_snoc.
    assert (Er : run_for (current_run (p ++ w :: q)) x = current_run (p ++ w :: q)).
    { rewrite E. unfold run_for. apply same_subframe_eq in Hs, Hx.
      replace (same_subframe (w_gst r) (w_gst x)) with true; [reflexivity|]. unfold same_subframe. lia. }
    rewrite Er. split.
    + exists r, (rs ++ [x]). rewrite E. split; [reflexivity|exact Hs].
    + destruct (Z.eq_dec (w_svn x) (w_svn w)) as [Es|Es].
      * rewrite <- Es in *. rewrite collected_snoc_same. cbv zeta.
        pose proof (later_index w x Hx (Hl eq_refl)).
        destruct (w_index x =? Z.of_nat (length (collected (w_svn x) (current_run (p ++ w :: q))))) eqn:Ei; [rewrite app_length; cbn [length]; lia|exact Hn].
      * rewrite collected_snoc_other by exact Es. exact Hn.
Qed.

(** ** Navigation data words *)

(** The entry holds what the word carries. *)
Definition settled (k : nav_kind) (w : nword) (e : entry) : Prop :=
  forall i f, nth_error (icd_fields k) i = Some f -> carries k f w = true ->
    efield k i e = nw_bits w (f_from f) (f_to f) /\ nth_error (e_age e) i = Some 0.

Lemma put1_same {A} (l : list A) i x : nth_error l i = Some x -> put i [x] l = l.
Proof.
  intros H. assert (Hi : (i < length l)%nat) by (apply nth_error_Some; congruence).
  apply nth_error_ext. intros j. rewrite nth_error_put1 by exact Hi. destruct (i =? j)%nat eqn:E; [|reflexivity].
  apply Nat.eqb_eq in E. congruence.
Qed.

Lemma settled_again k word svn b e : bytes_ok 16 word -> e_svn e = Some svn ->
  settled k (the_word word svn b) e -> entry_feed k word svn b e = e.
Proof.
  intros Hw Hs H. assert (Esel : entry_select_svn svn e = e) by (apply (proj1 (proj2 (proj2 (entry_select_svn_spec svn e)))); exact Hs).
  destruct (entry_feed_cases k word svn b e Hw) as [(i & f & Hf & Hc & E)|(_ & E)]; rewrite E, Esel; [|reflexivity].
  destruct (H i f Hf Hc) as (H1 & H2). unfold copy_word. cbv zeta. unfold efield in H1. rewrite H1, bits_eqb_refl.
  rewrite put1_same by exact H2. destruct e; reflexivity.
Qed.

Lemma fed_settled k word svn b e : entry_ok k e -> bytes_ok 16 word -> 1 <= svn <= 36 ->
  settled k (the_word word svn b) (entry_feed k word svn b e).
Proof.
  intros He Hw Hs i f Hf Hc. destruct (entry_feed_spec k word svn b e He Hw Hs) as (_ & _ & H & _).
  specialize (H i f Hf). rewrite Hc in H. exact H.
Qed.

Lemma other_type_settled k word b word' b' svn e : entry_ok k e -> bytes_ok 16 word' -> 1 <= svn <= 36 -> e_svn e = Some svn ->
  nw_type (the_word word' svn b') <> nw_type (the_word word svn b) ->
  settled k (the_word word svn b) e -> settled k (the_word word svn b) (entry_feed k word' svn b' e).
Proof.
  intros He Hw Hs Hsv Ht H i f Hf Hc. destruct (entry_feed_spec k word' svn b' e He Hw Hs) as (_ & _ & H' & _).
  specialize (H' i f Hf). rewrite (proj1 (proj2 (proj2 (entry_select_svn_spec svn e))) Hsv) in H'.
  assert (Hc' : carries k f (the_word word' svn b') = false).
  { unfold carries in Hc |- *. apply andb_true_iff in Hc. destruct Hc as (Hc & _).
    destruct (nw_type (the_word word' svn b') =? f_type f) eqn:E; [|reflexivity]. lia. }
  rewrite Hc' in H'. destruct H' as (A1 & A2), (H i f Hf Hc) as (B1 & B2). split; congruence.
Qed.

Lemma grown_settled k w e e' : grown e e' -> settled k w e -> settled k w e'.
Proof. intros (E1 & E2 & _) H i f Hf Hc. destruct (H i f Hf Hc). unfold efield in *. rewrite E1, E2. auto. Qed.

Section Storage.
Context {S : storage}.
Hypothesis HS : storage_ok S.

Lemma feed_row_again k word svn b r e : row_ok k r -> In e r -> e_svn e = Some svn -> bytes_ok 16 word ->
  settled k (the_word word svn b) e -> feed_row k word svn b r = r.
Proof.
  intros Hr Hin Hs Hw H. unfold feed_row. destruct (max_by_key (slot_key svn) r) as [i|] eqn:Ei; [|reflexivity].
  destruct (max_by_key_spec _ _ _ Ei) as (x & Hx & Hmax & _). rewrite Hx.
  destruct (In_nth_error _ _ Hin) as (j & Hj). pose proof (Hmax j e Hj) as Hle.
  assert (Hk : slot_key svn e = 257) by (unfold slot_key; rewrite Hs, Z.eqb_refl; reflexivity).
  assert (Hxs : e_svn x = Some svn).
  { rewrite Hk in Hle. unfold slot_key in Hle. destruct (e_svn x) as [s|]; [|lia]. destruct (s =? svn) eqn:E; [f_equal; lia|].
    exfalso. assert (Hxo : entry_ok k x) by (apply (row_ok_in k r); [exact Hr|now apply nth_error_In in Hx]).
    pose proof (max_age_range _ _ Hxo) as Hm. lia. }
  assert (Ee : x = e). { destruct Hr as (_ & Hd). assert (i = j) by (eapply Hd; eauto). congruence. }
  subst x. rewrite settled_again by auto. now apply put1_same.
Qed.

Lemma nav_again n word svn g b : nav_has n -> bytes_ok 16 word -> stored_gst n 0 = Some (subframe_of g) ->
  (forall k, exists e, stored k n 0 svn e /\ settled k (the_word word svn b) e) -> nav_feed n word svn g b = Ok n.
Proof.
  intros Hn Hw Hg H. pose proof Hn as (hs & Hrep & Hok). destruct (nv_sizes HS) as (Hs & Hd & Hds).
  destruct hs as [|s hs _] using rev_ind; [destruct (stored_current_fresh HS _ Hrep); congruence|].
  destruct (stored_current HS hs s n Hrep) as (Hrow & Hgst).
  destruct (last_snap HS hs s n Hrep) as (L1 & L2 & L3 & L4).
  assert (Hkind : forall k, nav_feed_kind k word svn b n = Ok n).
  { intros k. pose proof (nv_arr_length k _ _ Hrep) as Hl. destruct (stored_row_ok HS n 0 k Hn Hd) as (Hro & Hlr).
    destruct (H k) as (e & (Hin & Hsv) & Hset).
    pose proof (feed_row_again k word svn b _ e Hro Hin Hsv Hw Hset) as Hfr. rewrite Hrow in Hfr, Hro, Hlr.
    unfold nav_feed_kind, row_of. rewrite (row_slice _ nav_depth) by auto. cbn [bind]. rewrite L4.
    destruct (max_by_key_some svn (s_row k s)) as (i & x & Ei & Ex); [lia|].
    unfold feed_row in Hfr. rewrite Ei, Ex in Hfr. rewrite Ei. cbn [unwrap bind]. unfold index. rewrite Ex. cbn [unwrap bind].
    assert (Hi : (i < length (s_row k s))%nat) by (apply nth_error_Some; congruence).
    rewrite set_index_in by auto. cbn [bind]. rewrite Hfr.
    rewrite (row_copy num_sats nav_depth) by auto. cbn [bind]. rewrite <- L4.
    assert (Hb : (nv_wp n * num_sats <= (nv_wp n + 1) * num_sats)%nat /\ ((nv_wp n + 1) * num_sats <= length (nv_arr k n))%nat) by nia.
    unfold row. rewrite put_same by tauto. destruct n, k; reflexivity. }
  unfold nav_feed. cbv zeta.
  assert (Hadj : nav_adjust n (gst_subframe g) = Ok n).
  { assert (Es : s_gst s = gst_subframe g) by (rewrite <- subframe_of_eq; congruence).
    unfold nav_adjust, index. rewrite L3. cbn [unwrap bind]. rewrite Es.
    replace (gst_eqb (gst_subframe g) (gst_subframe g)) with true by (symmetry; now apply gst_eqb_eq). cbn [negb bind].
    rewrite set_index_in by (apply nth_error_Some; congruence). cbn [bind]. rewrite put1_same by congruence. destruct n; reflexivity. }
  rewrite Hadj. cbn [bind]. rewrite Hkind. cbn [bind]. apply Hkind.
Qed.

Lemma same_subframe_of a b : same_subframe a b = true -> subframe_of a = subframe_of b.
Proof. intros H. apply same_subframe_eq in H. destruct H as (E1 & E2). unfold subframe_of. now rewrite E1, E2. Qed.

End Storage.

Section Crypto.
Context {C : crypto} {B : build} {S : storage}.
Hypothesis HC : crypto_ok C.
Hypothesis HS : storage_ok S.
Variables (root : option (list Z)) (user : option public_key) (slow : bool).
Notation new := (osnma_new root user slow).

Lemma osnma_words_in h w : In w (osnma_words h) -> In (FeedOsnma (w_data w) (w_svn w) (w_gst w)) h.
Proof.
  unfold osnma_words. rewrite in_flat_map. intros (x & Hx & H). destruct x as [? ? ? ?|d s g]; [destruct H|].
  destruct (forallb (Z.eqb 0) d); [destruct H|]. destruct H as [<-|[]]. exact Hx.
Qed.

Lemma osnma_words_app h h' : osnma_words (h ++ h') = osnma_words h ++ osnma_words h'.
Proof. unfold osnma_words. now rewrite flat_map_app. Qed.

Lemma osnma_again h data svn g o : Forall op_ok h -> run new h = Ok o -> 1 <= svn <= 36 ->
  osnma_word_repeats h svn g -> step o (FeedOsnma data svn g) = Ok o.
Proof.
  intros Hok Hr Hs (h1 & d0 & h2 & Eh & (b & Hb & Hb0) & H).
  cbn [step]. unfold feed_osnma. destruct (forallb (fun x => x =? 0) data); [reflexivity|].
  destruct (run_inv HC HS root user slow h Hok o Hr) as (Hsub & _). unfold sub_inv in Hsub.
  set (w := mkWord d0 svn g).
  assert (Ew : osnma_words h = osnma_words h1 ++ w :: osnma_words h2).
  { rewrite Eh, osnma_words_app. f_equal. unfold osnma_words at 1. cbn [flat_map]. fold (osnma_words h2).
    destruct (forallb (Z.eqb 0) d0) eqn:E; [|reflexivity]. rewrite forallb_forall in E. specialize (E b Hb). lia. }
  destruct (repeat_count (osnma_words h1) w (osnma_words h2)) as ((r & rs & Er & Hrs) & Hn).
  { intros x Hx. apply osnma_words_in in Hx. destruct (H _ _ _ Hx) as (A1 & A2). auto. }
  rewrite <- Ew in *. destruct Hsub as (_ & _ & _ & _ & _ & Ht & Hc).
  destruct (Ht r) as (T1 & T2). { rewrite Er. now left. }
  destruct (Hc svn Hs) as (Hv & _). cbv zeta in Hv. apply same_subframe_eq in Hrs. cbn [w w_gst w_svn] in Hrs, Hn.
  rewrite subframe_feed_steps. unfold prep.
  replace (negb (g_wn g =? sf_wn (o_sub o)) || negb (g_tow g / 30 =? sf_subframe (o_sub o))) with false by lia.
  unfold core. unfold index. rewrite Hv. cbn [bind unwrap].
  replace (negb ((g_tow g / 2) mod words_per_subframe =? Z.of_nat (length (collected svn (current_run (osnma_words h)))))) with true.
  - cbv beta iota zeta. cbn [bind]. cbv beta iota zeta. f_equal. clear. destruct o; reflexivity.
  - unfold w_index in Hn. cbn [w w_gst] in Hn. unfold words_per_subframe.
    assert ((g_tow g / 2) mod 15 = (g_tow g mod 30) / 2) by lia. lia.
Qed.

Lemma run_again x h t : (forall o, run new h = Ok o -> step o x = Ok o) -> run new (h ++ x :: t) = run new (h ++ t).
Proof.
  intros H. rewrite !run_app. destruct (run new h) as [o|] eqn:E; [|reflexivity]. cbn [bind].
  unfold run at 1. cbn [fold_outcome]. rewrite (H o eq_refl). reflexivity.
Qed.

Theorem osnma_repeats h data svn g t : Forall op_ok h -> 1 <= svn <= 36 -> osnma_word_repeats h svn g ->
  run new (h ++ FeedOsnma data svn g :: t) = run new (h ++ t).
Proof. intros Hok Hs H. apply run_again. intros o Hr. exact (osnma_again h data svn g o Hok Hr Hs H). Qed.

(** What the storage holds of the word after the calls. *)
Lemma held_since h2 : forall h1 o word svn g b,
  Forall op_ok (h1 ++ h2) -> room_for (map nw_svn (inav_words (h1 ++ h2))) -> run new (h1 ++ h2) = Ok o ->
  (forall o1, run new h1 = Ok o1 -> stored_gst (o_nav o1) 0 = Some (subframe_of g) /\
     forall k, exists e, stored k (o_nav o1) 0 svn e /\ settled k (the_word word svn b) e) ->
  (forall word' svn' g' b', In (FeedInav word' svn' g' b') h2 ->
     same_subframe g g' = true /\ (svn' = svn -> nw_type (mkNWord word' svn' g' b') <> nw_type (mkNWord word svn g b))) ->
  stored_gst (o_nav o) 0 = Some (subframe_of g) /\
  forall k, exists e, stored k (o_nav o) 0 svn e /\ settled k (the_word word svn b) e.
Proof.
  induction h2 as [|x h2 IH] using rev_ind; intros h1 o word svn g b Hok Hroom Hr Hstart H.
  - rewrite app_nil_r in Hr. now apply Hstart.
  - rewrite app_assoc in Hok, Hroom, Hr. rewrite run_app in Hr. destruct (run new (h1 ++ h2)) as [o1|] eqn:E1; [|discriminate].
    cbn [bind] in Hr. unfold run in Hr. cbn [fold_outcome] in Hr. destruct (step o1 x) as [o2|] eqn:E2; [|discriminate].
    cbn [bind] in Hr. injection Hr as <-. pose proof Hok as Hok'. apply Forall_app in Hok'. destruct Hok' as (Ho & Hx).
    apply Forall_cons_iff in Hx. destruct Hx as (Hx & _).
    assert (Hroom1 : room_for (map nw_svn (inav_words (h1 ++ h2)))).
    { destruct Hroom as (sats & A1 & A2). exists sats. split; [exact A1|]. intros s Hs. apply A2. rewrite inav_words_app, map_app.
      apply in_or_app. now left. }
    destruct (IH h1 o1 word svn g b Ho Hroom1 E1 Hstart) as (G & K).
    { intros w' s' g' b' Hin. apply (H w' s' g' b'). apply in_or_app. now left. }
    destruct x as [word' svn' g' b'|data svn' g'].
    + destruct (H word' svn' g' b') as (Hsub & Htype). { apply in_or_app. right. now left. }
      pose proof (same_subframe_of _ _ Hsub) as Esub. cbn [step] in E2. pose proof E2 as E2'.
      unfold feed_inav in E2'. destruct (nav_feed (o_nav o1) word' svn' g' b') as [n'|] eqn:En; [|discriminate]. cbn [bind] in E2'.
      assert (En' : o_nav o2 = n') by (injection E2' as <-; reflexivity).
      pose proof (reach_has HC HS root user slow _ _ Ho E1) as Hn. pose proof Hn as (hs & Hrep & _).
      destruct (feed_stored HS hs _ _ _ _ _ _ Hrep En) as (_ & Hg'). rewrite En'. split; [congruence|].
      intros k. destruct (K k) as (e & He & Hset). destruct (Z.eq_dec svn' svn) as [Es|Es].
      * subst svn'. destruct Hx as (Hw & Hsv & _). destruct (feed_own HS _ _ _ _ _ _ k Hn Hw Hsv En) as (e1 & Hok1 & Hst & [(e' & He' & Hco & Hs1)|(Hno & _)]); [|exfalso; exact (Hno e He)].
        assert (e' = e).
        { apply (nav_has_stored HS) in He, He'; [congruence|exact Hn|apply (nv_sizes HS)|exact Hn|apply (nv_sizes HS)]. }
        subst e'. assert (e1 = e) by (apply (proj1 Hco); congruence). subst e1.
        exists (entry_feed k word' svn b' e). split; [exact Hst|]. apply other_type_settled; auto.
      * destruct (other_word_room HC HS root user slow (h1 ++ h2) o1 o2 word' svn' g' b' k svn e Ho E1 Hx E2) as (e1 & Hco & Hst); [auto|exact He|exact Hroom|].
        rewrite En' in Hst. assert (e1 = e) by (apply (proj1 Hco); congruence). subst e1. now exists e.
    + cbn [step] in E2. pose proof (feed_osnma_grown _ _ _ _ _ E2) as Hgr. split; [rewrite (grown_gst _ _ _ Hgr); exact G|].
      intros k. destruct (K k) as (e & He & Hset). destruct (grown_stored _ _ k 0 svn e Hgr He) as (e' & He' & Hg').
      exists e'. split; [exact He'|]. now apply (grown_settled k _ e).
Qed.

Lemma inav_again h word svn g b o : Forall op_ok h -> room_for (map nw_svn (inav_words h)) -> run new h = Ok o ->
  inav_word_repeats h word svn g b -> step o (FeedInav word svn g b) = Ok o.
Proof.
  intros Hok Hroom Hr (h1 & g0 & h2 & Eh & Hsub & H). subst h.
  replace (h1 ++ FeedInav word svn g0 b :: h2) with ((h1 ++ [FeedInav word svn g0 b]) ++ h2) in * by (rewrite <- app_assoc; reflexivity).
  pose proof Hok as Hok'. apply Forall_app in Hok'. destruct Hok' as (Ho1 & _). apply Forall_app in Ho1. destruct Ho1 as (Ho1 & Hx).
  apply Forall_cons_iff in Hx. destruct Hx as ((Hw & Hsv & _) & _).
  destruct (held_since h2 (h1 ++ [FeedInav word svn g0 b]) o word svn g b Hok Hroom Hr) as (G & K); [|exact H|].
  - intros o1 Hr1. rewrite run_app in Hr1. destruct (run new h1) as [o0|] eqn:E0; [|discriminate].
    cbn [bind] in Hr1. unfold run in Hr1. cbn [fold_outcome step] in Hr1. unfold feed_inav in Hr1.
    destruct (nav_feed (o_nav o0) word svn g0 b) as [n'|] eqn:En; [|discriminate]. cbn [bind] in Hr1.
    assert (En' : o_nav o1 = n') by (injection Hr1 as <-; reflexivity). rewrite En'.
    pose proof (reach_has HC HS root user slow _ _ Ho1 E0) as Hn. pose proof Hn as (hs & Hrep & _).
    destruct (feed_stored HS hs _ _ _ _ _ _ Hrep En) as (_ & Hg'). split; [now rewrite Hg', (same_subframe_of _ _ Hsub)|].
    intros k. destruct (feed_own HS _ _ _ _ _ _ k Hn Hw Hsv En) as (e1 & Hok1 & Hst & _).
    exists (entry_feed k word svn b e1). split; [exact Hst|]. now apply fed_settled.
  - cbn [step]. unfold feed_inav. rewrite (nav_again HS (o_nav o) word svn g b); auto.
    + cbn [bind]. f_equal. clear. destruct o; reflexivity.
    + exact (reach_has HC HS root user slow _ _ Hok Hr).
Qed.

Theorem inav_repeats h word svn g b t : Forall op_ok h -> room_for (map nw_svn (inav_words h)) ->
  inav_word_repeats h word svn g b ->
  run new (h ++ FeedInav word svn g b :: t) = run new (h ++ t).
Proof. intros Hok Hroom H. apply run_again. intros o Hr. exact (inav_again h word svn g b o Hok Hroom Hr H). Qed.

Lemma room_less a b : (forall w, In w b -> In w a) -> room_for (map nw_svn a) -> room_for (map nw_svn b).
Proof.
  intros H (sats & A1 & A2). exists sats. split; [exact A1|]. intros s Hs. apply A2. rewrite in_map_iff in *.
  destruct Hs as (w & E & Hw). exists w. auto.
Qed.

Lemma removed_fine h h' : repeats_removed h h' -> Forall op_ok h -> room_for (map nw_svn (inav_words h)) ->
  Forall op_ok h' /\ room_for (map nw_svn (inav_words h')) /\ run new h = run new h'.
Proof.
  induction 1 as [h|h data svn g t H|h word svn g b t H|h h' h'' _ IH1 _ IH2]; intros Hok Hroom.
  - auto.
  - pose proof Hok as Hok'. apply Forall_app in Hok'. destruct Hok' as (Ho & Hx). apply Forall_cons_iff in Hx. destruct Hx as (Hx & Ht).
    split; [apply Forall_app; auto|]. split.
    + revert Hroom. apply room_less. rewrite !inav_words_app. intros w. rewrite !in_app_iff. cbn [inav_words flat_map app]. tauto.
    + apply osnma_repeats; auto. apply Hx.
  - pose proof Hok as Hok'. apply Forall_app in Hok'. destruct Hok' as (Ho & Hx). apply Forall_cons_iff in Hx. destruct Hx as (Hx & Ht).
    split; [apply Forall_app; auto|]. split.
    + revert Hroom. apply room_less. rewrite !inav_words_app. intros w. rewrite !in_app_iff. cbn [inav_words flat_map app In]. tauto.
    + apply inav_repeats; auto. revert Hroom. apply room_less. rewrite !inav_words_app. intros w. rewrite !in_app_iff. tauto.
  - destruct (IH1 Hok Hroom) as (A1 & A2 & A3). destruct (IH2 A1 A2) as (B1 & B2 & B3). split; [exact B1|]. split; [exact B2|congruence].
Qed.

End Crypto.

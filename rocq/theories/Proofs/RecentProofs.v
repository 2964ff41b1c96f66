(** Which of the stored data the getters return, and when it was received. *)
From Coq Require Import ZArith List Bool Lia ZifyBool ZifyNat Sorted.
From Verif Require Import Model.Prelude Model.Params Model.Gst Model.Svn Model.Bitfields
  Model.Tesla Model.Merkle Model.Nav Model.Osnma
  Spec.TimeSpec Spec.CollectSpec Spec.NavSpec Spec.TeslaSpec Spec.KrootSpec Spec.KeySpec Spec.SystemSpec Spec.StoredSpec
  Proofs.Base Proofs.Ring Proofs.Rows Proofs.GstProofs Proofs.NavProofs Proofs.EntryProofs Proofs.NavInv
  Proofs.NavHistory Proofs.SystemProofs Proofs.GetterProofs Proofs.KeyStoreProofs Proofs.StepProofs Proofs.StoredProofs.
Import ListNotations.
Open Scope Z_scope.
Ltac Zify.zify_post_hook ::= Z.div_mod_to_equations.

(** ** Stretches in time order *)

(** Consecutive stretches are of different subframes. *)
Lemma stretches_differ ws : forall a g l g' l', nth_error (nav_stretches ws) a = Some (g, l) ->
  nth_error (nav_stretches ws) (a + 1) = Some (g', l') -> g <> g'.
Proof.
  induction ws as [|w ws IH] using rev_ind; intros a g l g' l' H H'.
  - destruct a; discriminate H.
  - rewrite nav_stretches_snoc in H, H'. unfold push_nword in H, H'.
    destruct (nav_stretches ws) as [|(g0, l0) gs _] using rev_ind.
    + cbn [rev] in H'. destruct a as [|[|a]]; cbn in H'; discriminate H'.
    + rewrite rev_app_distr in H, H'. cbn [rev app] in H, H'.
      destruct (gst_eqb g0 (subframe_of (nw_gst w))) eqn:E.
      * rewrite rev_involutive in H, H'.
        assert (Hm : forall c gg ll, nth_error (gs ++ [(g0, l0 ++ [w])]) c = Some (gg, ll) ->
                  exists ll', nth_error (gs ++ [(g0, l0)]) c = Some (gg, ll')).
        { intros c gg ll Hc. destruct (Nat.lt_ge_cases c (length gs)) as [Hlt|Hge].
          - rewrite nth_error_app1 in Hc |- * by auto. eauto.
          - rewrite nth_error_app2 in Hc |- * by auto. destruct (c - length gs)%nat as [|z]; [|destruct z; discriminate].
            cbn in Hc |- *. injection Hc as <- <-. eauto. }
        apply Hm in H. apply Hm in H'. destruct H as (l1 & H), H' as (l1' & H'). exact (IH a g l1 g' l1' H H').
      * destruct (Nat.lt_ge_cases (a + 1) (length (gs ++ [(g0, l0)]))) as [Hlt|Hge].
        -- rewrite nth_error_app1 in H by lia. rewrite nth_error_app1 in H' by lia. eapply IH; eauto.
        -- rewrite nth_error_app2 in H' by lia.
           destruct (a + 1 - length (gs ++ [(g0, l0)]))%nat as [|z] eqn:Ez; [|destruct z; discriminate].
           cbn in H'. injection H' as <- <-. rewrite app_length in *. cbn [length] in *.
           rewrite nth_error_app1 in H by (rewrite app_length; cbn [length]; lia).
           replace a with (length gs) in H by lia. rewrite nth_error_app2, Nat.sub_diag in H by lia.
           cbn in H. injection H as <- <-. intros ->. rewrite gst_eqb_refl in E. discriminate.
Qed.

Lemma time_of_sub_mono g g' : time_of g <= time_of g' -> gst_ok g -> gst_ok g' ->
  time_of (subframe_of g) <= time_of (subframe_of g').
Proof.
  intros H H1 H2. pose proof (subframe_of_time g). pose proof (subframe_of_time g').
  destruct (subframe_of_aligned g H1) as (n & Hn). destruct (subframe_of_aligned g' H2) as (n' & Hn'). lia.
Qed.

Lemma time_of_inj_sub g g' : gst_ok g -> gst_ok g' -> time_of (subframe_of g) = time_of (subframe_of g') ->
  subframe_of g = subframe_of g'.
Proof.
  destruct g as [w t], g' as [w' t']. unfold gst_ok, subframe_of, time_of. cbn [g_wn g_tow]. intros H1 H2 H.
  assert (0 <= t mod 30 < 30) by (apply Z.mod_pos_bound; lia). assert (0 <= t' mod 30 < 30) by (apply Z.mod_pos_bound; lia).
  assert (0 <= t - t mod 30 < 604800).
  { split; [|lia]. assert (t mod 30 <= t) by (apply Z.mod_le; lia). lia. }
  assert (0 <= t' - t' mod 30 < 604800).
  { split; [|lia]. assert (t' mod 30 <= t') by (apply Z.mod_le; lia). lia. }
  f_equal; lia.
Qed.

(** Later stretches are of later subframes. *)
Lemma stretches_increasing ws : StronglySorted wlater ws -> (forall w, In w ws -> gst_ok (nw_gst w)) ->
  forall a b g l g' l', (b < a)%nat -> nth_error (nav_stretches ws) a = Some (g, l) ->
  nth_error (nav_stretches ws) b = Some (g', l') -> time_of g' < time_of g.
Proof.
  intros Hs Hok.
  assert (Hle : forall a b g l g' l', (b <= a)%nat -> nth_error (nav_stretches ws) a = Some (g, l) ->
    nth_error (nav_stretches ws) b = Some (g', l') -> time_of g' <= time_of g).
  { intros a b g l g' l' Hba Ha Hb. destruct (Nat.eq_dec a b) as [->|Hne].
    { rewrite Ha in Hb. injection Hb as <- <-. lia. }
    destruct (stretch_words ws a g l Ha) as (Hl & Hlw). destruct (stretch_words ws b g' l' Hb) as (Hl' & Hlw').
    destruct l as [|w l]; [congruence|]. destruct l' as [|w' l']; [congruence|].
    pose proof (stretches_sorted ws a b g g' _ _ Hs ltac:(lia) Ha Hb w w' ltac:(now left) ltac:(now left)) as Hw.
    destruct (Hlw w ltac:(now left)) as (W1 & <-). destruct (Hlw' w' ltac:(now left)) as (W2 & <-).
    exact Hw. }
  intros a b g l g' l' Hba Ha Hb.
  destruct (nth_error (nav_stretches ws) (b + 1)) as [(g1, l1)|] eqn:E1.
  2: { apply nth_error_None in E1. assert (a < length (nav_stretches ws))%nat by (apply nth_error_Some; congruence). lia. }
  pose proof (Hle a (b + 1)%nat g l g1 l1 ltac:(lia) Ha E1). pose proof (Hle (b + 1)%nat b g1 l1 g' l' ltac:(lia) E1 Hb).
  pose proof (stretches_differ ws b g' l' g1 l1 Hb E1) as Hd.
  enough (time_of g' <> time_of g1) by lia. intros Heq. apply Hd.
  destruct (stretch_words ws b g' l' Hb) as (Hl & Hlw). destruct (stretch_words ws (b + 1) g1 l1 E1) as (Hl' & Hlw').
  destruct l' as [|w l']; [congruence|]. destruct l1 as [|w' l1]; [congruence|].
  destruct (Hlw w ltac:(now left)) as (W1 & <-). destruct (Hlw' w' ltac:(now left)) as (W2 & <-).
  apply time_of_inj_sub; auto.
Qed.

Lemma newest_in e k : entry_ok k e -> newest_word e < 255 ->
  exists i, (i < kind_words k)%nat /\ nth_error (e_age e) i = Some (newest_word e).
Proof.
  intros Hok Hlt. rewrite <- (eo_age _ _ Hok). unfold newest_word in *. clear Hok.
  induction (e_age e) as [|x l IH]; [cbn in Hlt; lia|]. cbn [fold_right] in *.
  destruct (Z.le_gt_cases x (fold_right Z.min 255 l)) as [Hc|Hc].
  - exists 0%nat. rewrite Z.min_l by lia. split; [cbn [length]; lia|reflexivity].
  - rewrite Z.min_r in * by lia. destruct (IH Hlt) as (i & Hi & Hn). exists (Datatypes.S i).
    split; [cbn [length]; lia|exact Hn].
Qed.

Lemma newest_le e i x : nth_error (e_age e) i = Some x -> newest_word e <= x.
Proof.
  unfold newest_word. revert i. induction (e_age e) as [|y l IH]; intros [|i] H; cbn in *; try discriminate.
  - injection H as <-. lia.
  - specialize (IH i H). lia.
Qed.

Lemma nth_error_firstn_lt {A} (l : list A) m i : (i < m)%nat -> nth_error (firstn m l) i = nth_error l i.
Proof.
  revert l i. induction m as [|m IH]; intros l i H; [lia|]. destruct l as [|x l]; [reflexivity|].
  destruct i as [|i]; [reflexivity|]. cbn. apply IH. lia.
Qed.

Lemma nth_skipn_firstn {A} (l : list A) m i x : nth_error (firstn m (skipn 0 l)) i = Some x ->
  (i < m)%nat /\ nth_error l i = Some x.
Proof.
  cbn [skipn]. intros H. assert (i < m)%nat.
  { assert (nth_error (firstn m l) i <> None) as Hn by congruence. apply nth_error_Some in Hn. rewrite firstn_length in Hn. lia. }
  split; auto. now rewrite nth_error_firstn_lt in H.
Qed.

Lemma fed_ok h w : Forall op_ok h -> In w (inav_words h) -> gst_ok (nw_gst w).
Proof.
  intros Ho Hw. induction h as [|x h IH]; [destruct Hw|].
  apply Forall_cons_iff in Ho. destruct Ho as (Hx & Ho). change (x :: h) with ([x] ++ h) in Hw. rewrite inav_words_app in Hw.
  apply in_app_or in Hw. destruct Hw as [Hw|Hw]; auto.
  destruct x as [word s g0 b|]; [|destruct Hw]. destruct Hw as [<-|[]]. apply Hx.
Qed.

Section Crypto.
Context {C : crypto} {B : build} {S : storage}.
Hypothesis HC : crypto_ok C.
Hypothesis HS : storage_ok S.
Variables (root : option (list Z)) (user : option public_key) (slow : bool).
Notation new := (osnma_new root user slow).

(** The subframes held are those of the most recent stretches. *)
Theorem stored_recent h o j : Forall op_ok h -> run new h = Ok o -> (j < nav_depth)%nat ->
  stored_gst (o_nav o) j = option_map fst (nth_error (rev (nav_stretches (inav_words h))) j).
Proof.
  intros Ho Hr Hj. apply (run_inv HC HS root user slow h Ho) in Hr. destruct Hr as (_ & [_ _ _ _ _ _ (hs & H1 & H2 & H3 & _)]).
  assert (Hl : length (nav_stretches (inav_words h)) = length hs) by (apply (f_equal (@length _)) in H3; rewrite !map_length in H3; auto).
  destruct (Nat.lt_ge_cases j (length hs)) as [Hlt|Hge].
  - rewrite nth_error_rev_length by lia. rewrite Hl.
    destruct (nth_error hs (length hs - 1 - j)) as [s|] eqn:Es; [|apply nth_error_None in Es; lia].
    destruct (stored_snap HS hs _ _ s j H1 Es) as (_ & ->); [lia|auto|].
    rewrite <- (nth_error_map fst), <- H3, nth_error_map, Es. reflexivity.
  - destruct (stored_fresh HS hs _ j H1) as (_ & ->); [lia|].
    replace (nth_error (rev (nav_stretches (inav_words h))) j) with (@None (gst * list nword)); [reflexivity|].
    symmetry. apply nth_error_None. rewrite rev_length. lia.
Qed.

(** Smaller [j] is later. *)
Theorem stored_order h o i j g g' : Forall op_ok h -> in_subframe_order h -> run new h = Ok o -> (i < j < nav_depth)%nat ->
  stored_gst (o_nav o) i = Some g -> stored_gst (o_nav o) j = Some g' -> time_of g' < time_of g.
Proof.
  intros Ho Ht Hr Hij Hi Hj. rewrite (stored_recent h) in Hi, Hj by (auto; lia).
  destruct (nth_error (rev (nav_stretches (inav_words h))) i) as [(gi, li)|] eqn:Ei; [|discriminate].
  destruct (nth_error (rev (nav_stretches (inav_words h))) j) as [(gj, lj)|] eqn:Ej; [|discriminate].
  cbn in Hi, Hj. injection Hi as ->. injection Hj as ->.
  assert (Hlj : (j < length (nav_stretches (inav_words h)))%nat).
  { rewrite <- rev_length. apply nth_error_Some. congruence. }
  rewrite nth_error_rev_length in Ei, Ej by lia.
  eapply stretches_increasing with (5 := Ej) (4 := Ei); [now apply inav_words_sorted| |lia].
  intros w Hw. now apply (fed_ok h).
Qed.

Lemma min_age_newest e : min_age e = newest_word e. Proof. reflexivity. Qed.

(** What the getter returns. *)
Theorem getter_some h o k svn d : Forall op_ok h -> run new h = Ok o -> getter k o svn = Ok (Some d) ->
  exists j e g, (j < nav_depth)%nat /\ stored k (o_nav o) j svn e /\ 40 <= e_authbits e /\
    nd_data d = data_of k e /\ nd_authbits d = e_authbits e /\
    (forall j' e', (j' < j)%nat -> stored k (o_nav o) j' svn e' -> e_authbits e' < 40) /\
    stored_gst (o_nav o) j = Some g /\ add_subframes g (- newest_word e) = Ok (nd_gst d).
Proof.
  intros Ho Hr Hg. pose proof (reach_has HC HS root user slow h o Ho Hr) as Hn. destruct Hn as (hs & Hrep & Hok).
  rewrite getter_eq in Hg. unfold nav_get in Hg. rewrite (nav_get_from_spec HS k hs) in Hg by auto.
  apply abs_get_some in Hg. destruct Hg as (j & s & e & Hj & Hf & Hnew & Hd & Ha & Hgst).
  apply nth_skipn_firstn in Hj. destruct Hj as (Hjd & Hj).
  assert (Hjl : (j < length hs)%nat) by (rewrite <- rev_length; apply nth_error_Some; congruence).
  rewrite nth_error_rev_length in Hj by auto.
  destruct (stored_snap HS hs _ _ s j Hrep Hj) as (R1 & R2); [lia|auto|].
  apply find_some in Hf. destruct Hf as (Hin & Hau). apply authentic_iff in Hau. destruct Hau as (Hs & H40).
  exists j, e, (s_gst s). split; auto. split; [split; [now rewrite R1|auto]|]. split; auto.
  split; [now rewrite data_of_bits|]. split; auto. split; [|split; auto].
  intros j' e' Hj' (Hin' & Hs').
  destruct (nth_error hs (length hs - 1 - j')) as [s'|] eqn:Es'; [|apply nth_error_None in Es'; lia].
  assert (Hn' : nth_error (firstn nav_depth (skipn 0 (rev hs))) j' = Some s').
  { cbn [skipn]. rewrite nth_error_firstn_lt by lia. rewrite nth_error_rev_length by lia. exact Es'. }
  specialize (Hnew j' s' Hj' Hn'). destruct (stored_snap HS hs _ _ s' j' Hrep Es') as (R1' & _); [lia|lia|].
  rewrite R1' in Hin'. apply find_none with (x := e') in Hnew; auto.
  destruct (Z.lt_ge_cases (e_authbits e') 40); auto. exfalso.
  assert (authentic svn e' = true) by (apply authentic_iff; auto). congruence.
Qed.

Lemma abs_get_none k svn l : abs_get k svn l = Ok None -> forall s, In s l -> find (authentic svn) (s_row k s) = None.
Proof.
  induction l as [|s l IH]; cbn [abs_get]; intros H x Hx; [destruct Hx|].
  destruct (find (authentic svn) (s_row k s)) eqn:E.
  - bind_inv H. discriminate.
  - destruct Hx as [<-|Hx]; auto.
Qed.

Theorem getter_none h o k svn : Forall op_ok h -> run new h = Ok o -> getter k o svn = Ok None ->
  forall j e, (j < nav_depth)%nat -> stored k (o_nav o) j svn e -> e_authbits e < 40.
Proof.
  intros Ho Hr Hg j e Hj (Hin & Hs). pose proof (reach_has HC HS root user slow h o Ho Hr) as Hn. destruct Hn as (hs & Hrep & Hok).
  rewrite getter_eq in Hg. unfold nav_get in Hg. rewrite (nav_get_from_spec HS k hs) in Hg by auto.
  destruct (Nat.lt_ge_cases j (length hs)) as [Hlt|Hge].
  - destruct (nth_error hs (length hs - 1 - j)) as [s|] eqn:Es; [|apply nth_error_None in Es; lia].
    destruct (stored_snap HS hs _ _ s j Hrep Es) as (R & _); [lia|auto|]. rewrite R in Hin.
    assert (Hn' : nth_error (firstn nav_depth (skipn 0 (rev hs))) j = Some s).
    { cbn [skipn]. rewrite nth_error_firstn_lt by lia. rewrite nth_error_rev_length by lia. exact Es. }
    pose proof (abs_get_none _ _ _ Hg s (nth_error_In _ _ Hn')) as Hf.
    apply find_none with (x := e) in Hf; auto.
    destruct (Z.lt_ge_cases (e_authbits e) 40); auto. exfalso.
    assert (authentic svn e = true) by (apply authentic_iff; auto). congruence.
  - destruct (stored_fresh HS hs _ j Hrep) as (R & _); [lia|]. rewrite R in Hin. apply repeat_spec in Hin. subst e. discriminate.
Qed.

(** ** The reported time *)

Lemma add_subframes_time g n g' : gst_ok g -> 1 <= g_wn g -> -255 <= n <= 0 ->
  add_subframes g n = Ok g' -> time_of g' = time_of g + 30 * n.
Proof.
  intros Hg Hw Hn H. apply add_subframes_exact in H; auto; [|lia]. destruct H as (_ & _ & H & _). apply H.
  destruct g as [w t]. unfold representable, gst_ok, time_of in *. cbn [g_wn g_tow] in *. lia.
Qed.


(** The last word received, of those that the data is made of, when the data was last
    brought up to date. *)
Theorem reported_time h o k svn d : Forall op_ok h -> (forall w, In w (inav_words h) -> 1 <= g_wn (nw_gst w)) ->
  run new h = Ok o -> getter k o svn = Ok (Some d) ->
  exists a g l, nth_error (nav_stretches (inav_words h)) a = Some (g, l) /\
   (time_of (nd_gst d) = time_of g - 30 * 255 \/
    exists b g' l' w i, (b <= a)%nat /\ nth_error (nav_stretches (inav_words h)) b = Some (g', l') /\
      In w l' /\ gives_field k svn i (nd_data d) w /\
      time_of (nd_gst d) = time_of g - 30 * (Z.of_nat a - Z.of_nat b) /\
      forall c gc lc w' f, (b < c <= a)%nat -> nth_error (nav_stretches (inav_words h)) c = Some (gc, lc) ->
        In w' lc -> nw_svn w' = svn -> In f (icd_fields k) -> carries k f w' = false).
Proof.
  intros Ho Hwk Hr Hg. pose proof (run_inv HC HS root user slow h Ho _ Hr) as Hinv.
  destruct Hinv as (_ & [_ _ _ _ _ _ (hs & Hrep & Hok & Hgs & Hei)]).
  rewrite getter_eq in Hg. unfold nav_get in Hg. rewrite (nav_get_from_spec HS k hs) in Hg by auto.
  apply abs_get_some in Hg. destruct Hg as (j & s & e & Hj & Hf & Hnew & Hd & Ha & Hgst).
  apply nth_skipn_firstn in Hj. destruct Hj as (Hjd & Hj).
  assert (Hjl : (j < length hs)%nat) by (rewrite <- rev_length; apply nth_error_Some; congruence).
  rewrite nth_error_rev_length in Hj by auto. set (a := (length hs - 1 - j)%nat) in *.
  assert (Hal : (a < length hs)%nat) by (unfold a; lia). clearbody a.
  apply find_some in Hf. destruct Hf as (Hin & Hau). apply authentic_iff in Hau. destruct Hau as (Hs & H40).
  assert (Heok : entry_ok k e).
  { unfold nav_ok in Hok. rewrite Forall_forall in Hok. eapply row_ok_in; [|exact Hin]. apply Hok. eapply nth_error_In; eauto. }
  destruct (nth_error (nav_stretches (inav_words h)) a) as [(g, l)|] eqn:Ea.
  2: { exfalso. apply nth_error_None in Ea. apply (f_equal (@length _)) in Hgs. rewrite !map_length in Hgs. lia. }
  assert (Hsg : s_gst s = g).
  { assert (Hm : nth_error (map s_gst hs) a = Some (s_gst s)) by (rewrite nth_error_map, Hj; reflexivity).
    rewrite Hgs, nth_error_map, Ea in Hm. cbn in Hm. congruence. }
  assert (Hgok : gst_ok g /\ 1 <= g_wn g).
  { destruct (stretch_words _ _ _ _ Ea) as (Hl & Hlw). destruct l as [|w l]; [congruence|].
    destruct (Hlw w ltac:(now left)) as (W1 & <-). split.
    - rewrite subframe_of_eq. apply gst_subframe_ok. now apply (fed_ok h).
    - exact (Hwk w W1). }
  destruct Hgok as (Hgok & Hgw).
  rewrite Hsg in Hgst. pose proof (min_age_range k e Heok) as Hma.
  apply add_subframes_time in Hgst; auto; [|lia]. rewrite min_age_newest in *.
  exists a, g, l. split; auto.
  destruct (Z.lt_ge_cases (newest_word e) 255) as [Hlt|Hge]; [right|left; lia].
  destruct (newest_in e k Heok Hlt) as (i & Hi & Hx).
  destruct (nth_error (icd_fields k) i) as [f|] eqn:Ef; [|apply nth_error_None in Ef; rewrite nfields in Ef; lia].
  destruct (Hei a s k e Hj Hin) as [_ E2 _ E4].
  destruct (E2 svn i f (newest_word e) Hs Ef Hx Hlt) as (b & g' & l' & w & B1 & B2 & B3 & B4 & B5 & B6 & B7).
  exists b, g', l', w, i. split; auto. split; auto. split; auto. split.
  { split; auto. exists f. split; auto. split; auto. rewrite B7, Hd. now apply efield_bits. }
  split; [lia|]. intros c gc lc w' f' Hc Hgc Hw' Hsw Hf'.
  apply In_nth_error in Hf'. destruct Hf' as (i' & Hf').
  destruct (nth_error (e_age e) i') as [y|] eqn:Ey.
  2: { exfalso. apply nth_error_None in Ey. rewrite (eo_age _ _ Heok) in Ey.
       assert (nth_error (icd_fields k) i' <> None) as Hn by congruence. apply nth_error_Some in Hn. rewrite nfields in Hn. lia. }
  pose proof (newest_le e i' y Ey).
  apply (E4 svn i i' f' (newest_word e) y c gc lc w'); auto; lia.
Qed.

(** If there are no gaps between the subframes, the time is the one of the subframe of the
    last word. *)
Theorem reported_time_no_gaps h o k svn d : Forall op_ok h -> (forall w, In w (inav_words h) -> 1 <= g_wn (nw_gst w)) ->
  run new h = Ok o -> getter k o svn = Ok (Some d) ->
  (forall c g l g' l', nth_error (nav_stretches (inav_words h)) c = Some (g, l) ->
     nth_error (nav_stretches (inav_words h)) (c + 1) = Some (g', l') -> time_of g' = time_of g + 30) ->
  exists a g l, nth_error (nav_stretches (inav_words h)) a = Some (g, l) /\
   (time_of (nd_gst d) = time_of g - 30 * 255 \/
    exists b g' l' w i, (b <= a)%nat /\ nth_error (nav_stretches (inav_words h)) b = Some (g', l') /\
      In w l' /\ gives_field k svn i (nd_data d) w /\ time_of (nd_gst d) = time_of g' /\
      forall c gc lc w' f, (b < c <= a)%nat -> nth_error (nav_stretches (inav_words h)) c = Some (gc, lc) ->
        In w' lc -> nw_svn w' = svn -> In f (icd_fields k) -> carries k f w' = false).
Proof.
  intros Ho Hwk Hr Hg Hgap. destruct (reported_time h o k svn d Ho Hwk Hr Hg) as (a & g & l & Ha & Hc).
  exists a, g, l. split; auto. destruct Hc as [Hc|(b & g' & l' & w & i & B1 & B2 & B3 & B4 & B5 & B6)]; [now left|right].
  exists b, g', l', w, i. repeat (split; auto). rewrite B5.
  enough (Ht : time_of g = time_of g' + 30 * (Z.of_nat a - Z.of_nat b)) by lia.
  assert (Hgen : forall m g1 l1, nth_error (nav_stretches (inav_words h)) (b + m) = Some (g1, l1) ->
    time_of g1 = time_of g' + 30 * Z.of_nat m).
  { induction m as [|m IH]; intros g1 l1 Hm.
    - rewrite Nat.add_0_r, B2 in Hm. injection Hm as <- <-. lia.
    - destruct (nth_error (nav_stretches (inav_words h)) (b + m)) as [(g0, l0)|] eqn:E0.
      + rewrite (Hgap (b + m)%nat g0 l0 g1 l1 E0) by (rewrite <- Hm; f_equal; lia). rewrite (IH g0 l0 eq_refl). lia.
      + exfalso. apply nth_error_None in E0. assert (nth_error (nav_stretches (inav_words h)) (b + Datatypes.S m) <> None) as Hn by congruence.
        apply nth_error_Some in Hn. lia. }
  rewrite (Hgen (a - b)%nat g l) by (rewrite <- Ha; f_equal; lia). lia.
Qed.

End Crypto.

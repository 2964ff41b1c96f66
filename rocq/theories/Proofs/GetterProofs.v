(** What the getters return, from the invariant of the receiver. *)
From Coq Require Import ZArith List Bool Lia ZifyBool ZifyNat Sorted.
From Verif Require Import Model.Prelude Model.Params Model.Gst Model.Svn Model.Bitfields
  Model.Tesla Model.Merkle Model.Nav Model.Osnma
  Spec.TimeSpec Spec.CollectSpec Spec.NavSpec Spec.TeslaSpec Spec.KrootSpec Spec.SystemSpec
  Proofs.Base Proofs.GstProofs Proofs.NavProofs Proofs.EntryProofs Proofs.NavInv
  Proofs.NavHistory Proofs.SystemProofs.
Import ListNotations.
Open Scope Z_scope.

Lemma total_concat ts : total ts = Z.of_nat (length (concat ts)).
Proof.
  unfold total. f_equal. induction ts as [|t ts IH]; [reflexivity|].
  cbn [map list_sum fold_right concat]. rewrite app_length. unfold list_sum in IH. rewrite IH. reflexivity.
Qed.

(** ** Stretches *)

Lemma push_nword_concat gs w : concat (map snd (push_nword gs w)) = concat (map snd gs) ++ [w].
Proof.
  unfold push_nword. destruct (rev gs) as [|(g, l) older] eqn:E.
  - apply (f_equal (@rev _)) in E. rewrite rev_involutive in E. subst. reflexivity.
  - apply (f_equal (@rev _)) in E. rewrite rev_involutive in E. cbn [rev] in E. subst gs.
    destruct (gst_eqb g (subframe_of (nw_gst w))).
    + rewrite !map_app, !concat_app. cbn [map concat snd]. now rewrite !app_nil_r, app_assoc.
    + rewrite !map_app, !concat_app. cbn [map concat snd]. now rewrite !app_nil_r.
Qed.

Lemma stretches_concat ws : concat (map snd (nav_stretches ws)) = ws.
Proof.
  induction ws as [|w ws IH] using rev_ind; [reflexivity|].
  rewrite nav_stretches_snoc, push_nword_concat, IH. reflexivity.
Qed.

Lemma stretch_words ws a g l : nth_error (nav_stretches ws) a = Some (g, l) ->
  l <> [] /\ forall w, In w l -> In w ws /\ subframe_of (nw_gst w) = g.
Proof.
  revert a g l. induction ws as [|w ws IH] using rev_ind; intros a g l H.
  { destruct a; discriminate H. }
  rewrite nav_stretches_snoc in H.
  assert (Hold : forall a g l, nth_error (nav_stretches ws) a = Some (g, l) ->
    l <> [] /\ (forall x, In x l -> In x (ws ++ [w]) /\ subframe_of (nw_gst x) = g)).
  { intros a0 g0 l0 H0. destruct (IH _ _ _ H0) as (I1 & I2). split; [exact I1|].
    intros x Hx. destruct (I2 x Hx) as (J1 & J2). split; [apply in_or_app; now left|exact J2]. }
  unfold push_nword in H. destruct (rev (nav_stretches ws)) as [|(g0, l0) older] eqn:E.
  - destruct a as [|[|a]]; [|discriminate H|discriminate H]. injection H as <- <-.
    split; [discriminate|]. intros x [<-|[]]. split; [apply in_or_app; right; now left|reflexivity].
  - apply (f_equal (@rev _)) in E. rewrite rev_involutive in E. cbn [rev] in E.
    destruct (gst_eqb g0 (subframe_of (nw_gst w))) eqn:Eg.
    + apply gst_eqb_eq in Eg.
      destruct (Nat.lt_ge_cases a (length (rev older))) as [Ha|Ha].
      * rewrite nth_error_app1 in H by exact Ha. apply (Hold a). rewrite E, nth_error_app1; auto.
      * rewrite nth_error_app2 in H by exact Ha.
        destruct (a - length (rev older))%nat as [|x] eqn:Ex; [|destruct x; discriminate H].
        injection H as <- <-. split; [destruct l0; discriminate|].
        destruct (Hold (length (rev older)) g0 l0) as (_ & I2).
        { rewrite E, nth_error_app2, Nat.sub_diag by lia. reflexivity. }
        intros x Hx. apply in_app_or in Hx. destruct Hx as [Hx|[<-|[]]]; [now apply I2|].
        split; [apply in_or_app; right; now left|now symmetry].
    + destruct (Nat.lt_ge_cases a (length (nav_stretches ws))) as [Ha|Ha].
      * rewrite nth_error_app1 in H by exact Ha. now apply (Hold a).
      * rewrite nth_error_app2 in H by exact Ha.
        destruct (a - length (nav_stretches ws))%nat as [|x] eqn:Ex; [|destruct x; discriminate H].
        injection H as <- <-. split; [discriminate|]. intros x [<-|[]].
        split; [apply in_or_app; right; now left|reflexivity].
Qed.

(** ** Time order *)

Definition later (x y : op) : Prop := time_of (subframe_of (op_gst x)) <= time_of (subframe_of (op_gst y)).

Lemma in_subframe_order_cons x h : in_subframe_order (x :: h) -> in_subframe_order h /\ Forall (later x) h.
Proof.
  intros H. split.
  - intros i j a b Hij Ha Hb. apply (H (S i) (S j) a b); [lia|assumption|assumption].
  - apply Forall_forall. intros y Hy. apply In_nth_error in Hy. destruct Hy as (j & Hj).
    apply (H 0%nat (S j) x y); [lia|reflexivity|exact Hj].
Qed.
Lemma in_subframe_order_app h q : in_subframe_order (h ++ q) -> in_subframe_order h /\
  forall x y, In x h -> In y q -> later x y.
Proof.
  intros H. split.
  - intros i j a b Hij Ha Hb. apply (H i j a b); [lia| |].
    + rewrite nth_error_app1; [exact Ha|]. apply nth_error_Some. congruence.
    + rewrite nth_error_app1; [exact Hb|]. apply nth_error_Some. congruence.
  - intros x y Hx Hy. apply In_nth_error in Hx, Hy. destruct Hx as (i & Hi), Hy as (j & Hj).
    assert (i < length h)%nat by (apply nth_error_Some; congruence).
    apply (H i (length h + j)%nat); [lia| |].
    + rewrite nth_error_app1; [exact Hi|assumption].
    + rewrite nth_error_app2 by lia. now replace (length h + j - length h)%nat with j by lia.
Qed.

Definition wlater (w w' : nword) : Prop := time_of (subframe_of (nw_gst w)) <= time_of (subframe_of (nw_gst w')).
Lemma inav_words_sorted h : in_subframe_order h -> StronglySorted wlater (inav_words h).
Proof.
  induction h as [|x h IH]; intros H; [constructor|].
  apply in_subframe_order_cons in H. destruct H as (H1 & H2). specialize (IH H1).
  unfold inav_words in *. destruct x as [w svn g b|d svn g]; cbn [flat_map app]; [|exact IH].
  constructor; [exact IH|]. apply Forall_forall. intros y Hy. apply in_flat_map in Hy.
  destruct Hy as (z & Hz & Hy). rewrite Forall_forall in H2. specialize (H2 z Hz).
  destruct z as [w' svn' g' b'|]; [|destruct Hy]. destruct Hy as [<-|[]]. exact H2.
Qed.

Lemma sorted_app {A} (R : A -> A -> Prop) l l' : StronglySorted R (l ++ l') ->
  forall x y, In x l -> In y l' -> R x y.
Proof.
  induction l as [|a l IH]; intros H x y Hx Hy; [destruct Hx|].
  cbn [app] in H. inversion H as [|? ? H1 H2]; subst. destruct Hx as [<-|Hx]; [|now apply IH].
  rewrite Forall_forall in H2. apply H2. apply in_or_app. now right.
Qed.

(** Words of an earlier stretch were received earlier. *)
Lemma stretches_sorted ws a b g g' l l' : StronglySorted wlater ws -> (b < a)%nat ->
  nth_error (nav_stretches ws) a = Some (g, l) -> nth_error (nav_stretches ws) b = Some (g', l') ->
  forall w w', In w l -> In w' l' -> wlater w' w.
Proof.
  intros Hs Hab Ha Hb w w' Hw Hw'.
  destruct (nth_error_split _ _ Ha) as (p & q & E & Hp).
  rewrite <- (stretches_concat ws), E, map_app, concat_app in Hs.
  apply (sorted_app _ _ _ Hs w' w).
  - apply in_concat. exists l'. split; [|exact Hw']. apply in_map_iff. exists (g', l').
    split; [reflexivity|]. rewrite E, nth_error_app1 in Hb by lia. now apply nth_error_In in Hb.
  - cbn [map concat snd]. apply in_or_app. now left.
Qed.

Section Crypto.
Context {C : crypto} {B : build} {S : storage}.
Hypothesis HC : crypto_ok C.
Hypothesis HS : storage_ok S.
Variables (root : option (list Z)) (user : option public_key) (slow : bool).

Lemma getter_eq k o svn : getter k o svn = nav_get k (o_nav o) svn.
Proof. destruct k; reflexivity. Qed.

(** The entry that was returned. *)
Lemma abs_get_some k svn l d : abs_get k svn l = Ok (Some d) ->
  exists i s e, nth_error l i = Some s /\ find (authentic svn) (s_row k s) = Some e /\
    (forall j s', (j < i)%nat -> nth_error l j = Some s' -> find (authentic svn) (s_row k s') = None) /\
    nd_data d = message_bits k e /\ nd_authbits d = e_authbits e /\
    add_subframes (s_gst s) (- min_age e) = Ok (nd_gst d).
Proof.
  induction l as [|s l IH]; intros H; [discriminate|]. cbn [abs_get] in H.
  destruct (find (authentic svn) (s_row k s)) as [e|] eqn:E.
  - destruct (add_subframes (s_gst s) (- min_age e)) as [g|] eqn:Eg; [|discriminate H].
    cbn [bind] in H. injection H as <-. exists 0%nat, s, e. cbn [nth_error nd_data nd_authbits nd_gst].
    repeat split; auto. intros j s' Hj. lia.
  - destruct (IH H) as (i & s' & e & I1 & I2 & I3 & I4). exists (Datatypes.S i), s', e.
    cbn [nth_error]. split; [exact I1|]. split; [exact I2|]. split; [|exact I4].
    intros [|j] s'' Hj Hn; cbn [nth_error] in Hn; [now injection Hn as <-|]. apply (I3 j s''); [lia|exact Hn].
Qed.

Lemma authentic_iff svn e : authentic svn e = true <-> e_svn e = Some svn /\ 40 <= e_authbits e.
Proof.
  unfold authentic, min_authbits. rewrite andb_true_iff, has_svn_iff, Z.leb_le. reflexivity.
Qed.

Lemma getter_entry k o svn d hs : represents_nav hs (o_nav o) -> getter k o svn = Ok (Some d) ->
  exists s e, In s hs /\ In e (s_row k s) /\ e_svn e = Some svn /\ 40 <= e_authbits e /\
    nd_data d = message_bits k e /\ nd_authbits d = e_authbits e.
Proof.
  intros Hrep H. rewrite getter_eq in H. unfold nav_get in H.
  rewrite (nav_get_from_spec HS k hs _ svn nav_depth 0 Hrep) in H by lia.
  apply abs_get_some in H. destruct H as (i & s & e & H1 & H2 & _ & H3 & H4 & _).
  exists s, e. apply find_some in H2. destruct H2 as (H2 & H5). apply authentic_iff in H5.
  split; [|tauto]. cbn [skipn] in H1. apply nth_error_In in H1.
  apply in_rev. rewrite <- (firstn_skipn nav_depth (rev hs)). apply in_or_app. now left.
Qed.

Theorem returned_authenticated h o k svn d : Forall op_ok h ->
  run (osnma_new root user slow) h = Ok o -> getter k o svn = Ok (Some d) ->
  authenticated root user slow h k svn (nd_data d) (nd_authbits d).
Proof.
  intros Hops Hrun Hget. destruct (run_inv HC HS root user slow h Hops o Hrun) as (_ & Hinv).
  destruct (ri_nav _ _ _ _ _ Hinv) as (hs & Hrep & Hok & Hn).
  destruct (getter_entry _ _ _ _ _ Hrep Hget) as (s & e & H1 & H2 & H3 & H4 & -> & ->).
  apply In_nth_error in H1. destruct H1 as (a & Ha). destruct Hn as (_ & Hn).
  destruct (ei_auth _ _ _ _ _ (Hn _ _ _ _ Ha H2) _ H3) as (ts & T1 & T2).
  split; [exact H4|]. exists ts. rewrite <- total_concat. split; [exact T1|].
  now apply Forall_forall.
Qed.

(** There is at least one verified tag. *)
Lemma authenticated_some h k svn bits n : authenticated root user slow h k svn bits n ->
  exists tag, verified root user slow h k svn bits tag.
Proof.
  intros (Hn & ts & E & H). destruct ts as [|t ts]; [cbn [concat length] in E; lia|].
  exists t. apply H. now left.
Qed.

Lemma nav_seen_received ws k svn bits g cop i : nav_seen ws k svn bits g cop ->
  (i < length (icd_fields k))%nat -> exists w, In w ws /\ gives_field k svn i bits w.
Proof.
  intros (a & l & _ & H) Hi. destruct (H i Hi) as (b & g' & l' & w & _ & _ & Hb & Hw & Hf).
  exists w. split; [|exact Hf]. now apply (proj2 (stretch_words _ _ _ _ Hb)).
Qed.

Theorem returned_received h o k svn d i : Forall op_ok h ->
  run (osnma_new root user slow) h = Ok o -> getter k o svn = Ok (Some d) ->
  (i < length (icd_fields k))%nat ->
  exists w, In w (inav_words h) /\ gives_field k svn i (nd_data d) w.
Proof.
  intros Hops Hrun Hget Hi.
  destruct (authenticated_some _ _ _ _ _ (returned_authenticated _ _ _ _ _ Hops Hrun Hget))
    as (tag & h1 & h2 & -> & adkd & delay & cop & prna & gn & g & key & Hv & _).
  destruct Hv as (x1 & x2 & x3 & x4 & x5 & Hv).
  decompose [and] Hv.
  match goal with H : nav_seen _ _ _ _ _ _ |- _ =>
    destruct (nav_seen_received _ _ _ _ _ _ i H Hi) as (w & W1 & W2) end.
  exists w. split; [|exact W2]. rewrite inav_words_app. apply in_or_app. now left.
Qed.

(** ** Disclosure delay *)

Lemma last_time h0 x : in_subframe_order (h0 ++ [x]) ->
  forall y, In y (h0 ++ [x]) -> time_of (subframe_of (op_gst y)) <= time_of (subframe_of (op_gst x)).
Proof.
  intros H y Hy. apply in_app_or in Hy. destruct Hy as [Hy|[<-|[]]]; [|lia].
  apply (proj2 (in_subframe_order_app _ _ H)); [exact Hy|now left].
Qed.

Lemma osnma_words_in h w : In w (osnma_words h) -> exists x, In x h /\ op_gst x = w_gst w.
Proof.
  unfold osnma_words. intros H. apply in_flat_map in H. destruct H as (x & Hx & H).
  exists x. split; [exact Hx|]. destruct x as [|d svn g]; [destruct H|].
  destruct (forallb (Z.eqb 0) d); [destruct H|]. destruct H as [<-|[]]. reflexivity.
Qed.
Lemma inav_words_in h w : In w (inav_words h) -> exists x, In x h /\ op_gst x = nw_gst w.
Proof.
  unfold inav_words. intros H. apply in_flat_map in H. destruct H as (x & Hx & H).
  exists x. split; [exact Hx|]. destruct x as [wd svn g b|]; [|destruct H].
  destruct H as [<-|[]]. reflexivity.
Qed.

Lemma subframe_of_time g : time_of (subframe_of g) <= time_of g < time_of (subframe_of g) + 30.
Proof.
  unfold subframe_of, time_of. cbn [g_wn g_tow].
  pose proof (Z.div_mod (g_tow g) 30 ltac:(lia)). pose proof (Z.mod_pos_bound (g_tow g) 30 ltac:(lia)). lia.
Qed.
Lemma subframe_of_aligned g : gst_ok g -> subframe_start (time_of (subframe_of g)).
Proof.
  intros _. unfold subframe_start, time_of, subframe_of. cbn [g_wn g_tow].
  exists (20160 * g_wn g + g_tow g / 30). lia.
Qed.

Lemma subsequence_in {A} (s l : list A) x : subsequence s l -> In x s -> In x l.
Proof.
  induction 1 as [l|y l1 l2 H IH|y l1 l2 H IH]; intros Hx; [destruct Hx| |].
  - destruct Hx as [<-|Hx]; [now left|right; auto].
  - right; auto.
Qed.

Lemma gst_time_bound g : gst_ok g -> 0 <= time_of g < 65536 * 604800.
Proof. unfold gst_ok, time_of. lia. Qed.

Theorem verified_time_order h k svn bits tag : Forall op_ok h -> in_subframe_order h ->
  verified root user slow h k svn bits tag -> verified_in_time root user h k svn bits tag.
Proof.
  intros Hops Hord (h1 & h2 & -> & adkd & delay & cop & prna & gn & g & key & Hv & _).
  exists h1, h2, adkd, delay, cop, prna, gn, g, key. split; [reflexivity|]. split; [exact Hv|].
  apply Forall_app in Hops. destruct Hops as (Hops & _).
  apply in_subframe_order_app in Hord. destruct Hord as (Hord & _).
  destruct Hv as (prnk & hkk & mkk & hk & mk & (h0 & d & gk & -> & Hgk) & V1 & _ & V2 & V3 & V4 & V5 & _ & _ & _ & V6 & V7 & V8).
  set (x := FeedOsnma d prnk gk) in *. pose proof (last_time _ _ Hord) as Hlast.
  change (op_gst x) with gk in Hlast. rewrite Hgk in Hlast.
  destruct (subframe_received_bytes _ _ _ _ _ Hops V1) as (_ & _ & Hkg & Hks & _).
  destruct (subframe_received_bytes _ _ _ _ _ Hops V5) as (_ & _ & Hgg & Hgs & _).
  pose proof (subframe_of_time gk) as Ht. rewrite Hgk in Ht.
  apply is_subframe_start in Hks, Hgs. destruct Hks as (nk & Hnk), Hgs as (ng & Hng).
  (* the subframe of the tag is not after the one of the key *)
  assert (Hg : time_of g <= time_of (k_gst key)).
  { destruct V5 as (ws & (Hl & Hsub & _) & Hsf & _).
    destruct ws as [|w ws]; [discriminate Hl|].
    assert (Hw : In w (osnma_words (h0 ++ [x]))) by (apply (subsequence_in _ _ _ Hsub); now left).
    destruct (osnma_words_in _ _ Hw) as (y & Hy & Ey). specialize (Hlast y Hy). rewrite Ey in Hlast.
    specialize (Hsf w (or_introl eq_refl)). rewrite Hsf in Hlast. exact Hlast. }
  destruct V8 as (a & l & Ha & Hf).
  destruct (stretch_words _ _ _ _ Ha) as (Hl & Hw).
  assert (Hgn : time_of gn <= time_of (k_gst key) + 29).
  { destruct l as [|w l]; [now elim Hl|]. destruct (Hw w (or_introl eq_refl)) as (Hw1 & Hw2).
    destruct (inav_words_in _ _ Hw1) as (y & Hy & Ey). specialize (Hlast y Hy). rewrite Ey in Hlast.
    rewrite Hw2 in Hlast. lia. }
  assert (Hdelay : delay = (if adkd =? 12 then 330 else 30)).
  { destruct V3 as [(-> & _ & ->)|[(-> & _ & ->)|(-> & _ & ->)]]; reflexivity. }
  assert (Hd : 30 <= delay <= 330) by (rewrite Hdelay; destruct (adkd =? 12); lia).
  destruct V4 as (_ & _ & V4). destruct V7 as (Hgng & _ & V7).
  apply gst_time_bound in Hkg, Hgg, Hgng.
  apply Z.mod_divide in V4; [|lia]. apply Z.mod_divide in V7; [|lia].
  destruct V4 as (q & V4), V7 as (r & V7).
  assert (Eq : q = 0) by nia. assert (Er : r = 0) by nia. subst q r.
  split; [exact Hdelay|]. split; [lia|]. split; [lia|].
  intros i Hi. destruct (Hf i Hi) as (b & g' & l' & w & Hb1 & _ & Hb & Hwl & Hgf).
  destruct (stretch_words _ _ _ _ Hb) as (_ & Hw'). destruct (Hw' w Hwl) as (Hw1 & Hw2).
  exists w. split; [exact Hw1|]. split; [exact Hgf|].
  destruct (Nat.eq_dec b a) as [->|Hba].
  - rewrite Ha in Hb. injection Hb as <- <-. pose proof (subframe_of_time (nw_gst w)) as Ht'. rewrite Hw2 in Ht'. lia.
  - destruct l as [|w' l]; [now elim Hl|].
    pose proof (stretches_sorted _ a b _ _ _ _ (inav_words_sorted _ Hord) ltac:(lia) Ha Hb w' w
                  (or_introl eq_refl) Hwl) as Hle.
    unfold wlater in Hle. destruct (Hw w' (or_introl eq_refl)) as (_ & Hw3).
    pose proof (subframe_of_time (nw_gst w)) as Ht'. rewrite Hw3 in Hle. lia.
Qed.

(** ** Slow MAC *)

Lemma verified_slow h k svn bits tag : verified root user true h k svn bits tag ->
  k = Ced /\ exists h1 h2 cop prna gn g key, h = h1 ++ h2 /\
    verified_by root user h1 k svn bits tag 12 330 cop prna gn g key.
Proof.
  intros (h1 & h2 & -> & adkd & delay & cop & prna & gn & g & key & Hv & Hs). specialize (Hs eq_refl).
  subst adkd. pose proof Hv as (x1 & x2 & x3 & x4 & x5 & _ & _ & _ & _ & Hm & _).
  destruct Hm as [(Hm & _)|[(Hm & _)|(_ & -> & ->)]]; [discriminate Hm|discriminate Hm|].
  split; [reflexivity|]. exists h1, h2, cop, prna, gn, g, key. split; [reflexivity|exact Hv].
Qed.
End Crypto.

(** What is in the navigation data storage comes from the words that were fed and from
    verified tags. *)
From Coq Require Import ZArith List Bool Lia ZifyBool ZifyNat.
From Verif Require Import Model.Prelude Model.Params Model.Gst Model.Svn Model.Bitfields
  Model.Tesla Model.Nav Model.Osnma Spec.TimeSpec Spec.CollectSpec Spec.NavSpec Spec.SystemSpec
  Proofs.Base Proofs.Ring Proofs.Rows Proofs.GstProofs Proofs.MackProofs
  Proofs.NavProofs Proofs.EntryProofs Proofs.NavInv Proofs.TagProofs.
Import ListNotations.
Open Scope Z_scope.

(** ** Stretches *)

Definition adjust_stretch (gs : list (gst * list nword)) (g : gst) : list (gst * list nword) :=
  match rev gs with
  | (g0, _) :: _ => if gst_eqb g0 g then gs else gs ++ [(g, [])]
  | [] => [(g, [])]
  end.
Definition add_to_last (gs : list (gst * list nword)) (w : nword) : list (gst * list nword) :=
  map_last (fun x => (fst x, snd x ++ [w])) gs.

Lemma push_nword_split gs w :
  push_nword gs w = add_to_last (adjust_stretch gs (subframe_of (nw_gst w))) w.
Proof.
  unfold push_nword, adjust_stretch, add_to_last.
  destruct (rev gs) as [|(g, l) older] eqn:E.
  - reflexivity.
  - assert (Hgs : gs = rev older ++ [(g, l)]).
    { rewrite <- (rev_involutive gs), E. reflexivity. }
    destruct (gst_eqb g (subframe_of (nw_gst w))) eqn:Eg.
    + rewrite Hgs. rewrite map_last_snoc. reflexivity.
    + rewrite map_last_snoc. reflexivity.
Qed.

Lemma nav_stretches_snoc ws w : nav_stretches (ws ++ [w]) = push_nword (nav_stretches ws) w.
Proof. unfold nav_stretches. rewrite fold_left_app. reflexivity. Qed.

Lemma subframe_of_eq g : subframe_of g = gst_subframe g.
Proof.
  destruct g as [wg tg]. unfold subframe_of, gst_subframe, secs_per_subframe. cbn [g_wn g_tow].
  f_equal. lia.
Qed.

(** ** Fields *)

Lemma field_start_foff k i : (i <= kind_words k)%nat -> field_start k i = foff k i.
Proof.
  intros H. destruct k; cbn [kind_words] in H;
    repeat (destruct i as [|i]; [reflexivity|]); lia.
Qed.

Lemma efield_bits k i e : (i < kind_words k)%nat -> efield k i e = field_bits k i (message_bits k e).
Proof.
  intros H. unfold efield, field_bits, message_bits. rewrite !field_start_foff by lia.
  destruct (nth_error (icd_fields k) i) as [f|] eqn:Ef.
  2: { apply nth_error_None in Ef. rewrite nfields in Ef. lia. }
  destruct (field_width _ _ _ Ef) as (_ & H1 & _ & _ & H2 & _).
  apply nth_error_ext. intros j. rewrite !nth_error_sub.
  destruct (j <? foff k (i + 1) - foff k i)%nat eqn:Ej; [|reflexivity].
  replace (foff k i + j <? kind_bits k - 0)%nat with true by lia. reflexivity.
Qed.

Section Storage.
Context {S : storage}.
Hypothesis HS : storage_ok S.

Section Inv.
(** [V k svn bits tag]: the tag was verified for this data. *)
Variable V : nav_kind -> Z -> list bool -> list bool -> Prop.

(** Authentication bits are the total size of verified tags. *)
Definition total (ts : list (list bool)) : Z := Z.of_nat (list_sum (map (@length bool) ts)).
Definition credited (k : nav_kind) (svn : Z) (e : entry) : Prop :=
  exists ts, e_authbits e = Z.min 65535 (total ts) /\ Forall (V k svn (message_bits k e)) ts.

Record entry_inv (gs : list (gst * list nword)) (a : nat) (k : nav_kind) (e : entry) : Prop := {
  ei_none : e_svn e = None -> Forall (fun x => x = 255) (e_age e);
  ei_field : forall svn i f x, e_svn e = Some svn -> nth_error (icd_fields k) i = Some f ->
    nth_error (e_age e) i = Some x -> x < 255 ->
    exists b g l w, (b <= a)%nat /\ Z.of_nat b = Z.of_nat a - x /\ nth_error gs b = Some (g, l) /\ In w l /\
      nw_svn w = svn /\ carries k f w = true /\ nw_bits w (f_from f) (f_to f) = efield k i e;
  ei_auth : forall svn, e_svn e = Some svn -> credited k svn e;
  (** Since the word of field [i], no word of field [j] came after the one recorded. *)
  ei_quiet : forall svn i j f x y b g l w, e_svn e = Some svn -> nth_error (e_age e) i = Some x -> x < 255 ->
    nth_error (icd_fields k) j = Some f -> nth_error (e_age e) j = Some y ->
    (b <= a)%nat -> Z.of_nat a - x < Z.of_nat b -> Z.of_nat a - y < Z.of_nat b ->
    nth_error gs b = Some (g, l) -> In w l -> nw_svn w = svn -> carries k f w = false
}.

Definition nav_inv (gs : list (gst * list nword)) (hs : list snap) : Prop :=
  map s_gst hs = map fst gs /\
  forall a s k e, nth_error hs a = Some s -> In e (s_row k s) -> entry_inv gs a k e.

Lemma nav_inv_length gs hs : nav_inv gs hs -> length gs = length hs.
Proof. intros (H & _). rewrite <- (map_length fst gs), <- H. apply map_length. Qed.

Lemma nav_inv_new : nav_inv [] [].
Proof. split; [reflexivity|]. intros a s k e H. destruct a; discriminate H. Qed.

Lemma entry_inv_more gs gs' a k e : entry_inv gs a k e ->
  (forall b g l, nth_error gs b = Some (g, l) -> exists l', nth_error gs' b = Some (g, l') /\ incl l l') ->
  (forall b g l', (b <= a)%nat -> nth_error gs' b = Some (g, l') ->
     exists l, nth_error gs b = Some (g, l) /\ forall w, In w l' -> In w l \/ e_svn e <> Some (nw_svn w)) ->
  entry_inv gs' a k e.
Proof.
  intros [H1 H2 H3 H4] Hm Hl. constructor; auto.
  - intros svn i f x Hs Hf Hx Hlt.
    destruct (H2 svn i f x Hs Hf Hx Hlt) as (b & g & l & w & A1 & A2 & A3 & A4 & A5).
    destruct (Hm b g l A3) as (l' & B1 & B2). exists b, g, l', w. repeat split; auto; apply A5.
  - intros svn i j f x y b g l w Hs Hx Hlt Hf Hy Hb Hbx Hby Hgs Hin Hw.
    destruct (Hl b g l Hb Hgs) as (l0 & G1 & G2).
    destruct (G2 w Hin) as [Hin0|Hne]; [|now subst svn].
    exact (H4 svn i j f x y b g l0 w Hs Hx Hlt Hf Hy Hb Hbx Hby G1 Hin0 Hw).
Qed.

Lemma entry_new_inv gs a k : entry_inv gs a k (entry_new k).
Proof.
  constructor; cbn [entry_new e_svn e_age]; try discriminate.
  intros _. apply Forall_forall. intros x Hx. now apply repeat_spec in Hx.
Qed.

Lemma age_entry_inv gs a k e : entry_inv gs a k e ->
  (forall g l, nth_error gs (a + 1) = Some (g, l) -> l = []) -> entry_inv gs (a + 1) k (age_entry e).
Proof.
  intros [H1 H2 H3 H4] Hnew. constructor; cbn [age_entry e_svn e_age e_data].
  - intros Hn. specialize (H1 Hn). rewrite Forall_forall in H1 |- *. intros x Hx.
    apply in_map_iff in Hx. destruct Hx as (y & <- & Hy). rewrite (H1 y Hy). reflexivity.
  - intros svn i f x Hs Hf Hx Hlt. rewrite nth_error_map in Hx.
    destruct (nth_error (e_age e) i) as [y|] eqn:Ey; [|discriminate]. cbn in Hx. injection Hx as <-.
    unfold sat_add_u8 in Hlt |- *.
    destruct (H2 svn i f y Hs Hf Ey) as (b & g & l & w & A1 & A2 & A3); [lia|].
    exists b, g, l, w. split; [lia|]. split; [lia|]. exact A3.
  - intros svn Hs. apply H3; auto.
  - intros svn i j f x y b g l w Hs Hx Hlt Hf Hy Hb Hbx Hby Hgs Hin Hw.
    rewrite nth_error_map in Hx, Hy.
    destruct (nth_error (e_age e) i) as [x0|] eqn:Ex; [|discriminate]. cbn in Hx. injection Hx as <-.
    destruct (nth_error (e_age e) j) as [y0|] eqn:Ey; [|discriminate]. cbn in Hy. injection Hy as <-.
    unfold sat_add_u8 in *.
    destruct (Nat.eq_dec b (a + 1)) as [->|Hne].
    { rewrite (Hnew g l Hgs) in Hin. destruct Hin. }
    apply (H4 svn i j f x0 y0 b g l w); auto; lia.
Qed.

(** Moving to another subframe. *)
Lemma adjust_inv gs hs g : nav_inv gs hs -> nav_inv (adjust_stretch gs g) (abs_adjust hs g).
Proof.
  intros Hinv. pose proof (nav_inv_length _ _ Hinv) as Hlen. destruct Hinv as (Hg & He).
  destruct hs as [|s hs _] using rev_ind.
  - destruct gs; [|discriminate Hlen]. unfold adjust_stretch, abs_adjust. cbn [rev]. split; [reflexivity|].
    intros a s k e Ha Hin. destruct a as [|a]; [|destruct a; discriminate Ha].
    injection Ha as <-. assert (e = entry_new k) as ->.
    { destruct k; cbn [s_row s_ced s_timing] in Hin; now apply repeat_spec in Hin. }
    apply entry_new_inv.
  - destruct gs as [|(g0, l0) gs _] using rev_ind.
    { rewrite app_length in Hlen. cbn in Hlen. lia. }
    rewrite !map_app in Hg. cbn [map fst] in Hg. apply app_inj_tail in Hg. destruct Hg as (Hg & Hg0).
    cbn [fst] in Hg0. subst g0. rewrite !app_length in Hlen. cbn [length] in Hlen.
    unfold adjust_stretch. rewrite rev_app_distr. cbn [rev app]. rewrite abs_adjust_snoc.
    destruct (gst_eqb (s_gst s) g) eqn:E.
    { split; auto. rewrite !map_app, Hg. reflexivity. }
    split.
    { rewrite !map_app, Hg. reflexivity. }
    intros a s' k e Ha Hin.
    assert (Hmono : forall b g' l, nth_error (gs ++ [(s_gst s, l0)]) b = Some (g', l) ->
      exists l', nth_error ((gs ++ [(s_gst s, l0)]) ++ [(g, [])]) b = Some (g', l') /\ incl l l').
    { intros b g' l Hb. exists l. split; [|apply incl_refl].
      rewrite nth_error_app1; auto. apply nth_error_Some. congruence. }
    assert (Hback : forall (a : nat) e b g' l', (a < length (hs ++ [s]))%nat -> (b <= a)%nat ->
      nth_error ((gs ++ [(s_gst s, l0)]) ++ [(g, [])]) b = Some (g', l') ->
      exists l, nth_error (gs ++ [(s_gst s, l0)]) b = Some (g', l) /\ forall w, In w l' -> In w l \/ e_svn e <> Some (nw_svn w)).
    { intros a0 e0 b g' l' Ha0 Hb0 Hb. exists l'. split; auto.
      rewrite nth_error_app1 in Hb; auto. rewrite app_length in *. cbn [length] in *. lia. }
    destruct (Nat.lt_ge_cases a (length (hs ++ [s]))) as [Hlt|Hge].
    + rewrite nth_error_app1 in Ha by auto. eapply entry_inv_more; [|exact Hmono|].
      * eapply He; eauto.
      * intros b g' l' Hb. now apply (Hback a).
    + rewrite nth_error_app2 in Ha by auto. rewrite app_length in *. cbn [length] in *.
      destruct (a - (length hs + 1))%nat as [|z] eqn:Ez; [|destruct z; discriminate Ha].
      injection Ha as <-.
      assert (exists e0, In e0 (s_row k s) /\ e = age_entry e0) as (e0 & Hin0 & ->).
      { destruct k; cbn [s_row s_ced s_timing] in Hin |- *; apply in_map_iff in Hin;
          destruct Hin as (e0 & <- & Hin0); eauto. }
      replace a with (length hs + 1)%nat by lia. apply age_entry_inv.
      * eapply entry_inv_more; [|exact Hmono|].
        -- apply (He (length hs) s); auto.
           rewrite nth_error_app2 by lia. now rewrite Nat.sub_diag.
        -- intros b g' l' Hb. apply (Hback (length hs)); auto. try rewrite app_length; cbn [length]; lia.
      * intros g' l Hl. rewrite nth_error_app2 in Hl by (rewrite app_length; cbn [length]; lia).
        replace (length hs + 1 - length (gs ++ [(s_gst s, l0)]))%nat with 0%nat in Hl
          by (rewrite app_length; cbn [length]; lia).
        cbn [nth_error] in Hl. congruence.
Qed.

Lemma nw_bits_same w w' a b : nw_data w = nw_data w' -> nw_bits w a b = nw_bits w' a b.
Proof. intros H. unfold nw_bits, nw_bit. now rewrite H. Qed.

Lemma carries_same k f w w' : nw_data w = nw_data w' -> nw_band w = nw_band w' ->
  carries k f w = carries k f w'.
Proof. intros H1 H2. unfold carries, nw_type. now rewrite H1, H2. Qed.

(** Feeding a word to an entry. *)
Lemma entry_feed_inv gs g l a k word svn b gw e :
  bytes_ok 16 word -> 1 <= svn <= 36 -> entry_ok k e -> entry_inv (gs ++ [(g, l)]) a k e ->
  length gs = a ->
  entry_inv (gs ++ [(g, l ++ [mkNWord word svn gw b])]) a k (entry_feed k word svn b e).
Proof.
  intros Hw Hsvn Hok Hinv Ha. set (w := mkNWord word svn gw b).
  destruct (entry_feed_spec k word svn b e Hok Hw Hsvn) as (Hok' & Hs' & Hf' & Hsame & Hdiff).
  set (e' := entry_feed k word svn b e) in *.
  assert (Hmono : forall b g' l', nth_error (gs ++ [(g, l)]) b = Some (g', l') ->
    exists l'', nth_error (gs ++ [(g, l ++ [w])]) b = Some (g', l'') /\ incl l' l'').
  { intros b' g' l' Hb. destruct (Nat.lt_ge_cases b' (length gs)) as [Hlt|Hge].
    - rewrite nth_error_app1 in Hb |- * by auto. exists l'. split; auto. apply incl_refl.
    - rewrite nth_error_app2 in Hb |- * by auto. destruct (b' - length gs)%nat as [|z]; [|destruct z; discriminate].
      injection Hb as <- <-. exists (l ++ [w]). split; auto. apply incl_appl, incl_refl. }
  pose proof Hinv as [I1 I2' I3 I4].
  assert (I2 : forall svn i f x, e_svn e = Some svn -> nth_error (icd_fields k) i = Some f ->
    nth_error (e_age e) i = Some x -> x < 255 ->
    exists b g' l' w', (b <= a)%nat /\ Z.of_nat b = Z.of_nat a - x /\ nth_error (gs ++ [(g, l ++ [w])]) b = Some (g', l') /\
      In w' l' /\ nw_svn w' = svn /\ carries k f w' = true /\ nw_bits w' (f_from f) (f_to f) = efield k i e).
  { intros s0 i f x Hs Hf Hx Hlt.
    destruct (I2' s0 i f x Hs Hf Hx Hlt) as (b0 & g0 & l0 & w0 & A1 & A2 & A3 & A4 & A5).
    destruct (Hmono b0 g0 l0 A3) as (l' & B1 & B2). exists b0, g0, l', w0. repeat split; auto; apply A5. }
  destruct (entry_select_svn_spec svn e) as (_ & _ & Sel1 & Sel2 & Sel3).
  constructor.
  - rewrite Hs'. discriminate.
  - intros svn' i f x Hsv Hfi Hx Hlt. rewrite Hs' in Hsv. injection Hsv as <-.
    specialize (Hf' i f Hfi).
    assert (Hcar : carries k f (the_word word svn b) = carries k f w) by (apply carries_same; reflexivity).
    destruct (carries k f (the_word word svn b)) eqn:Ec.
    + destruct Hf' as (Hbits & Hage). rewrite Hage in Hx. injection Hx as <-.
      exists a, g, (l ++ [w]), w. split; [lia|]. split; [lia|]. split.
      { rewrite nth_error_app2 by lia. subst a. now rewrite Nat.sub_diag. }
      split; [apply in_or_app; right; left; auto|]. split; [reflexivity|]. split; [auto|].
      rewrite Hbits. apply nw_bits_same. reflexivity.
    + destruct Hf' as (Hbits & Hage). rewrite Hage in Hx.
      assert (Hall : (Forall (fun y => y = 255) (e_age (entry_select_svn svn e)) ->
                False)).
      { intros Hf. rewrite Forall_forall in Hf. apply nth_error_In in Hx. apply Hf in Hx. lia. }
      destruct (e_svn e) as [s0|] eqn:Es.
      * destruct (Z.eq_dec s0 svn) as [->|Hne].
        -- rewrite Sel1 in Hx by auto.
           destruct (I2 svn i f x eq_refl Hfi Hx Hlt) as (b' & g' & l' & w' & A1 & A2 & A3 & A4 & A5 & A6 & A7).
           exists b', g', l', w'. rewrite Hbits. auto 10.
        -- exfalso. apply Hall. destruct (Sel2 s0 eq_refl Hne) as (_ & ->).
           apply Forall_forall. intros y Hy. apply in_map_iff in Hy. now destruct Hy as (? & <- & _).
      * exfalso. apply Hall. destruct (Sel3 eq_refl) as (_ & ->). now apply I1.
  - intros svn' Hsv. rewrite Hs' in Hsv. injection Hsv as <-.
    destruct (list_eq_dec bool_dec (message_bits k e') (message_bits k e)) as [Heq|Hne].
    + unfold credited. rewrite (Hsame Heq), Heq.
      destruct (e_svn e) as [s0|] eqn:Es.
      * destruct (Z.eq_dec s0 svn) as [->|Hne].
        -- rewrite Sel1 by auto. apply I3. reflexivity.
        -- destruct (Sel2 s0 eq_refl Hne) as (-> & _). exists []. split; [reflexivity|constructor].
      * destruct (Sel3 eq_refl) as (-> & _). rewrite (eo_none _ _ Hok Es).
        exists []. split; [reflexivity|constructor].
    + unfold credited. rewrite (Hdiff Hne). exists []. split; [reflexivity|constructor].
  - intros svn' i j f x y b' g' l' w' Hsv Hx Hlt Hf Hy Hb Hbx Hby Hgs Hin Hw'.
    rewrite Hs' in Hsv. injection Hsv as <-.
    pose proof (Hf' j f Hf) as Hj.
    assert (Hcar : carries k f (the_word word svn b) = carries k f w) by (apply carries_same; reflexivity).
    destruct (carries k f (the_word word svn b)) eqn:Ec.
    { destruct Hj as (_ & Hage). rewrite Hage in Hy. injection Hy as <-. lia. }
    destruct Hj as (_ & Hj). rewrite Hj in Hy.
    assert (Hi : (i < kind_words k)%nat).
    { rewrite <- (eo_age _ _ Hok'). apply nth_error_Some. congruence. }
    destruct (nth_error (icd_fields k) i) as [fi|] eqn:Efi.
    2: { apply nth_error_None in Efi. rewrite nfields in Efi. lia. }
    pose proof (Hf' i fi Efi) as Hfi.
    destruct (carries k fi (the_word word svn b)) eqn:Eci.
    { destruct Hfi as (_ & Hage). rewrite Hage in Hx. injection Hx as <-. lia. }
    destruct Hfi as (_ & Hfi). rewrite Hfi in Hx.
    assert (Hall : Forall (fun y => y = 255) (e_age (entry_select_svn svn e)) -> False).
    { intros Hff. rewrite Forall_forall in Hff. apply nth_error_In in Hx. apply Hff in Hx. lia. }
    destruct (e_svn e) as [s0|] eqn:Es.
    + destruct (Z.eq_dec s0 svn) as [->|Hne].
      * rewrite Sel1 in Hx, Hy by auto.
        destruct (Nat.lt_ge_cases b' (length gs)) as [Hlb|Hgb].
        -- rewrite nth_error_app1 in Hgs by auto.
           apply (I4 svn i j f x y b' g' l' w'); auto. now rewrite nth_error_app1.
        -- assert (b' = length gs) by lia. subst b'. rewrite nth_error_app2, Nat.sub_diag in Hgs by lia.
           cbn [nth_error] in Hgs. injection Hgs as <- <-. apply in_app_or in Hin.
           destruct Hin as [Hin|[<-|[]]]; [|congruence].
           apply (I4 svn i j f x y (length gs) g l w'); auto. rewrite nth_error_app2, Nat.sub_diag by lia. reflexivity.
      * exfalso. apply Hall. destruct (Sel2 s0 eq_refl Hne) as (_ & ->).
        apply Forall_forall. intros z Hz. apply in_map_iff in Hz. now destruct Hz as (? & <- & _).
    + exfalso. apply Hall. destruct (Sel3 eq_refl) as (_ & ->). now apply I1.
Qed.

Lemma add_to_last_snoc gs g l w : add_to_last (gs ++ [(g, l)]) w = gs ++ [(g, l ++ [w])].
Proof. unfold add_to_last. rewrite map_last_snoc. reflexivity. Qed.

Lemma abs_feed_inv gs hs word svn g b :
  bytes_ok 16 word -> 1 <= svn <= 36 -> nav_ok hs -> Forall snap_ok hs -> nav_inv gs hs ->
  nav_inv (push_nword gs (mkNWord word svn g b)) (abs_feed hs word svn g b).
Proof.
  intros Hw Hsvn Hok Hsn Hinv. rewrite push_nword_split. cbn [nw_gst]. rewrite subframe_of_eq.
  unfold abs_feed. set (g' := gst_subframe g).
  pose proof (adjust_inv gs hs g' Hinv) as Hadj.
  pose proof (abs_adjust_rows_ok hs g' Hok) as Hok'.
  pose proof (abs_adjust_snaps_ok hs g' Hsn) as Hsn'.
  pose proof (nav_inv_length _ _ Hadj) as Hlen.
  destruct (abs_adjust_last hs g') as (hs1 & s & Eh & Hsg).
  rewrite Eh in *. destruct Hadj as (Hg & He).
  destruct (adjust_stretch gs g') as [|(g0, l) gs1 _] using rev_ind.
  { rewrite app_length in Hlen. cbn in Hlen. lia. }
  rewrite !map_app in Hg. cbn [map fst] in Hg. apply app_inj_tail in Hg. destruct Hg as (Hg & Hg0).
  cbn [fst] in Hg0. rewrite !app_length in Hlen. cbn [length] in Hlen.
  rewrite map_last_snoc, add_to_last_snoc. split.
  { rewrite !map_app, Hg. cbn [map feed_snap s_gst fst]. rewrite Hg0. reflexivity. }
  unfold nav_ok in Hok'. apply Forall_app in Hok'. destruct Hok' as (_ & Hrow). apply Forall_cons_iff in Hrow.
  destruct Hrow as (Hrow & _). apply Forall_app in Hsn'. destruct Hsn' as (_ & Hsl). apply Forall_cons_iff in Hsl.
  destruct Hsl as (Hsl & _).
  assert (Hmono : forall b' g'' l', nth_error (gs1 ++ [(g0, l)]) b' = Some (g'', l') ->
    exists l'', nth_error (gs1 ++ [(g0, l ++ [mkNWord word svn g b])]) b' = Some (g'', l'') /\ incl l' l'').
  { intros b' g'' l' Hb. destruct (Nat.lt_ge_cases b' (length gs1)) as [Hlt|Hge].
    - rewrite nth_error_app1 in Hb |- * by auto. exists l'. split; auto. apply incl_refl.
    - rewrite nth_error_app2 in Hb |- * by auto. destruct (b' - length gs1)%nat as [|z]; [|destruct z; discriminate].
      injection Hb as <- <-. exists (l ++ [mkNWord word svn g b]). split; auto. apply incl_appl, incl_refl. }
  intros a s' k e Ha Hin.
  destruct (Nat.lt_ge_cases a (length hs1)) as [Hlt|Hge].
  - rewrite nth_error_app1 in Ha by auto. eapply entry_inv_more; [|exact Hmono|].
    + apply (He a s'); auto. now rewrite nth_error_app1.
    + intros b' g'' l' Hb' Hg'. rewrite nth_error_app1 in Hg' by lia. exists l'. split; auto.
      rewrite nth_error_app1 by lia. exact Hg'.
  - rewrite nth_error_app2 in Ha by auto.
    destruct (a - length hs1)%nat as [|z] eqn:Ez; [|destruct z; discriminate Ha].
    injection Ha as <-. assert (Ea : a = length hs1) by lia. subst a.
    assert (Hlast : forall e0, In e0 (s_row k s) -> entry_inv (gs1 ++ [(g0, l)]) (length hs1) k e0).
    { intros e0 Hin0. apply (He (length hs1) s); auto. rewrite nth_error_app2 by lia. now rewrite Nat.sub_diag. }
    assert (Hrl : (0 < length (s_row k s))%nat).
    { rewrite (snap_row_length k s Hsl). apply HS. }
    destruct (feed_row_slot k word svn b (s_row k s) (Hrow k) Hrl) as (i & e0 & Hi & Er & Hslot).
    assert (Hin' : In e (feed_row k word svn b (s_row k s))).
    { destruct k; exact Hin. }
    rewrite Er in Hin'. apply In_nth_error in Hin'. destruct Hin' as (j & Hin').
    destruct (Nat.eq_dec j i) as [->|Hji].
    1: assert (e = entry_feed k word svn b e0) as ->.
    1: { rewrite nth_error_put1 in Hin' by (apply nth_error_Some; congruence). rewrite Nat.eqb_refl in Hin'; congruence. }
    2: rewrite nth_error_put1 in Hin' by (apply nth_error_Some; congruence).
    2: destruct (Nat.eqb_spec i j); [congruence|].
    + apply entry_feed_inv; auto.
      * apply (row_ok_in k (s_row k s)); auto. eapply nth_error_In; eauto.
      * apply Hlast. eapply nth_error_In; eauto.
      * lia.
    + eapply entry_inv_more; [|exact Hmono|].
      * apply Hlast. eapply nth_error_In; eauto.
      * intros b' g'' l' Hb' Hg'. destruct (Nat.lt_ge_cases b' (length gs1)) as [Hlb|Hgb].
        -- rewrite nth_error_app1 in Hg' |- * by auto. exists l'. auto.
        -- rewrite nth_error_app2 in Hg' |- * by auto. destruct (b' - length gs1)%nat as [|z]; [|destruct z; discriminate].
           injection Hg' as <- <-. exists l. split; auto. intros w Hw'. apply in_app_or in Hw'.
           destruct Hw' as [Hw'|[<-|[]]]; auto. right. cbn [nw_svn]. intros Hes.
           destruct Hslot as [Hs0|(Hs0 & _)].
           ++ apply Hji. destruct (Hrow k) as (_ & Hdist). exact (Hdist j i e e0 svn Hin' Hi Hes Hs0).
           ++ apply (Hs0 e); auto. eapply nth_error_In; eauto.
Qed.

(** ** Verified tags *)

Lemma total_snoc ts tag : total (ts ++ [tag]) = total ts + Z.of_nat (length tag).
Proof. unfold total. rewrite map_app, list_sum_app. cbn. lia. Qed.

Lemma bump_inv gs a k svn bits tag e : V k svn bits tag -> entry_inv gs a k e ->
  entry_inv gs a k (bump k svn bits tag e).
Proof.
  intros HV [H1 H2 H3 H4]. unfold bump.
  destruct (option_eqb Z.eqb (Some svn) (e_svn e) && bits_eqb bits (message_bits k e)) eqn:E;
    [|constructor; auto].
  apply andb_true_iff in E. destruct E as (E1 & E2). apply bits_eqb_eq in E2.
  destruct (e_svn e) as [s0|] eqn:Es; [|discriminate]. cbn [option_eqb] in E1. apply Z.eqb_eq in E1. subst s0.
  constructor; cbn [add_authbits e_svn e_age e_data e_authbits]; auto.
  - rewrite Es. discriminate.
  - intros svn' i f x Hs. rewrite Es in Hs. injection Hs as <-. apply H2; auto.
  - intros svn' Hs. rewrite Es in Hs. injection Hs as <-.
    destruct (H3 svn eq_refl) as (ts & Ht & Hf). exists (ts ++ [tag]).
    cbn [add_authbits e_authbits]. rewrite Ht, total_snoc. unfold sat_add_u16. split; [lia|].
    apply Forall_app. split; auto. constructor; auto. change (message_bits k (add_authbits tag e)) with (message_bits k e).
    now rewrite <- E2.
  - intros svn' i j f x y b g l w Hs. rewrite Es in Hs. injection Hs as <-. apply H4; auto.
Qed.

Lemma tag_step_inv gs hs hs' k svn cop gn bits tag :
  V k svn bits tag -> nav_inv gs hs -> tag_step k svn cop gn bits tag hs hs' -> nav_inv gs hs'.
Proof.
  intros HV (Hg & He) (_ & _ & _ & _ & _ & _ & _ & _ & _ & _ & ->).
  split.
  - rewrite <- Hg. unfold map_snaps. rewrite map_map. apply map_ext. intros s. destruct k; reflexivity.
  - intros a s k' e Ha Hin. unfold map_snaps in Ha. rewrite nth_error_map in Ha.
    destruct (nth_error hs a) as [s0|] eqn:Es; [|discriminate]. cbn in Ha. injection Ha as <-.
    assert (Hc : In e (s_row k' s0) \/ (k' = k /\ exists e0, In e0 (s_row k s0) /\ e = bump k svn bits tag e0)).
    { destruct k, k'; cbn [set_s_row s_row s_ced s_timing] in *; auto; right;
        (split; [reflexivity|]); apply in_map_iff in Hin; destruct Hin as (e0 & <- & Hin0); eauto. }
    destruct Hc as [Hin0|(-> & e0 & Hin0 & ->)].
    + eapply He; eauto.
    + apply bump_inv; auto. eapply He; eauto.
Qed.

(** The data of a verified tag was seen. *)
Lemma tag_step_seen ws hs hs' k svn cop gn bits tag :
  nav_ok hs -> nav_inv (nav_stretches ws) hs -> tag_step k svn cop gn bits tag hs hs' ->
  nav_seen ws k svn bits gn cop.
Proof.
  intros Hok (Hg & He) (a & s & e & Ha & Hsg & _ & Hin & Hs & -> & Hage & _).
  assert (exists l, nth_error (nav_stretches ws) a = Some (gn, l)) as (l & Hl).
  { assert (Hm : nth_error (map s_gst hs) a = Some gn) by (rewrite nth_error_map, Ha; cbn; now rewrite Hsg).
    rewrite Hg, nth_error_map in Hm. destruct (nth_error (nav_stretches ws) a) as [(g, l)|]; [|discriminate].
    cbn in Hm. injection Hm as ->. eauto. }
  exists a, l. split; [exact Hl|]. intros i Hi.
  destruct (He a s k e Ha Hin) as [_ H2 _ _].
  destruct (nth_error (icd_fields k) i) as [f|] eqn:Ef.
  2: { apply nth_error_None in Ef. lia. }
  assert (Heok : entry_ok k e).
  { apply nth_error_In in Ha. unfold nav_ok in Hok. rewrite Forall_forall in Hok.
    eapply row_ok_in; [apply (Hok s Ha k)|exact Hin]. }
  destruct (nth_error (e_age e) i) as [x|] eqn:Ex.
  2: { apply nth_error_None in Ex. rewrite (eo_age _ _ Heok) in Ex. rewrite nfields in Hi. lia. }
  assert (Hx : x <= max_age e).
  { unfold max_age. apply nth_error_In in Ex. clear - Ex. induction (e_age e) as [|y l IH]; [destruct Ex|].
    cbn [fold_right]. destruct Ex as [->|Ex]; [lia|]. specialize (IH Ex). lia. }
  destruct (H2 svn i f x Hs Ef Ex ltac:(lia)) as (b & g & l' & w & A1 & A2 & A3 & A4 & A5 & A6 & A7).
  exists b, g, l', w. split; [exact A1|]. split; [lia|]. split; [exact A3|]. split; [exact A4|].
  split; [exact A5|]. exists f. split; [exact Ef|]. split; [exact A6|]. rewrite A7.
  apply efield_bits. rewrite <- nfields. exact Hi.
Qed.

End Inv.

Lemma tag_step_nav_ok hs hs' k svn cop gn bits tag : nav_ok hs ->
  tag_step k svn cop gn bits tag hs hs' -> nav_ok hs'.
Proof.
  intros Hok (_ & _ & _ & _ & _ & _ & _ & _ & _ & _ & ->). apply map_snaps_ok; auto. apply bump_neutral.
Qed.

Lemma tag_steps_inv (V V' : nav_kind -> Z -> list bool -> list bool -> Prop)
  (Q : nav_kind -> Z -> Z -> Z -> gst -> list bool -> list bool -> Prop) ws hs hs' :
  (forall k svn bits tag, V k svn bits tag -> V' k svn bits tag) ->
  (forall k svn adkd cop gn bits tag, Q k svn adkd cop gn bits tag ->
     nav_seen ws k svn bits gn cop -> V' k svn bits tag) ->
  nav_ok hs -> nav_inv V (nav_stretches ws) hs -> tag_steps Q hs hs' ->
  nav_ok hs' /\ nav_inv V' (nav_stretches ws) hs'.
Proof.
  intros HV HQ Hok Hinv Hst. induction Hst as [hs|k svn adkd cop gn bits tag hs h1 h2 H IH HQ' Hs].
  - split; auto. destruct Hinv as (Hg & He). split; auto. intros a s k e Ha Hin.
    destruct (He a s k e Ha Hin) as [H1 H2 H3]. constructor; auto.
    intros svn Hs. destruct (H3 svn Hs) as (ts & Ht & Hf). exists ts. split; auto.
    eapply Forall_impl; [|exact Hf]. auto.
  - destruct (IH Hok Hinv) as (Ok1 & Inv1). split; [eapply tag_step_nav_ok; eauto|].
    eapply tag_step_inv; [|exact Inv1|exact Hs]. eapply HQ; [exact HQ'|]. eapply tag_step_seen; eauto.
Qed.

Lemma nav_inv_weaken (V V' : nav_kind -> Z -> list bool -> list bool -> Prop) gs hs :
  (forall k svn bits tag, V k svn bits tag -> V' k svn bits tag) -> nav_inv V gs hs -> nav_inv V' gs hs.
Proof.
  intros HV (Hg & He). split; auto. intros a s k e Ha Hin.
  destruct (He a s k e Ha Hin) as [H1 H2 H3]. constructor; auto.
  intros svn Hs. destruct (H3 svn Hs) as (ts & Ht & Hf). exists ts. split; auto.
  eapply Forall_impl; [|exact Hf]. auto.
Qed.

End Storage.

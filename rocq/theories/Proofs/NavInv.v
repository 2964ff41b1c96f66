(** Rows of entries, and what feeding and verified tags do to the recorded subframes. *)
From Coq Require Import ZArith List Bool Lia ZifyBool ZifyNat.
From Verif Require Import Model.Prelude Model.Params Model.Gst Model.Svn Model.Bitfields
  Model.Tesla Model.Nav Spec.NavSpec Proofs.Base Proofs.Ring Proofs.Rows Proofs.GstProofs Proofs.MackProofs
  Proofs.NavProofs Proofs.EntryProofs.
Import ListNotations.
Open Scope Z_scope.

(** ** Rows *)

Definition distinct (r : list entry) : Prop :=
  forall i j e e' s, nth_error r i = Some e -> nth_error r j = Some e' ->
    e_svn e = Some s -> e_svn e' = Some s -> i = j.

Definition row_ok (k : nav_kind) (r : list entry) : Prop := Forall (entry_ok k) r /\ distinct r.

Lemma row_ok_in k r e : row_ok k r -> In e r -> entry_ok k e.
Proof. intros (H & _) Hin. rewrite Forall_forall in H. auto. Qed.

Lemma fresh_row_ok {S : storage} k : row_ok k (fresh_row k).
Proof.
  unfold fresh_row. split.
  - apply Forall_forall. intros e He. apply repeat_spec in He. subst e. apply entry_new_ok.
  - intros i j e e' s Hi Hj Hs Hs'. apply nth_error_In in Hi. apply repeat_spec in Hi. subst e. discriminate.
Qed.

(** Functions that change neither the satellite nor the well-formedness. *)
Definition neutral (k : nav_kind) (f : entry -> entry) : Prop :=
  (forall e, e_svn (f e) = e_svn e) /\ (forall e, entry_ok k e -> entry_ok k (f e)).

Lemma map_row_ok k f r : neutral k f -> row_ok k r -> row_ok k (map f r).
Proof.
  intros (N1 & N2) (H1 & H2). split.
  - rewrite Forall_forall in *. intros e He. apply in_map_iff in He. destruct He as (x & <- & Hx). auto.
  - intros i j e e' s Hi Hj Hs Hs'. rewrite nth_error_map in Hi, Hj.
    destruct (nth_error r i) as [x|] eqn:Ex; [|discriminate].
    destruct (nth_error r j) as [y|] eqn:Ey; [|discriminate].
    cbn [option_map] in Hi, Hj. injection Hi as <-. injection Hj as <-. rewrite N1 in Hs, Hs'.
    eapply H2; eauto.
Qed.

Lemma age_neutral k : neutral k age_entry.
Proof. split; [reflexivity|apply age_entry_ok]. Qed.

(** The entry of a satellite in a row. *)
Lemma find_svn_some k r svn e : row_ok k r ->
  (find (has_svn svn) r = Some e <-> In e r /\ e_svn e = Some svn).
Proof.
  intros (H1 & H2). split.
  - intros H. apply find_some in H. destruct H as (Hin & Hs). apply has_svn_iff in Hs. auto.
  - intros (Hin & Hs). destruct (find (has_svn svn) r) as [x|] eqn:E.
    + apply find_some in E. destruct E as (Hx & Hxs). apply has_svn_iff in Hxs.
      apply In_nth_error in Hin. apply In_nth_error in Hx. destruct Hin as (i & Hi), Hx as (j & Hj).
      assert (i = j) by (eapply H2; eauto). subst j. congruence.
    + eapply find_none in E; eauto. assert (has_svn svn e = true) by now apply has_svn_iff. congruence.
Qed.

Lemma find_svn_none r svn : find (has_svn svn) r = None <-> (forall e, In e r -> e_svn e <> Some svn).
Proof.
  split.
  - intros H e He Hs. eapply find_none in H; eauto. apply has_svn_iff in Hs. congruence.
  - intros H. destruct (find (has_svn svn) r) as [x|] eqn:E; [|reflexivity].
    apply find_some in E. destruct E as (Hx & Hxs). apply has_svn_iff in Hxs. now apply H in Hxs.
Qed.

Lemma find_svn_map k f r svn : neutral k f ->
  find (has_svn svn) (map f r) = option_map f (find (has_svn svn) r).
Proof.
  intros (N1 & _). induction r as [|e r IH]; [reflexivity|]. cbn [map find].
  assert (has_svn svn (f e) = has_svn svn e) as -> by (unfold has_svn; now rewrite N1).
  destruct (has_svn svn e); auto.
Qed.

Lemma max_age_range k e : entry_ok k e -> 0 <= max_age e <= 255.
Proof.
  intros [_ _ H _ _ _]. unfold max_age. induction H as [|a l Ha Hl IH]; cbn [fold_right]; lia.
Qed.

Lemma min_age_range k e : entry_ok k e -> 0 <= min_age e <= 255.
Proof.
  intros [_ _ H _ _ _]. unfold min_age. induction H as [|a l Ha Hl IH]; cbn [fold_right]; lia.
Qed.

(** The slot that a satellite gets. *)
Lemma slot_spec k svn r i e : row_ok k r -> max_by_key (slot_key svn) r = Some i -> nth_error r i = Some e ->
  e_svn e = Some svn \/
  ((forall x, In x r -> e_svn x <> Some svn) /\
   (e_svn e = None \/
    ((forall x, In x r -> e_svn x <> None) /\ (forall x, In x r -> max_age x <= max_age e)))).
Proof.
  intros Hr Hm He. pose proof (max_by_key_spec _ _ _ Hm) as (x & Hx & Hle & _).
  assert (x = e) by congruence. subst x.
  assert (Hall : forall y, In y r -> slot_key svn y <= slot_key svn e)
    by (intros y Hy; apply In_nth_error in Hy; destruct Hy as (j & Hj); eauto).
  assert (Hage : forall y, In y r -> 0 <= max_age y <= 255)
    by (intros y Hy; eapply max_age_range, row_ok_in; eauto).
  pose proof (Hage e (nth_error_In _ _ He)) as Hea.
  unfold slot_key in Hall at 2. unfold slot_key in Hall.
  destruct (e_svn e) as [s|] eqn:Es; [destruct (s =? svn) eqn:Ess|].
  - left. f_equal. lia.
  - right. split.
    + intros y Hy Ey. specialize (Hall y Hy). rewrite Ey, Z.eqb_refl in Hall. lia.
    + right. split.
      * intros y Hy Ey. specialize (Hall y Hy). rewrite Ey in Hall. lia.
      * intros y Hy. specialize (Hall y Hy). destruct (e_svn y) as [s'|]; [destruct (s' =? svn)|]; lia.
  - right. split; [|left; auto].
    intros y Hy Ey. specialize (Hall y Hy). rewrite Ey, Z.eqb_refl in Hall. lia.
Qed.

Lemma feed_row_slot k word svn b r : row_ok k r -> (0 < length r)%nat ->
  exists i e, nth_error r i = Some e /\ feed_row k word svn b r = put i [entry_feed k word svn b e] r /\
    (e_svn e = Some svn \/
     ((forall x, In x r -> e_svn x <> Some svn) /\
      (e_svn e = None \/
       ((forall x, In x r -> e_svn x <> None) /\ (forall x, In x r -> max_age x <= max_age e))))).
Proof.
  intros Hr Hl. destruct (max_by_key_some svn r Hl) as (i & e & Hi & He).
  exists i, e. split; [auto|]. split; [unfold feed_row; now rewrite Hi, He|]. eapply slot_spec; eauto.
Qed.

Lemma entry_feed_svn k word svn b e : e_svn (entry_feed k word svn b e) = Some svn.
Proof.
  assert (Hc : forall a b src i e, e_svn (copy_word a b src i e) = e_svn e).
  { intros. unfold copy_word. destruct (bits_eqb _ _); reflexivity. }
  pose proof (proj1 (entry_select_svn_spec svn e)) as Hs. cbn zeta in Hs.
  destruct k; cbn [entry_feed]; unfold ced_feed, timing_feed.
  - rewrite ced_cases. repeat match goal with |- context [if ?c then _ else _] => destruct c end; rewrite ?Hc; auto.
  - rewrite timing_cases. repeat match goal with |- context [if ?c then _ else _] => destruct c end; rewrite ?Hc; auto.
Qed.

Lemma feed_row_ok k word svn b r : row_ok k r -> (0 < length r)%nat -> bytes_ok 16 word -> 1 <= svn <= 36 ->
  row_ok k (feed_row k word svn b r).
Proof.
  intros Hr Hl Hw Hs. destruct (feed_row_slot k word svn b r Hr Hl) as (i & e & He & -> & Hslot).
  pose proof (row_ok_in k r e Hr (nth_error_In _ _ He)) as Heo.
  assert (Hi : (i < length r)%nat) by (apply nth_error_Some; congruence).
  destruct Hr as (H1 & H2). split.
  - apply Forall_put; auto. constructor; [|constructor]. now apply entry_feed_spec.
  - intros a c x y s Ha Hc Hx Hy.
    rewrite nth_error_put1 in Ha, Hc by auto.
    destruct (i =? a)%nat eqn:Ea, (i =? c)%nat eqn:Ec.
    + lia.
    + exfalso. injection Ha as <-. rewrite entry_feed_svn in Hx. injection Hx as <-.
      destruct Hslot as [Hsl|(Hsl & _)].
      * assert (i = c) by (eapply H2; eauto). lia.
      * eapply Hsl; [|exact Hy]. eapply nth_error_In; eauto.
    + exfalso. injection Hc as <-. rewrite entry_feed_svn in Hy. injection Hy as <-.
      destruct Hslot as [Hsl|(Hsl & _)].
      * assert (i = a) by (eapply H2; eauto). lia.
      * eapply Hsl; [|exact Hx]. eapply nth_error_In; eauto.
    + eapply H2; eauto.
Qed.

(** The entry of the satellite that is fed. *)
Lemma feed_row_own k word svn b r : row_ok k r -> (0 < length r)%nat -> bytes_ok 16 word -> 1 <= svn <= 36 ->
  exists e, In e r /\ find (has_svn svn) (feed_row k word svn b r) = Some (entry_feed k word svn b e) /\
    match find (has_svn svn) r with
    | Some e0 => e = e0
    | None => e_svn e <> Some svn
    end.
Proof.
  intros Hr Hl Hw Hs. pose proof (feed_row_ok k word svn b r Hr Hl Hw Hs) as Hr'.
  destruct (feed_row_slot k word svn b r Hr Hl) as (i & e & He & E & Hslot).
  assert (Hi : (i < length r)%nat) by (apply nth_error_Some; congruence).
  exists e. split; [eapply nth_error_In; eauto|]. split.
  - apply (find_svn_some k); auto. split; [|apply entry_feed_svn]. rewrite E.
    apply (nth_error_In _ i). rewrite nth_error_put1 by auto. now rewrite Nat.eqb_refl.
  - destruct (find (has_svn svn) r) as [e0|] eqn:Ef.
    + apply (find_svn_some k) in Ef; auto. destruct Ef as (Hin & Hsv).
      destruct Hslot as [Hsl|(Hsl & _)]; [|exfalso; eapply Hsl; eauto].
      apply In_nth_error in Hin. destruct Hin as (j & Hj).
      destruct Hr as (_ & H2). assert (i = j) by (eapply H2; eauto). subst j. congruence.
    + rewrite find_svn_none in Ef. apply Ef. eapply nth_error_In; eauto.
Qed.

(** The entries of other satellites: kept, unless the slot is taken, which requires that the
    row is full with other satellites and that no entry is older. *)
Lemma feed_row_other k word svn b r s e : row_ok k r -> (0 < length r)%nat ->
  bytes_ok 16 word -> 1 <= svn <= 36 -> s <> svn -> find (has_svn s) r = Some e ->
  find (has_svn s) (feed_row k word svn b r) = Some e \/
  (find (has_svn s) (feed_row k word svn b r) = None /\
   (forall x, In x r -> e_svn x <> Some svn) /\ (forall x, In x r -> e_svn x <> None) /\
   (forall x, In x r -> max_age x <= max_age e)).
Proof.
  intros Hr Hl Hw Hs Hne Hf. pose proof (feed_row_ok k word svn b r Hr Hl Hw Hs) as Hr'.
  destruct (feed_row_slot k word svn b r Hr Hl) as (i & e0 & He & E & Hslot).
  assert (Hi : (i < length r)%nat) by (apply nth_error_Some; congruence).
  apply (find_svn_some k) in Hf; auto. destruct Hf as (Hin & Hsv).
  apply In_nth_error in Hin. destruct Hin as (j & Hj).
  destruct (Nat.eq_dec i j) as [->|Hij].
  - right. assert (e0 = e) by congruence. subst e0.
    destruct Hslot as [Hsl|(Hsl & [Hsl2|(Hsl2 & Hsl3)])]; try congruence.
    split; [|auto]. apply find_svn_none. intros x Hx Exs. rewrite E in Hx.
    apply In_nth_error in Hx. destruct Hx as (c & Hc). rewrite nth_error_put1 in Hc by auto.
    destruct (j =? c)%nat eqn:Ec.
    + injection Hc as <-. rewrite entry_feed_svn in Exs. congruence.
    + destruct Hr as (_ & H2). assert (c = j) by (eapply H2; eauto). lia.
  - left. apply (find_svn_some k); auto. split; auto. rewrite E.
    apply (nth_error_In _ j). rewrite nth_error_put1 by auto. now replace (i =? j)%nat with false by lia.
Qed.

(** Satellites that were not in the row do not appear. *)
Lemma feed_row_absent k word svn b r s : row_ok k r -> (0 < length r)%nat ->
  s <> svn -> find (has_svn s) r = None -> find (has_svn s) (feed_row k word svn b r) = None.
Proof.
  intros Hr Hl Hne Hf. rewrite find_svn_none in *.
  destruct (feed_row_slot k word svn b r Hr Hl) as (i & e0 & He & E & Hslot).
  intros x Hx. rewrite E in Hx. apply In_put in Hx. destruct Hx as [[<-|[]]|Hx]; auto.
  rewrite entry_feed_svn. congruence.
Qed.

(** As long as there are not more satellites than entries there is room. *)
Lemma row_room_in k r svn sats : row_ok k r -> (length sats <= length r)%nat -> In svn sats ->
  (forall x s, In x r -> e_svn x = Some s -> In s sats) ->
  (forall x, In x r -> e_svn x <> Some svn) -> exists x, In x r /\ e_svn x = None.
Proof.
  intros (H1 & H2) Hl Hs Hsub Hno.
  destruct (find (fun x => match e_svn x with None => true | _ => false end) r) as [x|] eqn:Ef.
  { apply find_some in Ef. destruct Ef as (Hin & Hx). exists x. split; auto. destruct (e_svn x); congruence. }
  exfalso.
  assert (Hall : forall x, In x r -> exists s, e_svn x = Some s).
  { intros x Hx. apply find_none with (x := x) in Ef; auto. destruct (e_svn x); [eauto|discriminate]. }
  set (val := fun x => match e_svn x with Some s => s | None => 0 end).
  assert (Hnd : NoDup (map val r)).
  { apply NoDup_nth_error. intros i j Hi Hij. rewrite map_length in Hi.
    rewrite !nth_error_map in Hij.
    destruct (nth_error r i) as [x|] eqn:Ex; [|apply nth_error_None in Ex; lia].
    destruct (nth_error r j) as [y|] eqn:Ey; [|discriminate]. cbn [option_map] in Hij.
    destruct (Hall x (nth_error_In _ _ Ex)) as (s & Es).
    destruct (Hall y (nth_error_In _ _ Ey)) as (s' & Es').
    unfold val in Hij. rewrite Es, Es' in Hij. injection Hij as <-. eapply H2; eauto. }
  assert (Hnd' : NoDup (svn :: map val r)).
  { constructor; [|exact Hnd]. intros Hin. apply in_map_iff in Hin. destruct Hin as (x & Ex & Hx).
    destruct (Hall x Hx) as (s & Es). unfold val in Ex. rewrite Es in Ex. subst s. now apply (Hno x). }
  assert (Hincl : incl (svn :: map val r) sats).
  { intros v [<-|Hv]; [exact Hs|]. apply in_map_iff in Hv. destruct Hv as (x & <- & Hx).
    destruct (Hall x Hx) as (s & Es). unfold val. rewrite Es. now apply (Hsub x). }
  apply NoDup_incl_length in Hincl; auto. cbn [length] in Hincl. rewrite map_length in Hincl. lia.
Qed.
(** With 36 entries there always is. *)
Lemma row_room k r svn : row_ok k r -> (36 <= length r)%nat -> 1 <= svn <= 36 ->
  (forall x, In x r -> e_svn x <> Some svn) -> exists x, In x r /\ e_svn x = None.
Proof.
  intros Hr Hl Hs. assert (Hit : forall s, 1 <= s <= 36 -> In s svn_iter).
  { intros s Hs'. unfold svn_iter, num_svns. apply in_map_iff. exists (Z.to_nat s). split; [lia|]. apply in_seq. lia. }
  apply (row_room_in k r svn svn_iter Hr); [exact Hl|now apply Hit|].
  intros x s Hx Es. apply Hit. exact (eo_svn _ _ (row_ok_in k r x Hr Hx) s Es).
Qed.

Lemma feed_row_other_full k word svn b r s e : row_ok k r -> (36 <= length r)%nat ->
  bytes_ok 16 word -> 1 <= svn <= 36 -> s <> svn -> find (has_svn s) r = Some e ->
  find (has_svn s) (feed_row k word svn b r) = Some e.
Proof.
  intros Hr Hl Hw Hs Hne Hf.
  destruct (feed_row_other k word svn b r s e Hr ltac:(lia) Hw Hs Hne Hf) as [H|(_ & Hno & Hfull & _)]; auto.
  destruct (row_room k r svn Hr Hl Hs Hno) as (x & Hx & Hxn). exfalso. eapply Hfull; eauto.
Qed.

(** ** Recorded subframes *)

Section Storage.
Context {S : storage}.
Hypothesis HS : storage_ok S.

Definition snap_rows_ok (s : snap) : Prop := forall k, row_ok k (s_row k s).
Definition nav_ok (hs : list snap) : Prop := Forall snap_rows_ok hs.

Lemma snap_row_length k s : snap_ok s -> length (s_row k s) = num_sats.
Proof. intros (H1 & H2). destruct k; auto. Qed.

Lemma abs_adjust_rows_ok hs g : nav_ok hs -> nav_ok (abs_adjust hs g).
Proof.
  intros H. destruct hs as [|s hs _] using rev_ind.
  - constructor; [|constructor]. intros [|]; apply fresh_row_ok.
  - rewrite abs_adjust_snoc. destruct (gst_eqb _ _); auto.
    apply Forall_app. split; auto. constructor; [|constructor].
    apply Forall_app in H. destruct H as (_ & H). inversion H as [|? ? Hs _]; subst.
    intros k. specialize (Hs k). destruct k; apply map_row_ok; auto; apply age_neutral.
Qed.

Lemma abs_adjust_snaps_ok hs g : Forall snap_ok hs -> Forall snap_ok (abs_adjust hs g).
Proof.
  intros H. destruct hs as [|s hs _] using rev_ind.
  - constructor; [|constructor]. split; apply repeat_length.
  - rewrite abs_adjust_snoc. destruct (gst_eqb _ _); auto.
    apply Forall_app. split; auto. constructor; [|constructor].
    apply Forall_app in H. destruct H as (_ & H). inversion H as [|? ? (Hs1 & Hs2) _]; subst.
    split; cbn [s_ced s_timing]; rewrite map_length; auto.
Qed.

Lemma abs_feed_ok hs word svn g b : nav_ok hs -> Forall snap_ok hs -> bytes_ok 16 word -> 1 <= svn <= 36 ->
  nav_ok (abs_feed hs word svn g b).
Proof.
  intros H Hsn Hw Hs. unfold abs_feed. destruct (nv_sizes HS) as (Hs0 & _ & _).
  pose proof (abs_adjust_rows_ok hs (gst_subframe g) H) as H1.
  pose proof (abs_adjust_snaps_ok hs (gst_subframe g) Hsn) as H2.
  destruct (abs_adjust_last hs (gst_subframe g)) as (hs' & s & E & _). rewrite E in *.
  rewrite map_last_snoc. apply Forall_app in H1, H2. destruct H1 as (H1 & H1'), H2 as (H2 & H2').
  inversion H1' as [|? ? Hr _]; subst. inversion H2' as [|? ? Hl _]; subst.
  apply Forall_app. split; auto. constructor; [|constructor].
  intros k. pose proof (snap_row_length k s Hl) as Hlen. specialize (Hr k).
  destruct k; apply feed_row_ok; auto; cbn [s_row] in Hlen; lia.
Qed.

(** ** Verified tags *)

Definition bump (k : nav_kind) (svn : Z) (bits tag : list bool) (e : entry) : entry :=
  if option_eqb Z.eqb (Some svn) (e_svn e) && bits_eqb bits (message_bits k e) then add_authbits tag e else e.

Lemma bump_neutral k svn bits tag : neutral k (bump k svn bits tag).
Proof.
  unfold bump. split; intros e.
  - destruct (_ && _); reflexivity.
  - intros [H1 H2 H3 H4 H5 H6]. destruct (option_eqb Z.eqb (Some svn) (e_svn e) && _) eqn:E; [|constructor; auto].
    constructor; cbn [add_authbits e_data e_age e_svn e_authbits]; auto.
    + unfold sat_add_u16. lia.
    + intros K. rewrite K in E. discriminate.
Qed.

Lemma map_snaps_ok k f hs : neutral k f -> nav_ok hs -> nav_ok (map_snaps k f hs).
Proof.
  intros N H. unfold nav_ok, map_snaps in *. rewrite Forall_forall in *.
  intros s Hs. apply in_map_iff in Hs. destruct Hs as (x & <- & Hx). specialize (H x Hx).
  intros k'. specialize (H k'). destruct k, k'; cbn [set_s_row s_row s_ced s_timing] in *; auto;
    apply map_row_ok; auto.
Qed.

End Storage.

(** The navigation data storage seen as the list of all the subframes ever recorded, of which
    the array keeps the last [nav_depth]. *)
From Coq Require Import ZArith List Bool Lia ZifyBool ZifyNat.
From Verif Require Import Model.Prelude Model.Params Model.Gst Model.Svn Model.Bitfields
  Model.Tesla Model.Nav Proofs.Base Proofs.Ring Proofs.Rows Proofs.GstProofs Proofs.MackProofs.
Import ListNotations.
Open Scope Z_scope.

(** A recorded subframe. *)
Record snap : Type := mkSnap { s_gst : gst; s_ced : list entry; s_timing : list entry }.
Definition s_row (k : nav_kind) (s : snap) : list entry :=
  match k with Ced => s_ced s | Timing => s_timing s end.
Definition set_s_row (k : nav_kind) (r : list entry) (s : snap) : snap :=
  match k with
  | Ced => mkSnap (s_gst s) r (s_timing s)
  | Timing => mkSnap (s_gst s) (s_ced s) r
  end.

Section Storage.
Context {S : storage}.
Hypothesis HS : storage_ok S.

Lemma nv_sizes : (0 < num_sats)%nat /\ (0 < nav_depth)%nat /\ nav_depth_sats = (num_sats * nav_depth)%nat.
Proof. destruct HS as (H1 & H2 & H3 & H4 & H5). auto. Qed.

Definition fresh_row (k : nav_kind) : list entry := repeat (entry_new k) num_sats.

Definition nv_get (n : nav) (i : nat) : option gst * (list entry * list entry) :=
  (nth i (nv_gsts n) None, (row num_sats (nv_ced n) i, row num_sats (nv_timing n) i)).
Definition of_snap (s : snap) : option gst * (list entry * list entry) :=
  (Some (s_gst s), (s_ced s, s_timing s)).
Definition nv_default : option gst * (list entry * list entry) :=
  (None, (fresh_row Ced, fresh_row Timing)).

Definition snap_ok (s : snap) : Prop := length (s_ced s) = num_sats /\ length (s_timing s) = num_sats.

Definition represents_nav (hs : list snap) (n : nav) : Prop :=
  length (nv_ced n) = (num_sats * nav_depth)%nat /\
  length (nv_timing n) = (num_sats * nav_depth)%nat /\
  length (nv_gsts n) = nav_depth /\
  nv_wp n = ((length hs - 1) mod nav_depth)%nat /\
  Forall snap_ok hs /\
  ring nav_depth nv_default (map of_snap hs) (nv_get n).

Lemma represents_nav_new : represents_nav [] nav_new.
Proof.
  destruct nv_sizes as (Hs & Hd & Hds). unfold nav_new, represents_nav.
  cbn [nv_ced nv_timing nv_gsts nv_wp length Nat.sub].
  rewrite !repeat_length, Nat.mod_0_l by lia. repeat split; auto.
  - intros [|a]; discriminate.
  - cbn [map length]. intros i Hi. unfold nv_get. cbn [nv_ced nv_timing nv_gsts].
    rewrite Hds, !row_repeat by lia. unfold nv_default, fresh_row. f_equal.
    apply nth_error_nth. apply nth_error_repeat. lia.
Qed.

(** ** Moving to another subframe *)

Definition abs_adjust (hs : list snap) (g : gst) : list snap :=
  match rev hs with
  | [] => [mkSnap g (fresh_row Ced) (fresh_row Timing)]
  | s :: _ =>
      if gst_eqb (s_gst s) g then hs
      else hs ++ [mkSnap g (map age_entry (s_ced s)) (map age_entry (s_timing s))]
  end.

Lemma abs_adjust_snoc hs s g :
  abs_adjust (hs ++ [s]) g =
  if gst_eqb (s_gst s) g then hs ++ [s]
  else (hs ++ [s]) ++ [mkSnap g (map age_entry (s_ced s)) (map age_entry (s_timing s))].
Proof. unfold abs_adjust. rewrite rev_app_distr. reflexivity. Qed.

Lemma copy_and_age_spec l from to :
  length l = (num_sats * nav_depth)%nat -> (from < nav_depth)%nat -> (to < nav_depth)%nat ->
  exists l', copy_and_age l from to = Ok l' /\ length l' = (num_sats * nav_depth)%nat /\
    forall i, (i < nav_depth)%nat -> row num_sats l' i =
      if (to =? i)%nat then map age_entry (row num_sats l from) else row num_sats l i.
Proof.
  intros Hl Hf Ht. unfold copy_and_age, row_of.
  rewrite (row_slice _ nav_depth) by auto. cbn [bind].
  pose proof (length_row num_sats nav_depth l from Hl Hf) as Hlr.
  rewrite Hlr. rewrite (row_copy num_sats nav_depth) by (auto; lia). cbn [bind].
  set (l1 := put _ _ l).
  assert (Hl1 : length l1 = (num_sats * nav_depth)%nat) by (apply length_put_row; auto).
  rewrite (row_slice _ nav_depth) by auto. cbn [bind].
  assert (Er : row num_sats l1 to = row num_sats l from)
    by (unfold l1; rewrite (row_put num_sats nav_depth) by auto; now rewrite Nat.eqb_refl).
  rewrite Er. rewrite (row_copy num_sats nav_depth) by (rewrite ?map_length; auto).
  eexists. split; [reflexivity|]. split; [apply length_put_row; rewrite ?map_length; auto|].
  intros i Hi. rewrite (row_put num_sats nav_depth) by (rewrite ?map_length; auto).
  destruct (to =? i)%nat eqn:E; [reflexivity|].
  unfold l1. rewrite (row_put num_sats nav_depth) by auto. now rewrite E.
Qed.

Lemma last_snap hs s n : represents_nav (hs ++ [s]) n ->
  (nv_wp n < nav_depth)%nat /\ nv_wp n = (length hs mod nav_depth)%nat /\
  nth_error (nv_gsts n) (nv_wp n) = Some (Some (s_gst s)) /\
  (forall k, row num_sats (nv_arr k n) (nv_wp n) = s_row k s).
Proof.
  intros (H1 & H2 & H3 & H4 & H5 & H6). destruct nv_sizes as (Hs & Hd & Hds).
  rewrite app_length in H4. cbn [length] in H4. rewrite Nat.add_sub in H4.
  pose proof (Nat.mod_upper_bound (length hs) nav_depth ltac:(lia)).
  assert (Hget : nv_get n (nv_wp n) = of_snap s).
  { destruct H6 as (H6 & _). rewrite H4. apply H6.
    - rewrite map_app, nth_error_app2 by (rewrite map_length; lia).
      rewrite map_length, Nat.sub_diag. reflexivity.
    - rewrite map_length, app_length. cbn [length]. lia. }
  unfold nv_get, of_snap in Hget. injection Hget as E1 E2 E3.
  repeat split; auto; try lia.
  - rewrite <- E1. apply nth_error_nth'. lia.
  - intros [|]; auto.
Qed.

Lemma nav_adjust_spec hs n g : represents_nav hs n ->
  exists n', nav_adjust n g = Ok n' /\ represents_nav (abs_adjust hs g) n' /\
             nv_wp n' = ((length (abs_adjust hs g) - 1) mod nav_depth)%nat.
Proof.
  intros Hrep. pose proof Hrep as (H1 & H2 & H3 & H4 & H5 & H6).
  destruct nv_sizes as (Hs & Hd & Hds). unfold nav_adjust.
  pose proof (Nat.mod_upper_bound (length hs - 1) nav_depth ltac:(lia)) as Hlt.
  destruct hs as [|s hs _] using rev_ind.
  - cbn [length Nat.sub] in *. rewrite Nat.mod_0_l in * by lia.
    destruct (index_in (nv_gsts n) (nv_wp n)) as (cur & Ecur); [lia|].
    rewrite Ecur. cbn [bind]. apply index_ok in Ecur.
    pose proof (nth_error_nth _ _ None Ecur) as Ecur'.
    assert (Hz : nv_get n 0 = nv_default).
    { destruct H6 as (_ & H6). apply H6. cbn [map length]. lia. }
    unfold nv_get, nv_default in Hz. injection Hz as Hz1 Hz2 Hz3.
    rewrite H4 in *. assert (cur = None) as -> by congruence. cbn [bind].
    rewrite set_index_in by lia. cbn [bind].
    eexists. split; [reflexivity|]. cbn [abs_adjust rev length Nat.sub nv_wp].
    split; [|auto].
    unfold represents_nav. cbn [nv_ced nv_timing nv_gsts nv_wp length Nat.sub].
    rewrite Nat.mod_0_l, length_put1 by lia.
    repeat match goal with |- _ /\ _ => split end; auto.
    + constructor; [|constructor]. split; cbn [s_ced s_timing]; apply repeat_length.
    + cbn [map]. change [of_snap (mkSnap g (fresh_row Ced) (fresh_row Timing))] with
        ([] ++ [of_snap (mkSnap g (fresh_row Ced) (fresh_row Timing))]).
      apply ring_push with (get := nv_get n); [lia|exact H6| |];
        cbn [length]; rewrite Nat.mod_0_l by lia.
      * unfold nv_get, of_snap. cbn [nv_ced nv_timing nv_gsts s_gst s_ced s_timing].
        rewrite nth_put1 by lia. rewrite H4. cbn [Nat.eqb]. now rewrite Hz2, Hz3.
      * intros i Hi Hne. unfold nv_get. cbn [nv_ced nv_timing nv_gsts].
        rewrite nth_put1 by lia. replace (nv_wp n =? i)%nat with false by lia. reflexivity.
  - destruct (last_snap hs s n Hrep) as (L1 & L2 & L3 & L4).
    pose proof (L4 Ced) as LC. pose proof (L4 Timing) as LT. cbn [nv_arr s_row] in LC, LT.
    unfold index. rewrite L3. cbn [unwrap bind]. rewrite abs_adjust_snoc.
    destruct (gst_eqb (s_gst s) g) eqn:Eg; cbn [negb bind].
    + apply gst_eqb_eq in Eg. subst g. rewrite set_index_in by lia. cbn [bind].
      assert (Eput : put (nv_wp n) [Some (s_gst s)] (nv_gsts n) = nv_gsts n).
      { apply nth_error_ext. intros j. rewrite nth_error_put1 by lia.
        destruct (nv_wp n =? j)%nat eqn:E; [|reflexivity].
        assert (nv_wp n = j) by lia. congruence. }
      rewrite Eput. exists n. split; [destruct n; reflexivity|]. auto.
    + set (wp1 := ((nv_wp n + 1) mod nav_depth)%nat).
      assert (Hwp1 : (wp1 < nav_depth)%nat) by (apply Nat.mod_upper_bound; lia).
      assert (Ewp1 : wp1 = ((length hs + 1) mod nav_depth)%nat)
        by (unfold wp1; rewrite L2; now apply mod_succ).
      destruct (copy_and_age_spec (nv_ced n) (nv_wp n) wp1) as (c & Ec & Hc1 & Hc2); auto.
      destruct (copy_and_age_spec (nv_timing n) (nv_wp n) wp1) as (t & Et & Ht1 & Ht2); auto.
      rewrite Ec, Et. cbn [bind nv_gsts nv_wp nv_ced nv_timing].
      rewrite set_index_in by lia. cbn [bind].
      eexists. split; [reflexivity|]. cbn [nv_wp].
      rewrite !app_length. cbn [length]. rewrite Nat.add_sub.
      split; [|lia]. unfold represents_nav. cbn [nv_ced nv_timing nv_gsts nv_wp].
      rewrite !app_length. cbn [length]. rewrite Nat.add_sub, length_put1 by lia.
      repeat match goal with |- _ /\ _ => split end; auto.
      * apply Forall_app. split; [auto|]. constructor; [|constructor].
        apply Forall_app in H5. destruct H5 as (_ & H5). inversion H5 as [|? ? Hsn _]; subst.
        destruct Hsn as (Hsn1 & Hsn2).
        split; cbn [s_ced s_timing]; rewrite map_length; auto.
      * rewrite map_app. cbn [map].
        assert (Hl : (length (map of_snap (hs ++ [s])) mod nav_depth = wp1)%nat)
          by (rewrite map_length, app_length; cbn [length]; auto).
        apply ring_push with (get := nv_get n); [lia|exact H6| |]; rewrite Hl.
        -- unfold nv_get, of_snap. cbn [nv_ced nv_timing nv_gsts s_gst s_ced s_timing].
           rewrite nth_put1 by lia. rewrite Nat.eqb_refl.
           rewrite Hc2, Ht2, Nat.eqb_refl by auto. now rewrite LC, LT.
        -- intros i Hi Hne. unfold nv_get. cbn [nv_ced nv_timing nv_gsts].
           rewrite nth_put1 by lia. rewrite Hc2, Ht2 by auto.
           replace (wp1 =? i)%nat with false by lia. reflexivity.
Qed.

Lemma abs_adjust_last hs g : exists hs' s, abs_adjust hs g = hs' ++ [s] /\ s_gst s = g.
Proof.
  destruct hs as [|s hs _] using rev_ind.
  - exists [], (mkSnap g (fresh_row Ced) (fresh_row Timing)). auto.
  - rewrite abs_adjust_snoc. destruct (gst_eqb (s_gst s) g) eqn:E.
    + apply gst_eqb_eq in E. eauto.
    + eexists (hs ++ [s]), _. split; [reflexivity|reflexivity].
Qed.

(** ** Feeding a word *)

Definition feed_row (k : nav_kind) (word : list Z) (svn : Z) (b : band) (r : list entry) : list entry :=
  match max_by_key (slot_key svn) r with
  | Some i => match nth_error r i with
              | Some e => put i [entry_feed k word svn b e] r
              | None => r
              end
  | None => r
  end.

Lemma max_by_key_some svn (r : list entry) : (0 < length r)%nat ->
  exists i e, max_by_key (slot_key svn) r = Some i /\ nth_error r i = Some e.
Proof.
  intros H. destruct (max_by_key_nonempty (slot_key svn) r H) as (i & Hi).
  destruct (max_by_key_spec _ _ _ Hi) as (e & He & _). eauto.
Qed.

Lemma length_feed_row k word svn b r : length (feed_row k word svn b r) = length r.
Proof.
  unfold feed_row. destruct (max_by_key _ r) as [i|]; [|reflexivity].
  destruct (nth_error r i) as [e|] eqn:E; [|reflexivity].
  apply length_put1. apply nth_error_Some. congruence.
Qed.

(** Replacing the current row of one array. *)
Lemma set_row_spec k hs s n r : represents_nav (hs ++ [s]) n -> length r = num_sats ->
  represents_nav (hs ++ [set_s_row k r s])
                 (set_nv_arr k (put (nv_wp n * num_sats) r (nv_arr k n)) n).
Proof.
  intros Hrep Hr. pose proof Hrep as (H1 & H2 & H3 & H4 & H5 & H6).
  destruct nv_sizes as (Hs & Hd & Hds).
  destruct (last_snap hs s n Hrep) as (L1 & L2 & L3 & L4).
  pose proof (L4 Ced) as LC. pose proof (L4 Timing) as LT. cbn [nv_arr s_row] in LC, LT.
  apply Forall_app in H5. destruct H5 as (H5 & H5'). inversion H5' as [|? ? Hsn _]; subst.
  destruct Hsn as (Hsn1 & Hsn2).
  rewrite map_app in H6. cbn [map] in H6.
  assert (Hgst : nth (nv_wp n) (nv_gsts n) None = Some (s_gst s)) by now apply nth_error_nth.
  rewrite app_length in H4. cbn [length] in H4.
  destruct k; unfold represents_nav; cbn [set_nv_arr nv_arr nv_ced nv_timing nv_gsts nv_wp set_s_row];
    rewrite (length_put_row num_sats nav_depth) by auto;
    rewrite app_length; cbn [length];
    repeat match goal with |- _ /\ _ => split end; auto.
  - apply Forall_app. split; [auto|]. constructor; [|constructor]. split; auto.
  - rewrite map_app. cbn [map]. eapply ring_update; [lia|exact H6| |]; rewrite map_length, <- L2.
    + unfold nv_get, of_snap. cbn [nv_ced nv_timing nv_gsts s_gst s_ced s_timing].
      rewrite (row_put num_sats nav_depth) by auto. rewrite Nat.eqb_refl. now rewrite LT, Hgst.
    + intros i Hi Hne. unfold nv_get. cbn [nv_ced nv_timing nv_gsts].
      rewrite (row_put num_sats nav_depth) by auto.
      replace (nv_wp n =? i)%nat with false by lia. reflexivity.
  - apply Forall_app. split; [auto|]. constructor; [|constructor]. split; auto.
  - rewrite map_app. cbn [map]. eapply ring_update; [lia|exact H6| |]; rewrite map_length, <- L2.
    + unfold nv_get, of_snap. cbn [nv_ced nv_timing nv_gsts s_gst s_ced s_timing].
      rewrite (row_put num_sats nav_depth) by auto. rewrite Nat.eqb_refl. now rewrite LC, Hgst.
    + intros i Hi Hne. unfold nv_get. cbn [nv_ced nv_timing nv_gsts].
      rewrite (row_put num_sats nav_depth) by auto.
      replace (nv_wp n =? i)%nat with false by lia. reflexivity.
Qed.

Lemma nv_arr_length k hs n : represents_nav hs n -> length (nv_arr k n) = (num_sats * nav_depth)%nat.
Proof. intros (H1 & H2 & _). destruct k; auto. Qed.

Lemma nav_feed_kind_spec k word svn b hs s n : represents_nav (hs ++ [s]) n ->
  exists n', nav_feed_kind k word svn b n = Ok n' /\
    represents_nav (hs ++ [set_s_row k (feed_row k word svn b (s_row k s)) s]) n'.
Proof.
  intros Hrep. destruct nv_sizes as (Hs & Hd & Hds).
  destruct (last_snap hs s n Hrep) as (L1 & L2 & L3 & L4).
  pose proof (nv_arr_length k _ _ Hrep) as Hl.
  unfold nav_feed_kind, row_of. rewrite (row_slice _ nav_depth) by auto. cbn [bind].
  pose proof (length_row num_sats nav_depth _ _ Hl L1) as Hlr. rewrite L4 in *.
  destruct (max_by_key_some svn (s_row k s)) as (i & e & Ei & Ee); [lia|].
  assert (Efr : feed_row k word svn b (s_row k s) = put i [entry_feed k word svn b e] (s_row k s))
    by (unfold feed_row; now rewrite Ei, Ee).
  rewrite Ei. cbn [unwrap bind]. unfold index. rewrite Ee. cbn [unwrap bind].
  assert (Hi : (i < length (s_row k s))%nat) by (apply nth_error_Some; congruence).
  rewrite set_index_in by auto. cbn [bind]. rewrite <- Efr.
  rewrite (row_copy num_sats nav_depth) by (rewrite ?length_feed_row; auto).
  cbn [bind]. eexists. split; [reflexivity|].
  apply set_row_spec; auto. now rewrite length_feed_row.
Qed.

(** Feeding on the abstract side. *)
Definition feed_snap (word : list Z) (svn : Z) (b : band) (s : snap) : snap :=
  mkSnap (s_gst s) (feed_row Ced word svn b (s_ced s)) (feed_row Timing word svn b (s_timing s)).
Definition map_last {A} (f : A -> A) (l : list A) : list A :=
  match rev l with [] => [] | x :: t => rev t ++ [f x] end.
Lemma map_last_snoc {A} (f : A -> A) l x : map_last f (l ++ [x]) = l ++ [f x].
Proof. unfold map_last. rewrite rev_app_distr. cbn [rev app]. now rewrite rev_involutive. Qed.

Definition abs_feed (hs : list snap) (word : list Z) (svn : Z) (g : gst) (b : band) : list snap :=
  map_last (feed_snap word svn b) (abs_adjust hs (gst_subframe g)).

Lemma nav_feed_spec hs n word svn g b : represents_nav hs n ->
  exists n', nav_feed n word svn g b = Ok n' /\ represents_nav (abs_feed hs word svn g b) n'.
Proof.
  intros Hrep. unfold nav_feed, abs_feed.
  destruct (nav_adjust_spec hs n (gst_subframe g) Hrep) as (n1 & E1 & R1 & _).
  rewrite E1. cbn [bind]. destruct (abs_adjust_last hs (gst_subframe g)) as (hs' & s & Ea & Eg).
  rewrite Ea in *. rewrite map_last_snoc.
  destruct (nav_feed_kind_spec Ced word svn b hs' s n1 R1) as (n2 & E2 & R2).
  rewrite E2. cbn [bind].
  destruct (nav_feed_kind_spec Timing word svn b _ _ n2 R2) as (n3 & E3 & R3).
  exists n3. split; [exact E3|]. exact R3.
Qed.

(** ** Adding authentication bits *)

(** Applying a function to all the entries of one kind. *)
Definition map_snaps (k : nav_kind) (f : entry -> entry) (hs : list snap) : list snap :=
  map (fun s => set_s_row k (map f (s_row k s)) s) hs.

(** Rows that were never used have no satellite and must not change. *)
Lemma map_entries_spec k f hs n : represents_nav hs n -> f (entry_new k) = entry_new k ->
  represents_nav (map_snaps k f hs) (set_nv_arr k (map f (nv_arr k n)) n).
Proof.
  intros (H1 & H2 & H3 & H4 & H5 & H6) Hf. destruct nv_sizes as (Hs & Hd & Hds).
  assert (Hlen : length (map_snaps k f hs) = length hs) by apply map_length.
  assert (Hok : Forall snap_ok (map_snaps k f hs)).
  { apply Forall_forall. intros s Hin. apply in_map_iff in Hin. destruct Hin as (s0 & <- & Hin).
    rewrite Forall_forall in H5. destruct (H5 _ Hin). destruct k; split; cbn; rewrite ?map_length; auto. }
  assert (Hnew : map f (fresh_row k) = fresh_row k).
  { unfold fresh_row. generalize num_sats. intros m. induction m as [|m IH]; [reflexivity|].
    cbn [repeat map]. now rewrite IH, Hf. }
  destruct H6 as (H6 & H7). rewrite map_length in H6, H7.
  assert (Hring : forall n', nv_gsts n' = nv_gsts n ->
     (forall i, row num_sats (nv_ced n') i = match k with Ced => map f (row num_sats (nv_ced n) i)
                                             | Timing => row num_sats (nv_ced n) i end) ->
     (forall i, row num_sats (nv_timing n') i = match k with Timing => map f (row num_sats (nv_timing n) i)
                                             | Ced => row num_sats (nv_timing n) i end) ->
     ring nav_depth nv_default (map of_snap (map_snaps k f hs)) (nv_get n')).
  { intros n' Eg Ec Et. split.
    - intros a x Ha Hl. rewrite map_length, Hlen in Hl.
      unfold map_snaps in Ha. rewrite !nth_error_map in Ha.
      destruct (nth_error hs a) as [s|] eqn:Es; [|discriminate]. cbn [option_map] in Ha.
      injection Ha as <-.
      assert (G : nv_get n (a mod nav_depth) = of_snap s)
        by (apply H6; [rewrite nth_error_map, Es; reflexivity|auto]).
      unfold nv_get, of_snap in *. injection G as G1 G2 G3.
      rewrite Eg, Ec, Et. destruct k; cbn [set_s_row s_row s_gst s_ced s_timing]; congruence.
    - intros i Hi. rewrite map_length, Hlen in Hi.
      assert (G : nv_get n i = nv_default) by (apply H7; auto).
      unfold nv_get, nv_default in *. injection G as G1 G2 G3.
      rewrite Eg, Ec, Et, G1, G2, G3. destruct k; cbn [nav_kind_rect]; rewrite ?Hnew; reflexivity. }
  unfold represents_nav. rewrite Hlen.
  destruct k; cbn [set_nv_arr nv_arr nv_ced nv_timing nv_gsts nv_wp]; rewrite map_length;
    repeat match goal with |- _ /\ _ => split end; auto;
    apply Hring; cbn [nv_ced nv_timing nv_gsts]; auto; intros i; apply row_map.
Qed.

(** ** Finding *)

Lemma find_gst_spec hs n g : represents_nav hs n -> is_subframe g = true ->
  exists r, find_gst n g = Ok r /\
    match r with
    | Some i => exists a s, nth_error hs a = Some s /\ s_gst s = g /\ (length hs <= a + nav_depth)%nat /\
                  (i = a mod nav_depth)%nat
    | None => forall a s, nth_error hs a = Some s -> (length hs <= a + nav_depth)%nat -> s_gst s <> g
    end.
Proof.
  intros (H1 & H2 & H3 & H4 & H5 & H6) Hg. destruct nv_sizes as (Hs & Hd & Hds).
  unfold find_gst, assert_. rewrite Hg. cbn [bind]. eexists. split; [reflexivity|].
  destruct (position _ _) as [i|] eqn:Ep.
  - pose proof (position_lt _ _ _ Ep) as Hi. apply position_some in Ep.
    destruct Ep as ((x & Hx & Hxg) & _).
    apply option_eqb_eq in Hxg; [|intros; apply gst_eqb_eq]. subst x.
    destruct (ring_get _ _ Hd _ _ i H6) as [(_ & H)|(a & Ha & Ham & Hal)]; [lia| |].
    + unfold nv_get, nv_default in H. injection H as H _ _.
      rewrite (nth_error_nth _ _ _ Hx) in H. discriminate.
    + rewrite nth_error_map in Ha. destruct (nth_error hs a) as [s|] eqn:Ea; [|discriminate].
      unfold nv_get, of_snap in Ha. cbn [option_map] in Ha. injection Ha as Ha1 Ha2 Ha3.
      rewrite (nth_error_nth _ _ _ Hx) in Ha1. injection Ha1 as Ha1.
      rewrite map_length in Hal. eauto 10.
  - intros a s Ha Hal Eg. rewrite position_none in Ep.
    assert (G : nv_get n (a mod nav_depth) = of_snap s).
    { destruct H6 as (H6 & _). apply H6; [rewrite nth_error_map, Ha; reflexivity|].
      rewrite map_length; auto. }
    unfold nv_get, of_snap in G. injection G as G1 _ _.
    pose proof (Nat.mod_upper_bound a nav_depth ltac:(lia)).
    assert (Hin : In (Some g) (nv_gsts n)) by (rewrite <- Eg, <- G1; apply nth_In; lia).
    apply Ep in Hin. cbn [option_eqb] in Hin. now rewrite gst_eqb_refl in Hin.
Qed.

Lemma get_row hs n a s k : represents_nav hs n -> nth_error hs a = Some s ->
  (length hs <= a + nav_depth)%nat -> row num_sats (nv_arr k n) (a mod nav_depth) = s_row k s.
Proof.
  intros (H1 & H2 & H3 & H4 & H5 & H6) Ha Hal.
  assert (G : nv_get n (a mod nav_depth) = of_snap s).
  { destruct H6 as (H6 & _). apply H6; [rewrite nth_error_map, Ha; reflexivity|].
    rewrite map_length; auto. }
  unfold nv_get, of_snap in G. injection G as _ G2 G3. destruct k; auto.
Qed.

Definition has_svn (svn : Z) (e : entry) : bool := option_eqb Z.eqb (e_svn e) (Some svn).

Lemma has_svn_iff svn e : has_svn svn e = true <-> e_svn e = Some svn.
Proof.
  unfold has_svn. destruct (e_svn e) as [s|]; cbn [option_eqb]; [|split; discriminate].
  rewrite Z.eqb_eq. split; congruence.
Qed.

Lemma find_entry_spec k hs n svn g : represents_nav hs n -> is_subframe g = true ->
  exists r, find_entry k n svn g = Ok r /\
    match r with
    | Some e => exists a s, nth_error hs a = Some s /\ s_gst s = g /\ (length hs <= a + nav_depth)%nat /\
                  find (has_svn svn) (s_row k s) = Some e
    | None => (forall a s, nth_error hs a = Some s -> (length hs <= a + nav_depth)%nat -> s_gst s <> g) \/
              exists a s, nth_error hs a = Some s /\ s_gst s = g /\ (length hs <= a + nav_depth)%nat /\
                  find (has_svn svn) (s_row k s) = None
    end.
Proof.
  intros Hrep Hg. destruct (find_gst_spec hs n g Hrep Hg) as (r & Er & Hr).
  destruct nv_sizes as (Hs & Hd & Hds).
  unfold find_entry. rewrite Er. cbn [bind]. destruct r as [i|].
  - destruct Hr as (a & s & Ha & Hsg & Hal & ->).
    pose proof (Nat.mod_upper_bound a nav_depth ltac:(lia)).
    pose proof (nv_arr_length k _ _ Hrep) as Hl.
    unfold row_of. rewrite (row_slice _ nav_depth) by auto. cbn [bind].
    rewrite (get_row hs n a s k Hrep Ha Hal). eexists. split; [reflexivity|].
    unfold find_first. fold (has_svn svn). change (fun e => option_eqb Z.eqb (e_svn e) (Some svn)) with (has_svn svn).
    destruct (find (has_svn svn) (s_row k s)) as [e|] eqn:Ef; [|right]; eauto 10.
  - exists None. split; [reflexivity|]. left. exact Hr.
Qed.

Lemma nth_error_rev_length {A} (l : list A) i : (i < length l)%nat ->
  nth_error (rev l) i = nth_error l (length l - 1 - i).
Proof.
  revert i. induction l as [|x l IH] using rev_ind; intros i Hi; [cbn in Hi; lia|].
  rewrite rev_app_distr, app_length in *. cbn [rev app length] in *.
  destruct i as [|i].
  - rewrite nth_error_app2 by lia. replace (_ - _)%nat with 0%nat by lia. reflexivity.
  - cbn [nth_error]. rewrite IH by lia. rewrite nth_error_app1 by lia. f_equal. lia.
Qed.

Section Get.
Context {B : build}.

(** The recorded subframes searched by the getters, newest first. *)
Definition authentic (svn : Z) (e : entry) : bool := has_svn svn e && (min_authbits <=? e_authbits e).

Fixpoint abs_get (k : nav_kind) (svn : Z) (l : list snap) : outcome (option nav_data) :=
  match l with
  | [] => Ok None
  | s :: l' =>
      match find (authentic svn) (s_row k s) with
      | Some e => g <- add_subframes (s_gst s) (- min_age e) ;;
                  Ok (Some (mkNavData (message_bits k e) (e_authbits e) g))
      | None => abs_get k svn l'
      end
  end.

Lemma find_fresh k svn : find (authentic svn) (fresh_row k) = None.
Proof.
  unfold fresh_row. generalize num_sats. intros m. induction m as [|m IH]; [reflexivity|].
  cbn [repeat find]. exact IH.
Qed.

Lemma nav_get_from_spec k hs n svn m j : represents_nav hs n -> (j + m = nav_depth)%nat ->
  nav_get_from k n svn (seq j m) = abs_get k svn (firstn m (skipn j (rev hs))).
Proof.
  intros Hrep. revert j. induction m as [|m IH]; intros j Hj; [reflexivity|].
  pose proof Hrep as (H1 & H2 & H3 & H4 & H5 & H6). destruct nv_sizes as (Hs & Hd & Hds).
  cbn [seq nav_get_from]. rewrite IH by lia.
  set (i := ((nav_depth + nv_wp n - j) mod nav_depth)%nat).
  assert (Hi : (i < nav_depth)%nat) by (apply Nat.mod_upper_bound; lia).
  pose proof (nv_arr_length k _ _ Hrep) as Hl.
  unfold row_of. rewrite (row_slice _ nav_depth) by auto. cbn [bind].
  destruct (Nat.lt_ge_cases j (length hs)) as [Hlt|Hge].
  - (* a recorded subframe *)
    assert (Ei : i = ((length hs - 1 - j) mod nav_depth)%nat)
      by (unfold i; rewrite H4; apply mod_back; lia).
    destruct (nth_error hs (length hs - 1 - j)) as [s|] eqn:Es;
      [|apply nth_error_None in Es; lia].
    assert (Hal : (length hs <= length hs - 1 - j + nav_depth)%nat) by lia.
    assert (Hrow : row num_sats (nv_arr k n) i = s_row k s)
      by (rewrite Ei; apply (get_row hs); auto).
    assert (Esk : skipn j (rev hs) = s :: skipn (Datatypes.S j) (rev hs)).
    { assert (Hn : nth_error (rev hs) j = Some s).
      { rewrite <- Es. rewrite <- (rev_involutive hs) at 2.
        rewrite (nth_error_rev_length (rev hs)) by (rewrite rev_length; lia).
        f_equal. rewrite rev_length. lia. }
      clear - Hn. revert j Hn. induction (rev hs) as [|x l IHl]; intros [|j] Hn; cbn in *; try discriminate.
      - congruence.
      - now apply IHl. }
    rewrite Esk. cbn [firstn abs_get]. rewrite Hrow.
    unfold find_first, authentic, has_svn.
    destruct (find _ (s_row k s)) as [e|]; [|reflexivity].
    unfold index.
    assert (Hg : nth_error (nv_gsts n) i = Some (Some (s_gst s))).
    { assert (G : nv_get n i = of_snap s).
      { destruct H6 as (H6 & _). rewrite Ei. apply H6; [rewrite nth_error_map, Es; reflexivity|].
        rewrite map_length; auto. }
      unfold nv_get, of_snap in G. injection G as G1 _ _. rewrite <- G1. apply nth_error_nth'. lia. }
    rewrite Hg. reflexivity.
  - (* never used *)
    assert (Hempty : row num_sats (nv_arr k n) i = fresh_row k).
    { assert (Hii : (length hs <= i < nav_depth)%nat).
      { unfold i. rewrite H4.
        destruct hs as [|s0 hs0].
        - cbn [length Nat.sub] in *. rewrite Nat.mod_0_l by lia. lia.
        - rewrite (Nat.mod_small (length (s0 :: hs0) - 1)) by (cbn [length] in *; lia).
          cbn [length] in *. rewrite Nat.mod_small by lia. lia. }
      destruct H6 as (_ & H6). rewrite map_length in H6. specialize (H6 i Hii).
      unfold nv_get, nv_default in H6. injection H6 as _ G2 G3. destruct k; auto. }
    rewrite Hempty. unfold find_first. fold (has_svn svn).
    change (fun e => option_eqb Z.eqb (e_svn e) (Some svn) && (min_authbits <=? e_authbits e))
      with (authentic svn).
    rewrite find_fresh.
    rewrite (skipn_all2 (n := Datatypes.S j)) by (rewrite rev_length; lia).
    rewrite (skipn_all2 (n := j)) by (rewrite rev_length; lia).
    rewrite !firstn_nil. reflexivity.
Qed.
End Get.
End Storage.

(** The MACK storage keeps the last [mack_depth] stretches of Spec/StoreSpec.v. *)
From Coq Require Import ZArith List Bool Lia ZifyBool ZifyNat.
From Verif Require Import Model.Prelude Model.Params Model.Gst Model.Bitfields Model.MackStore
  Spec.StoreSpec Proofs.Base Proofs.Ring Proofs.Rows Proofs.GstProofs.
Import ListNotations.
Open Scope Z_scope.

(** ** Stretches *)

Lemma push_item_nil x : push_item [] x = [(it_gst x, [x])].
Proof. reflexivity. Qed.

Lemma push_item_snoc gs g l x :
  push_item (gs ++ [(g, l)]) x =
  if gst_eqb g (it_gst x) then gs ++ [(g, l ++ [x])] else (gs ++ [(g, l)]) ++ [(it_gst x, [x])].
Proof. unfold push_item. rewrite rev_app_distr. cbn [rev app]. now rewrite rev_involutive. Qed.

Lemma stretches_snoc h x : stretches (h ++ [x]) = push_item (stretches h) x.
Proof. unfold stretches. now rewrite fold_left_app. Qed.

(** Everything in a stretch was stored, with the time of the stretch. *)
Lemma stretches_in h g l x : In (g, l) (stretches h) -> In x l -> In x h /\ it_gst x = g.
Proof.
  revert g l; induction h as [|y h IH] using rev_ind; intros g l Hgl Hx; [destruct Hgl|].
  rewrite stretches_snoc in Hgl.
  destruct (stretches h) as [|g0 gs _] eqn:E using rev_ind.
  - rewrite push_item_nil in Hgl. destruct Hgl as [Hgl|[]]. injection Hgl as <- <-.
    destruct Hx as [<-|[]]. split; [apply in_or_app; right; left|]; auto.
  - destruct g0 as (g0, l0). rewrite push_item_snoc in Hgl.
    assert (Hold : In (g, l) (gs ++ [(g0, l0)]) -> In x (h ++ [y]) /\ it_gst x = g).
    { intros H. destruct (IH _ _ H Hx). split; [apply in_or_app|]; auto. }
    assert (Hy : In y (h ++ [y])) by (apply in_or_app; right; left; auto).
    destruct (gst_eqb g0 (it_gst y)) eqn:Eg.
    + apply in_app_or in Hgl. destruct Hgl as [Hgl|[Hgl|[]]].
      * apply Hold. apply in_or_app; auto.
      * injection Hgl as <- <-. apply in_app_or in Hx. destruct Hx as [Hx|[<-|[]]].
        -- destruct (IH g0 l0) as (H1 & H2); auto; [apply in_or_app; right; left; auto|].
           split; [apply in_or_app|]; auto.
        -- apply gst_eqb_eq in Eg. auto.
    + apply in_app_or in Hgl. destruct Hgl as [Hgl|[Hgl|[]]]; [auto|].
      injection Hgl as <- <-. destruct Hx as [<-|[]]. auto.
Qed.

Section Storage.
Context {S : storage}.
Hypothesis HS : storage_ok S.

Lemma ms_sizes : (0 < num_sats)%nat /\ (0 < mack_depth)%nat /\ mack_depth_sats = (num_sats * mack_depth)%nat.
Proof. destruct HS as (H1 & H2 & H3 & H4 & H5). auto. Qed.

(** The row of a stretch: the first [num_sats] items in order. *)
Definition stored_of (x : item) : stored_mack := mkStored (it_message x) (it_svn x) (it_status x).
Definition row_of_items (l : list item) : list (option stored_mack) :=
  map (fun x => Some (stored_of x)) (firstn num_sats l) ++ repeat None (num_sats - length l).

Lemma length_row_of_items l : length (row_of_items l) = num_sats.
Proof. unfold row_of_items. rewrite app_length, map_length, repeat_length, firstn_length. lia. Qed.

Lemma row_of_items_position l : position is_none (row_of_items l) =
  if (length l <? num_sats)%nat then Some (length l) else None.
Proof.
  unfold row_of_items.
  assert (H : forall (k : list item) m, position is_none (map (fun x => Some (stored_of x)) k ++ repeat None m)
    = match m with O => None | _ => Some (length k) end).
  { induction k as [|x k IH]; intros m; cbn [map app].
    - destruct m; reflexivity.
    - cbn [position is_none]. rewrite IH. destruct m; reflexivity. }
  rewrite H. destruct (length l <? num_sats)%nat eqn:E.
  - rewrite firstn_all2 by lia. destruct (num_sats - length l)%nat eqn:E2; [lia|reflexivity].
  - replace (num_sats - length l)%nat with 0%nat by lia. reflexivity.
Qed.

Lemma row_of_items_snoc l x : (length l < num_sats)%nat ->
  put (length l) [Some (stored_of x)] (row_of_items l) = row_of_items (l ++ [x]).
Proof.
  intros H. unfold row_of_items. rewrite app_length. cbn [length].
  rewrite !firstn_all2 by (rewrite ?app_length; cbn [length]; lia).
  rewrite map_app. cbn [map]. replace (num_sats - length l)%nat with (Datatypes.S (num_sats - (length l + 1))) by lia.
  cbn [repeat]. unfold put. cbn [length].
  rewrite firstn_app, map_length, Nat.sub_diag, firstn_all2 by (rewrite map_length; lia).
  rewrite firstn_O, app_nil_r. rewrite skipn_app, map_length.
  rewrite skipn_all2 by (rewrite map_length; lia).
  replace (length l + 1 - length l)%nat with 1%nat by lia. cbn [app skipn].
  now rewrite <- app_assoc.
Qed.

Lemma row_of_items_full l x : (num_sats <= length l)%nat -> row_of_items (l ++ [x]) = row_of_items l.
Proof.
  intros H. unfold row_of_items. rewrite app_length. cbn [length]. rewrite firstn_app.
  replace (num_sats - length l)%nat with 0%nat by lia.
  replace (num_sats - (length l + 1))%nat with 0%nat by lia.
  cbn [firstn repeat]. rewrite !app_nil_r. reflexivity.
Qed.

Lemma row_of_items_nil : row_of_items [] = repeat None num_sats.
Proof. unfold row_of_items. rewrite firstn_nil. cbn [map app length]. now rewrite Nat.sub_0_r. Qed.

(** ** The invariant *)

Definition ms_get (st : mack_storage) (i : nat) : option gst * list (option stored_mack) :=
  (nth i (ms_gsts st) None, row num_sats (ms_macks st) i).
Definition of_stretch (x : gst * list item) : option gst * list (option stored_mack) :=
  (Some (fst x), row_of_items (snd x)).

Definition represents_ms (gs : list (gst * list item)) (st : mack_storage) : Prop :=
  length (ms_macks st) = (num_sats * mack_depth)%nat /\ length (ms_gsts st) = mack_depth /\
  ms_wp st = ((length gs - 1) mod mack_depth)%nat /\
  ring mack_depth (None, repeat None num_sats) (map of_stretch gs) (ms_get st).

Lemma nth_nth_error {A} (l : list A) i x d : nth_error l i = Some x -> nth i l d = x.
Proof. apply nth_error_nth. Qed.

Lemma represents_ms_new : represents_ms [] mack_storage_new.
Proof.
  destruct ms_sizes as (Hs & Hd & Hds).
  unfold mack_storage_new, represents_ms. cbn [ms_macks ms_gsts ms_wp length Nat.sub].
  rewrite !repeat_length, Nat.mod_0_l by lia. repeat split; auto.
  - intros [|a]; discriminate.
  - cbn [map length]. intros i Hi. unfold ms_get. cbn [ms_macks ms_gsts].
    rewrite Hds, row_repeat by lia. f_equal. apply nth_nth_error. apply nth_error_repeat. lia.
Qed.

Definition store_item (st : mack_storage) (x : item) : outcome mack_storage :=
  mack_store st (it_message x) (it_svn x) (it_gst x) (it_status x).

(** Storing at the current row, with time already right. *)
Lemma store_row st gs l x :
  length (ms_macks st) = (num_sats * mack_depth)%nat -> length (ms_gsts st) = mack_depth ->
  ms_wp st = (length gs mod mack_depth)%nat ->
  ring mack_depth (None, repeat None num_sats) (map of_stretch (gs ++ [(it_gst x, l)])) (ms_get st) ->
  exists st',
    (row <- slice (ms_macks st) (ms_wp st * num_sats) ((ms_wp st + 1) * num_sats) ;;
     match position is_none row with
     | Some i =>
         row <- set_index row i (Some (mkStored (it_message x) (it_svn x) (it_status x))) ;;
         macks <- copy_from (ms_macks st) (ms_wp st * num_sats) ((ms_wp st + 1) * num_sats) row ;;
         Ok (mkMackStorage macks (ms_gsts st) (ms_wp st))
     | None => Ok st
     end) = Ok st' /\
    represents_ms (gs ++ [(it_gst x, l ++ [x])]) st'.
Proof.
  intros Hm Hg Hwp Hr. destruct ms_sizes as (Hs & Hd & Hds).
  pose proof (Nat.mod_upper_bound (length gs) mack_depth ltac:(lia)) as Hlt.
  rewrite map_app in Hr. cbn [map] in Hr.
  assert (Hcur : ms_get st (ms_wp st) = (Some (it_gst x), row_of_items l)).
  { destruct Hr as (Hr & _). rewrite Hwp. apply Hr.
    - rewrite nth_error_app2 by (rewrite map_length; lia).
      rewrite map_length, Nat.sub_diag. reflexivity.
    - rewrite app_length, map_length. cbn [length]. lia. }
  unfold ms_get in Hcur. injection Hcur as Hcg Hcr.
  rewrite (row_slice _ mack_depth) by (auto; lia). cbn [bind]. rewrite Hcr, row_of_items_position.
  assert (Hwp' : forall y : gst * list item, ((length (gs ++ [y]) - 1) mod mack_depth = ms_wp st)%nat)
    by (intros y; rewrite app_length; cbn [length]; rewrite Nat.add_sub; auto).
  destruct (length l <? num_sats)%nat eqn:El.
  - rewrite set_index_in by (rewrite length_row_of_items; lia). cbn [bind].
    change (mkStored (it_message x) (it_svn x) (it_status x)) with (stored_of x).
    rewrite row_of_items_snoc by lia.
    rewrite (row_copy num_sats mack_depth) by (rewrite ?length_row_of_items; auto; lia). cbn [bind].
    eexists. split; [reflexivity|]. unfold represents_ms. cbn [ms_macks ms_gsts ms_wp].
    rewrite (length_put_row num_sats mack_depth) by (rewrite ?length_row_of_items; auto; lia).
    rewrite Hwp'. repeat split; auto; rewrite map_app; cbn [map].
    + eapply ring_update; [lia|exact Hr| |].
      * rewrite map_length, <- Hwp. unfold ms_get, of_stretch. cbn [ms_macks ms_gsts fst snd].
        rewrite (row_put num_sats mack_depth) by (rewrite ?length_row_of_items; auto; lia).
        rewrite Nat.eqb_refl. now rewrite Hcg.
      * intros i Hi Hne. rewrite map_length, <- Hwp in Hne. unfold ms_get. cbn [ms_macks ms_gsts].
        rewrite (row_put num_sats mack_depth) by (rewrite ?length_row_of_items; auto; lia).
        replace (ms_wp st =? i)%nat with false by lia. reflexivity.
    + eapply ring_update; [lia|exact Hr| |].
      * rewrite map_length, <- Hwp. unfold ms_get, of_stretch. cbn [ms_macks ms_gsts fst snd].
        rewrite (row_put num_sats mack_depth) by (rewrite ?length_row_of_items; auto; lia).
        rewrite Nat.eqb_refl. now rewrite Hcg.
      * intros i Hi Hne. rewrite map_length, <- Hwp in Hne. unfold ms_get. cbn [ms_macks ms_gsts].
        rewrite (row_put num_sats mack_depth) by (rewrite ?length_row_of_items; auto; lia).
        replace (ms_wp st =? i)%nat with false by lia. reflexivity.
  - exists st. split; [reflexivity|]. unfold represents_ms. rewrite Hwp'.
    split; [auto|]. split; [auto|]. split; [auto|]. rewrite map_app. cbn [map].
    unfold of_stretch at 2. cbn [fst snd]. rewrite row_of_items_full by lia. exact Hr.
Qed.

Lemma nth_put1 {A} (l : list A) i v j d : (i < length l)%nat ->
  nth j (put i [v] l) d = if (i =? j)%nat then v else nth j l d.
Proof.
  intros H. pose proof (nth_error_put1 i v l j H) as E.
  destruct (i =? j)%nat eqn:Eij.
  - now apply nth_error_nth.
  - destruct (nth_error l j) as [y|] eqn:Ey.
    + rewrite (nth_error_nth _ _ _ E). now rewrite (nth_error_nth _ _ _ Ey).
    + apply nth_error_None in E. apply nth_error_None in Ey. now rewrite !nth_overflow.
Qed.

Lemma store_item_spec gs st x :
  represents_ms gs st ->
  exists st', store_item st x = Ok st' /\ represents_ms (push_item gs x) st'.
Proof.
  intros (Hm & Hg & Hwp & Hr). destruct ms_sizes as (Hs & Hd & Hds).
  unfold store_item, mack_store, mack_adjust.
  pose proof (Nat.mod_upper_bound (length gs - 1) mack_depth ltac:(lia)) as Hlt.
  destruct (index_in (ms_gsts st) (ms_wp st)) as (cur & Ecur); [lia|].
  rewrite Ecur. cbn [bind]. apply index_ok in Ecur.
  pose proof (nth_error_nth _ _ None Ecur) as Ecur'.
  destruct gs as [|(g, l) gs _] using rev_ind.
  - (* nothing stored yet *)
    cbn [length Nat.sub] in *. rewrite Nat.mod_0_l in * by lia.
    assert (Hz : ms_get st 0 = (None, repeat None num_sats)).
    { destruct Hr as (_ & Hr). apply Hr. cbn [map length]. lia. }
    unfold ms_get in Hz. injection Hz as Hz1 Hz2.
    rewrite Hwp in *. assert (cur = None) as -> by congruence. cbn [bind].
    rewrite set_index_in by lia. cbn [bind ms_macks ms_wp].
    rewrite push_item_nil.
    set (st1 := mkMackStorage _ _ _).
    destruct (store_row st1 [] [] x) as (st' & E & Hst').
    + exact Hm.
    + unfold st1. cbn [ms_gsts]. rewrite length_put1 by lia. auto.
    + unfold st1. cbn [ms_wp length]. rewrite Nat.mod_0_l by lia. auto.
    + cbn [map app]. change [of_stretch (it_gst x, [])] with ([] ++ [of_stretch (it_gst x, [])]).
      apply ring_push with (get := ms_get st); [lia|exact Hr| |].
      * cbn [length]. rewrite Nat.mod_0_l by lia. unfold ms_get, of_stretch, st1.
        cbn [ms_gsts ms_macks fst snd]. rewrite nth_put1 by lia. rewrite Hwp. cbn [Nat.eqb].
        rewrite row_of_items_nil. now rewrite Hz2.
      * cbn [length]. rewrite Nat.mod_0_l by lia. intros i Hi Hne. unfold ms_get, st1.
        cbn [ms_gsts ms_macks]. rewrite nth_put1 by lia.
        replace (ms_wp st =? i)%nat with false by lia. reflexivity.
    + exists st'. split; [|exact Hst']. rewrite <- E. unfold st1. cbn [ms_macks ms_wp ms_gsts].
      rewrite Hwp. reflexivity.
  - rewrite app_length in *. cbn [length] in *. rewrite Nat.add_sub in *.
    rewrite map_app in Hr. cbn [map] in Hr.
    assert (Hcur : ms_get st (ms_wp st) = (Some g, row_of_items l)).
    { destruct Hr as (Hr & _). rewrite Hwp. apply Hr.
      - rewrite nth_error_app2 by (rewrite map_length; lia).
        rewrite map_length, Nat.sub_diag. reflexivity.
      - rewrite app_length, map_length. cbn [length]. lia. }
    unfold ms_get in Hcur. injection Hcur as Hcg Hcr.
    assert (cur = Some g) as -> by congruence. rewrite push_item_snoc.
    destruct (gst_eqb g (it_gst x)) eqn:Eg; cbn [negb bind].
    + apply gst_eqb_eq in Eg. subst g.
      rewrite set_index_in by lia. cbn [bind ms_macks ms_wp].
      assert (Eput : put (ms_wp st) [Some (it_gst x)] (ms_gsts st) = ms_gsts st).
      { apply nth_error_ext. intros j. rewrite nth_error_put1 by lia.
        destruct (ms_wp st =? j)%nat eqn:E; [|reflexivity].
        assert (ms_wp st = j) by lia. congruence. }
      rewrite Eput.
      destruct (store_row st gs l x) as (st' & E & Hst'); auto.
      { rewrite map_app. exact Hr. }
      exists st'. split; [|exact Hst']. rewrite <- E. destruct st; reflexivity.
    + pose proof (Nat.mod_upper_bound (length gs + 1) mack_depth ltac:(lia)) as Hlt1.
      assert (Enew : ((ms_wp st + 1) mod mack_depth = (length gs + 1) mod mack_depth)%nat)
        by (rewrite Hwp; now apply mod_succ).
      rewrite Enew. set (wp1 := ((length gs + 1) mod mack_depth)%nat) in *.
      rewrite (row_copy num_sats mack_depth) by (rewrite ?repeat_length; auto; lia).
      cbn [bind ms_gsts ms_wp ms_macks]. rewrite set_index_in by lia. cbn [bind ms_macks ms_wp].
      set (st1 := mkMackStorage _ _ _).
      assert (Hlen : length (gs ++ [(g, l)]) = (length gs + 1)%nat)
        by (rewrite app_length; reflexivity).
      destruct (store_row st1 (gs ++ [(g, l)]) [] x) as (st' & E & Hst').
      * unfold st1. cbn [ms_macks]. apply length_put_row; auto. now rewrite repeat_length.
      * unfold st1. cbn [ms_gsts]. rewrite length_put1 by lia. auto.
      * unfold st1. cbn [ms_wp]. rewrite Hlen. reflexivity.
      * rewrite map_app. cbn [map]. rewrite map_app. cbn [map].
        apply ring_push with (get := ms_get st); [lia|exact Hr| |].
        -- rewrite app_length, map_length. cbn [length]. fold wp1. unfold ms_get, of_stretch, st1.
           cbn [ms_gsts ms_macks fst snd]. rewrite nth_put1 by lia. rewrite Nat.eqb_refl.
           rewrite (row_put num_sats mack_depth) by (rewrite ?repeat_length; auto; lia).
           rewrite Nat.eqb_refl, row_of_items_nil. reflexivity.
        -- rewrite app_length, map_length. cbn [length]. fold wp1. intros i Hi Hne.
           unfold ms_get, st1. cbn [ms_gsts ms_macks]. rewrite nth_put1 by lia.
           rewrite (row_put num_sats mack_depth) by (rewrite ?repeat_length; auto; lia).
           replace (wp1 =? i)%nat with false by lia. reflexivity.
      * exists st'. split; [|exact Hst']. rewrite <- E. reflexivity.
Qed.

Lemma store_items_represents h :
  exists st, fold_outcome store_item h mack_storage_new = Ok st /\ represents_ms (stretches h) st.
Proof.
  induction h as [|x h IH] using rev_ind.
  - exists mack_storage_new. split; [reflexivity|apply represents_ms_new].
  - destruct IH as (st & E & Hst). destruct (store_item_spec _ st x Hst) as (st' & E' & Hst').
    exists st'. rewrite fold_outcome_app, E. cbn [bind fold_outcome]. rewrite E'. cbn [bind].
    split; [reflexivity|]. now rewrite stretches_snoc.
Qed.

(** ** Reading *)

Definition find_item (svn : Z) (l : list item) : option (list Z * nma_status_t) :=
  option_map (fun x => (it_message x, it_status x)) (find (fun x => it_svn x =? svn) (firstn num_sats l)).

Lemma find_row_of_items svn l :
  match find_first (fun x => match x with Some m => sm_svn m =? svn | None => false end)
                   (row_of_items l) with
  | Some (Some m) => Some (sm_message m, sm_status m)
  | _ => None
  end = find_item svn l.
Proof.
  unfold find_item, row_of_items, find_first. induction (firstn num_sats l) as [|x k IH]; cbn [map app find].
  - induction (num_sats - length l)%nat as [|m IHm]; [reflexivity|]. cbn [repeat find]. exact IHm.
  - cbn [stored_of sm_svn sm_message sm_status]. destruct (it_svn x =? svn); [reflexivity|exact IH].
Qed.

Lemma mack_get_total gs st svn g : represents_ms gs st ->
  exists r, mack_get st svn g = Ok r /\
    (r <> None -> exists a l, nth_error gs a = Some (g, l) /\ (length gs <= a + mack_depth)%nat /\
                  find_item svn l = r).
Proof.
  intros (Hm & Hg & Hwp & Hr). destruct ms_sizes as (Hs & Hd & Hds). unfold mack_get.
  destruct (position _ (ms_gsts st)) as [i|] eqn:Ep.
  - pose proof (position_lt _ _ _ Ep) as Hi. apply position_some in Ep.
    destruct Ep as ((x & Hx & Hxg) & _).
    rewrite (row_slice _ mack_depth) by (auto; lia). cbn [bind].
    apply option_eqb_eq in Hxg; [|intros; apply gst_eqb_eq]. subst x.
    destruct (ring_get _ _ Hd _ _ i Hr) as [(_ & H)|(a & Ha & Ham & Hal)]; [lia| |].
    + unfold ms_get in H. injection H as H _. rewrite (nth_error_nth _ _ _ Hx) in H. discriminate.
    + rewrite nth_error_map in Ha. destruct (nth_error gs a) as [(g', l)|] eqn:Ea; [|discriminate].
      unfold ms_get, of_stretch in Ha. cbn [option_map fst snd] in Ha. injection Ha as Ha1 Ha2.
      rewrite (nth_error_nth _ _ _ Hx) in Ha1. injection Ha1 as ->.
      rewrite map_length in Hal.
      eexists. split; [reflexivity|]. intros _. exists a, l. repeat split; auto.
      rewrite <- Ha2. symmetry. apply find_row_of_items.
  - exists None. split; [reflexivity|congruence].
Qed.

Lemma mack_get_sound h st svn g m s :
  fold_outcome store_item h mack_storage_new = Ok st ->
  mack_get st svn g = Ok (Some (m, s)) -> In (mkItem m svn g s) h.
Proof.
  intros E Hget. destruct (store_items_represents h) as (st0 & E0 & Hrep).
  assert (st0 = st) as -> by congruence.
  destruct (mack_get_total _ st svn g Hrep) as (r & Er & Hr).
  assert (r = Some (m, s)) as -> by congruence.
  destruct Hr as (a & l & Ha & _ & Hf); [discriminate|].
  unfold find_item in Hf. destruct (find _ _) as [x|] eqn:Ex; [|discriminate].
  injection Hf as <- <-. apply find_some in Ex. destruct Ex as (Hin & Hsv).
  apply In_firstn in Hin. apply nth_error_In in Ha.
  destruct (stretches_in h g l x Ha Hin) as (Hh & Hxg).
  destruct x as [xm xs xg xt]. cbn [it_message it_status it_svn it_gst] in *.
  assert (xs = svn) by lia. subst. exact Hh.
Qed.

(** A time in exactly one of the stretches. *)
Lemma mack_get_unique gs st svn g a l : represents_ms gs st ->
  nth_error gs a = Some (g, l) -> (length gs <= a + mack_depth)%nat ->
  (forall b l', nth_error gs b = Some (g, l') -> b = a) ->
  mack_get st svn g = Ok (find_item svn l).
Proof.
  intros Hrep Ha Hal Huniq. pose proof Hrep as (Hm & Hg & Hwp & Hr).
  destruct ms_sizes as (Hs & Hd & Hds).
  assert (Hlt : (a mod mack_depth < mack_depth)%nat) by (apply Nat.mod_upper_bound; lia).
  assert (Hgeta : ms_get st (a mod mack_depth) = (Some g, row_of_items l)).
  { destruct Hr as (Hr & _). apply Hr; [|rewrite map_length; auto].
    rewrite nth_error_map, Ha. reflexivity. }
  unfold mack_get.
  destruct (position _ (ms_gsts st)) as [i|] eqn:Ep.
  - pose proof (position_lt _ _ _ Ep) as Hi. apply position_some in Ep.
    destruct Ep as ((x & Hx & Hxg) & _).
    apply option_eqb_eq in Hxg; [|intros; apply gst_eqb_eq]. subst x.
    rewrite (row_slice _ mack_depth) by (auto; lia). cbn [bind].
    destruct (ring_get _ _ Hd _ _ i Hr) as [(_ & H)|(b & Hb & Hbm & Hbl)]; [lia| |].
    + unfold ms_get in H. injection H as H _. rewrite (nth_error_nth _ _ _ Hx) in H. discriminate.
    + rewrite nth_error_map in Hb. destruct (nth_error gs b) as [(g', l')|] eqn:Eb; [|discriminate].
      unfold ms_get, of_stretch in Hb. cbn [option_map fst snd] in Hb. injection Hb as Hb1 Hb2.
      rewrite (nth_error_nth _ _ _ Hx) in Hb1. injection Hb1 as ->.
      pose proof (Huniq _ _ Eb) as ->. assert (l' = l) as -> by congruence.
      rewrite <- Hb2. f_equal. apply find_row_of_items.
  - exfalso. unfold ms_get in Hgeta. injection Hgeta as H1 _.
    rewrite position_none in Ep.
    assert (Hin : In (Some g) (ms_gsts st)).
    { rewrite <- H1. apply nth_In. lia. }
    apply Ep in Hin. cbn [option_eqb] in Hin. now rewrite gst_eqb_refl in Hin.
Qed.

Lemma mack_get_none gs st svn g : represents_ms gs st ->
  (forall a l, nth_error gs a = Some (g, l) -> (a + mack_depth < length gs)%nat) ->
  mack_get st svn g = Ok None.
Proof.
  intros Hrep H. destruct (mack_get_total gs st svn g Hrep) as (r & E & Hr).
  rewrite E. f_equal. destruct r as [r|]; [|reflexivity]. exfalso.
  destruct Hr as (a & l & Ha & Hal & _); [discriminate|]. specialize (H _ _ Ha). lia.
Qed.

(** ** Stretches of a history *)

Lemma push_nonempty gs x : push_item gs x <> [].
Proof.
  destruct gs as [|(g, l) gs _] using rev_ind; [discriminate|].
  rewrite push_item_snoc. destruct (gst_eqb _ _); intros H; apply app_eq_nil in H; destruct H; discriminate.
Qed.

(** The stretches after a change of time do not depend on what came before. *)
Lemma stretches_app_change h g l gs y q :
  stretches h = gs ++ [(g, l)] -> it_gst y <> g ->
  stretches (h ++ y :: q) = stretches h ++ stretches (y :: q).
Proof.
  intros E Hne. revert y Hne. induction q as [|z q IH] using rev_ind; intros y Hne.
  - rewrite stretches_snoc, E, push_item_snoc.
    replace (gst_eqb g (it_gst y)) with false; [reflexivity|].
    symmetry. apply not_true_iff_false. rewrite gst_eqb_eq. congruence.
  - change (y :: q ++ [z]) with ((y :: q) ++ [z]). rewrite app_assoc, !stretches_snoc, IH by auto.
    destruct (stretches (y :: q)) as [|(g1, l1) gs1 _] eqn:E1 using rev_ind.
    + exfalso. destruct q as [|w q _] using rev_ind; [discriminate|].
      change (y :: q ++ [w]) with ((y :: q) ++ [w]) in E1. rewrite stretches_snoc in E1.
      now apply push_nonempty in E1.
    + rewrite app_assoc, !push_item_snoc. destruct (gst_eqb g1 (it_gst z)); now rewrite !app_assoc.
Qed.

Lemma stretches_same g grp : grp <> [] -> (forall x, In x grp -> it_gst x = g) ->
  stretches grp = [(g, grp)].
Proof.
  intros Hn H. induction grp as [|x grp IH] using rev_ind; [congruence|].
  rewrite stretches_snoc. destruct grp as [|y grp].
  - cbn [app]. cbn [stretches fold_left]. rewrite push_item_nil.
    rewrite (H x) by (left; auto). reflexivity.
  - rewrite IH; [|discriminate|intros z Hz; apply H; apply in_or_app; auto].
    change [(g, y :: grp)] with ([] ++ [(g, y :: grp)]). rewrite push_item_snoc.
    rewrite (H x) by (apply in_or_app; right; left; auto). rewrite gst_eqb_refl. reflexivity.
Qed.

Lemma stretches_last h y : exists gs l, stretches (h ++ [y]) = gs ++ [(it_gst y, l)].
Proof.
  rewrite stretches_snoc. destruct (stretches h) as [|(g, l) gs _] eqn:E using rev_ind.
  - exists [], [y]. reflexivity.
  - rewrite push_item_snoc. destruct (gst_eqb g (it_gst y)) eqn:Eg.
    + apply gst_eqb_eq in Eg. subst g. eauto.
    + eauto.
Qed.

Lemma stretches_app h q :
  (forall x y, In x h -> In y q -> it_gst x <> it_gst y) ->
  stretches (h ++ q) = stretches h ++ stretches q.
Proof.
  intros H. destruct q as [|y q]; [now rewrite !app_nil_r|].
  destruct h as [|x h _] using rev_ind; [reflexivity|].
  destruct (stretches_last h x) as (gs & l & E).
  eapply stretches_app_change; [exact E|].
  intros Hy. apply (H x y); [apply in_or_app; right; left; auto|left; auto|auto].
Qed.

Lemma stretches_gst h a g l : nth_error (stretches h) a = Some (g, l) ->
  exists x, In x h /\ it_gst x = g.
Proof.
  revert a g l; induction h as [|y h IH] using rev_ind; intros a g l Ha; [destruct a; discriminate|].
  rewrite stretches_snoc in Ha.
  destruct (stretches h) as [|(g0, l0) gs _] eqn:E using rev_ind.
  - rewrite push_item_nil in Ha. destruct a as [|[|a]]; try discriminate.
    injection Ha as <- _. exists y. split; [apply in_or_app; right; left|]; auto.
  - assert (Hy : In y (h ++ [y])) by (apply in_or_app; right; left; auto).
    assert (Hold : forall g1 l1, In (g1, l1) (gs ++ [(g0, l0)]) -> exists x, In x (h ++ [y]) /\ it_gst x = g1).
    { intros g1 l1 H1. apply In_nth_error in H1. destruct H1 as (b & Hb).
      destruct (IH b g1 l1 Hb) as (x & Hx & Hg). exists x. split; [apply in_or_app|]; auto. }
    apply nth_error_In in Ha. rewrite push_item_snoc in Ha. destruct (gst_eqb g0 (it_gst y)).
    + apply in_app_or in Ha. destruct Ha as [Ha|[Ha|[]]].
      * apply (Hold g l). apply in_or_app; auto.
      * injection Ha as <- _. apply (Hold g0 l0). apply in_or_app; right; left; auto.
    + apply in_app_or in Ha. destruct Ha as [Ha|[Ha|[]]]; [eauto|].
      injection Ha as <- _. eauto.
Qed.

Section Retention.
Variables (h1 grp h2 : list item) (g : gst).
Hypothesis Hgrp : grp <> [].
Hypothesis Hg : forall x, In x grp -> it_gst x = g.
Hypothesis Hother : forall x, In x h1 \/ In x h2 -> it_gst x <> g.

Lemma stretches_mid : stretches (h1 ++ grp ++ h2) = stretches h1 ++ [(g, grp)] ++ stretches h2.
Proof.
  assert (Hgh2 : stretches (grp ++ h2) = [(g, grp)] ++ stretches h2).
  { rewrite stretches_app.
    - now rewrite (stretches_same g).
    - intros x y Hx Hy E. apply (Hother y); auto. rewrite <- E. auto. }
  rewrite <- Hgh2. destruct grp as [|y q]; [congruence|].
  destruct h1 as [|x h _] using rev_ind; [reflexivity|].
  destruct (stretches_last h x) as (gs & l & E).
  cbn [app]. eapply stretches_app_change; [exact E|].
  intros Hy. apply (Hother x); [left; apply in_or_app; right; left; auto|].
  rewrite <- Hy. apply Hg. left; auto.
Qed.

Lemma stretches_mid_unique a l :
  nth_error (stretches (h1 ++ grp ++ h2)) a = Some (g, l) -> a = length (stretches h1).
Proof.
  rewrite stretches_mid. intros Ha.
  destruct (Nat.lt_trichotomy a (length (stretches h1))) as [H|[H|H]]; [|auto|].
  - rewrite nth_error_app1 in Ha by auto. apply stretches_gst in Ha.
    destruct Ha as (x & Hx & Hxg). exfalso. apply (Hother x); auto.
  - rewrite nth_error_app2 in Ha by lia. rewrite nth_error_app2 in Ha by (cbn [length]; lia).
    apply stretches_gst in Ha.
    destruct Ha as (x & Hx & Hxg). exfalso. apply (Hother x); auto.
Qed.

Lemma mack_retained st svn :
  fold_outcome store_item (h1 ++ grp ++ h2) mack_storage_new = Ok st ->
  mack_get st svn g =
  Ok (if (length (stretches h2) <? mack_depth)%nat then find_item svn grp else None).
Proof.
  intros E. destruct (store_items_represents (h1 ++ grp ++ h2)) as (st0 & E0 & Hrep).
  assert (st0 = st) as -> by congruence.
  destruct (length (stretches h2) <? mack_depth)%nat eqn:El.
  - apply (mack_get_unique (stretches (h1 ++ grp ++ h2)) st svn g (length (stretches h1)) grp); auto.
    + rewrite stretches_mid, nth_error_app2 by lia. rewrite Nat.sub_diag. reflexivity.
    + rewrite stretches_mid, !app_length. cbn [length]. lia.
    + intros b l' Hb. now apply stretches_mid_unique in Hb.
  - apply (mack_get_none (stretches (h1 ++ grp ++ h2))); auto.
    intros a l Ha. apply stretches_mid_unique in Ha. subst a.
    rewrite stretches_mid, !app_length. cbn [length]. lia.
Qed.

End Retention.
End Storage.

(** The navigation data storage: what is stored for a satellite after each call. *)
From Coq Require Import ZArith List Bool Lia ZifyBool ZifyNat Sorted.
From Verif Require Import Model.Prelude Model.Params Model.Gst Model.Svn Model.Bitfields
  Model.Tesla Model.Merkle Model.Nav Model.Osnma
  Spec.TimeSpec Spec.CollectSpec Spec.NavSpec Spec.TeslaSpec Spec.KrootSpec Spec.KeySpec Spec.SystemSpec Spec.StoredSpec
  Proofs.Base Proofs.Ring Proofs.Rows Proofs.GstProofs Proofs.NavProofs Proofs.EntryProofs Proofs.NavInv
  Proofs.NavHistory Proofs.SystemProofs Proofs.GetterProofs Proofs.KeyStoreProofs Proofs.StepProofs.
Import ListNotations.
Open Scope Z_scope.

Lemma data_of_bits k e : data_of k e = message_bits k e.
Proof. destruct k; reflexivity. Qed.

Lemma age_one_older e : one_older e (age_entry e).
Proof. repeat split. Qed.

Lemma one_older_age e e' : one_older e e' -> e' = age_entry e.
Proof. destruct e', e. intros (H1 & H2 & H3 & H4). cbn in *. subst. reflexivity. Qed.

Section Storage.
Context {S : storage}.
Hypothesis HS : storage_ok S.

Lemma stored_row_row k n j : stored_row k n j = row num_sats (nv_arr k n) ((nav_depth + nv_wp n - j) mod nav_depth).
Proof.
  unfold stored_row, row, sub. f_equal. generalize ((nav_depth + nv_wp n - j) mod nav_depth)%nat. intros i. lia.
Qed.

(** The [j]-th most recent subframe. *)
Lemma stored_snap hs n a s j : represents_nav hs n -> nth_error hs a = Some s -> (a + j + 1 = length hs)%nat ->
  (j < nav_depth)%nat -> (forall k, stored_row k n j = s_row k s) /\ stored_gst n j = Some (s_gst s).
Proof.
  intros Hrep Ha Hj Hd. pose proof Hrep as (H1 & H2 & H3 & H4 & H5 & H6). destruct (nv_sizes HS) as (Hs & Hd0 & _).
  assert (Ei : ((nav_depth + nv_wp n - j) mod nav_depth = a mod nav_depth)%nat).
  { rewrite H4. rewrite mod_back by lia. f_equal. lia. }
  split.
  - intros k. rewrite stored_row_row, Ei. apply (get_row hs); auto. lia.
  - unfold stored_gst. rewrite Ei.
    assert (G : nv_get n (a mod nav_depth) = of_snap s).
    { destruct H6 as (H6 & _). apply H6; [rewrite nth_error_map, Ha; reflexivity|].
      rewrite map_length. lia. }
    unfold nv_get, of_snap in G. injection G as G1 _ _. exact G1.
Qed.

(** Subframes never used are empty. *)
Lemma stored_fresh hs n j : represents_nav hs n -> (length hs <= j < nav_depth)%nat ->
  (forall k, stored_row k n j = fresh_row k) /\ stored_gst n j = None.
Proof.
  intros Hrep Hj. pose proof Hrep as (H1 & H2 & H3 & H4 & H5 & H6). destruct (nv_sizes HS) as (Hs & Hd0 & _).
  assert (Hi : (((nav_depth + nv_wp n - j) mod nav_depth) < nav_depth)%nat) by (apply Nat.mod_upper_bound; lia).
  assert (Hii : (length hs <= (nav_depth + nv_wp n - j) mod nav_depth)%nat).
  { rewrite H4. rewrite (Nat.mod_small (length hs - 1)) by lia.
    destruct (Nat.eq_dec (length hs) 0) as [E0|E0].
    - lia.
    - rewrite Nat.mod_small by lia. lia. }
  assert (G : nv_get n ((nav_depth + nv_wp n - j) mod nav_depth) = nv_default).
  { destruct H6 as (_ & H6). apply H6. rewrite map_length. lia. }
  unfold nv_get, nv_default in G. injection G as G1 G2 G3. split.
  - intros k. rewrite stored_row_row. destruct k; [exact G2|exact G3].
  - exact G1.
Qed.

Lemma stored_current hs s n : represents_nav (hs ++ [s]) n ->
  (forall k, stored_row k n 0 = s_row k s) /\ stored_gst n 0 = Some (s_gst s).
Proof.
  intros H. apply (stored_snap (hs ++ [s]) n (length hs)); auto.
  - rewrite nth_error_app2, Nat.sub_diag by lia. reflexivity.
  - rewrite app_length. cbn [length]. lia.
  - apply (nv_sizes HS).
Qed.

Lemma stored_current_fresh n : represents_nav [] n ->
  (forall k, stored_row k n 0 = fresh_row k) /\ stored_gst n 0 = None.
Proof. intros H. apply (stored_fresh []); auto. destruct (nv_sizes HS). cbn. lia. Qed.

(** The current row at the beginning of a call at time [g]. *)
Definition base_row (k : nav_kind) (n : nav) (g : gst) : list entry :=
  match stored_gst n 0 with
  | Some g0 => if gst_eqb g0 (subframe_of g) then stored_row k n 0 else map age_entry (stored_row k n 0)
  | None => fresh_row k
  end.

Lemma feed_stored hs n word svn g b n' : represents_nav hs n -> nav_feed n word svn g b = Ok n' ->
  (forall k, stored_row k n' 0 = feed_row k word svn b (base_row k n g)) /\
  stored_gst n' 0 = Some (subframe_of g).
Proof.
  intros Hrep Hf. destruct (nav_feed_spec HS hs n word svn g b Hrep) as (n1 & E1 & Hrep1).
  rewrite Hf in E1. injection E1 as <-. unfold abs_feed in Hrep1.
  destruct (abs_adjust_last hs (gst_subframe g)) as (hs1 & s & Eh & Hsg). rewrite Eh, map_last_snoc in Hrep1.
  destruct (stored_current _ _ _ Hrep1) as (R1 & R2). split.
  - intros k. rewrite R1. assert (Hrow : s_row k s = base_row k n g).
    { unfold base_row. destruct hs as [|s0 hs0 _] using rev_ind.
      - destruct (stored_current_fresh _ Hrep) as (F1 & F2). rewrite F2.
        unfold abs_adjust in Eh. cbn [rev] in Eh. destruct hs1 as [|x [|y t]]; [|discriminate|discriminate].
        injection Eh as <-. destruct k; reflexivity.
      - destruct (stored_current _ _ _ Hrep) as (F1 & F2). rewrite F1, F2, subframe_of_eq. rewrite abs_adjust_snoc in Eh.
        destruct (gst_eqb (s_gst s0) (gst_subframe g)) eqn:Eg.
        + apply app_inj_tail in Eh. now destruct Eh as (_ & <-).
        + apply app_inj_tail in Eh. destruct Eh as (_ & <-). destruct k; reflexivity. }
    rewrite <- Hrow. destruct k; reflexivity.
  - rewrite R2. cbn [feed_snap s_gst]. now rewrite Hsg, subframe_of_eq.
Qed.

Definition nav_has (n : nav) : Prop := exists hs, represents_nav hs n /\ nav_ok hs.

Lemma stored_row_ok n j k : nav_has n -> (j < nav_depth)%nat ->
  row_ok k (stored_row k n j) /\ length (stored_row k n j) = num_sats.
Proof.
  intros (hs & Hrep & Hok) Hj. destruct (Nat.lt_ge_cases j (length hs)) as [Hlt|Hge].
  - destruct (nth_error hs (length hs - 1 - j)) as [s|] eqn:Es; [|apply nth_error_None in Es; lia].
    destruct (stored_snap hs n _ s j Hrep Es) as (R & _); [lia|auto|]. rewrite R.
    unfold nav_ok in Hok. rewrite Forall_forall in Hok. apply nth_error_In in Es. split; [now apply Hok|].
    apply (snap_row_length k). destruct Hrep as (_ & _ & _ & _ & H5 & _). rewrite Forall_forall in H5. auto.
  - destruct (stored_fresh hs n j Hrep) as (R & _); [lia|]. rewrite R. split; [apply fresh_row_ok|].
    unfold fresh_row. apply repeat_length.
Qed.

Lemma base_row_ok n g k : nav_has n -> row_ok k (base_row k n g) /\ length (base_row k n g) = num_sats.
Proof.
  intros H. destruct (stored_row_ok n 0 k H) as (H1 & H2); [apply (nv_sizes HS)|]. unfold base_row.
  destruct (stored_gst n 0) as [g0|].
  - destruct (gst_eqb _ _); [auto|]. split; [apply map_row_ok; auto using age_neutral|]. now rewrite map_length.
  - split; [apply fresh_row_ok|]. unfold fresh_row. apply repeat_length.
Qed.

Lemma nav_has_stored n k j svn e : nav_has n -> (j < nav_depth)%nat ->
  (stored k n j svn e <-> find (has_svn svn) (stored_row k n j) = Some e).
Proof.
  intros H Hj. destruct (stored_row_ok n j k H Hj) as (H1 & _). unfold stored.
  symmetry. now apply find_svn_some with k.
Qed.

(** Something is stored only if some word was fed. *)
Lemma stored_started n k j svn e : nav_has n -> (j < nav_depth)%nat -> stored k n j svn e -> stored_gst n j <> None.
Proof.
  intros (hs & Hrep & Hok) Hj (Hin & Hs).
  destruct (Nat.lt_ge_cases j (length hs)) as [Hlt|Hge].
  - destruct (nth_error hs (length hs - 1 - j)) as [s|] eqn:Es; [|apply nth_error_None in Es; lia].
    destruct (stored_snap hs n _ s j Hrep Es) as (_ & ->); [lia|auto|]. discriminate.
  - destruct (stored_fresh hs n j Hrep) as (R & _); [lia|]. rewrite R in Hin.
    apply repeat_spec in Hin. subst e. discriminate.
Qed.

(** The entry of a satellite at the beginning of the call. *)
Lemma base_find n g k svn : nav_has n ->
  match find (has_svn svn) (base_row k n g) with
  | Some e1 => exists e, stored k n 0 svn e /\ carried_over n g e e1
  | None => forall e, ~ stored k n 0 svn e
  end.
Proof.
  intros H. assert (Hd : (0 < nav_depth)%nat) by apply (nv_sizes HS). unfold base_row, carried_over.
  destruct (stored_gst n 0) as [g0|] eqn:Eg.
  - destruct (gst_eqb g0 (subframe_of g)) eqn:E.
    + destruct (find (has_svn svn) (stored_row k n 0)) as [e|] eqn:Ef.
      * exists e. rewrite (nav_has_stored n k 0 svn e H Hd). split; [exact Ef|]. apply gst_eqb_eq in E. split; congruence.
      * intros e. rewrite (nav_has_stored n k 0 svn e H Hd). congruence.
    + rewrite (find_svn_map k age_entry) by apply age_neutral.
      destruct (find (has_svn svn) (stored_row k n 0)) as [e|] eqn:Ef; cbn [option_map].
      * exists e. rewrite (nav_has_stored n k 0 svn e H Hd). split; [exact Ef|].
        assert (g0 <> subframe_of g) by (intros ->; rewrite gst_eqb_refl in E; discriminate).
        split; [congruence|]. intros _. apply age_one_older.
      * intros e. rewrite (nav_has_stored n k 0 svn e H Hd). congruence.
  - assert (Hn : find (has_svn svn) (fresh_row k) = None).
    { apply find_svn_none. intros e He. apply repeat_spec in He. subst e. discriminate. }
    rewrite Hn. intros e He. exact (stored_started n k 0 svn e H Hd He Eg).
Qed.

Lemma base_stored n g k svn e : nav_has n -> stored k n 0 svn e ->
  exists e1, find (has_svn svn) (base_row k n g) = Some e1 /\ carried_over n g e e1.
Proof.
  intros H He. pose proof (base_find n g k svn H) as Hb.
  destruct (find (has_svn svn) (base_row k n g)) as [e1|]; [|now destruct (Hb e)].
  destruct Hb as (e' & He' & Hc). exists e1. split; auto.
  assert (Hd : (0 < nav_depth)%nat) by apply (nv_sizes HS).
  apply (nav_has_stored n k 0 svn e H Hd) in He. apply (nav_has_stored n k 0 svn e' H Hd) in He'.
  rewrite He in He'. injection He' as <-. exact Hc.
Qed.

Lemma nav_feed_has n word svn g b n' : nav_has n -> bytes_ok 16 word -> 1 <= svn <= 36 ->
  nav_feed n word svn g b = Ok n' -> nav_has n'.
Proof.
  intros (hs & Hrep & Hok) Hw Hsvn Hf. destruct (nav_feed_spec HS hs n word svn g b Hrep) as (n1 & E1 & Hrep1).
  rewrite Hf in E1. injection E1 as <-. exists (abs_feed hs word svn g b). split; auto.
  apply abs_feed_ok; auto. apply Hrep.
Qed.

(** ** The satellite whose word is fed *)
Lemma feed_own n word svn g b n' k : nav_has n -> bytes_ok 16 word -> 1 <= svn <= 36 ->
  nav_feed n word svn g b = Ok n' ->
  exists e1, entry_ok k e1 /\ stored k n' 0 svn (entry_feed k word svn b e1) /\
    ((exists e, stored k n 0 svn e /\ carried_over n g e e1 /\ e_svn e1 = Some svn) \/
     ((forall e, ~ stored k n 0 svn e) /\ e_svn e1 <> Some svn)).
Proof.
  intros H Hw Hsvn Hf. destruct (base_row_ok n g k H) as (Hok & Hl).
  assert (Hd : (0 < nav_depth)%nat) by apply (nv_sizes HS). assert (Hs : (0 < num_sats)%nat) by apply (nv_sizes HS).
  destruct (feed_row_own k word svn b (base_row k n g) Hok) as (e1 & Hin & Hfind & Hc); auto; [lia|].
  exists e1. split; [now apply (row_ok_in k (base_row k n g))|]. split.
  - apply nav_has_stored; auto; [now apply (nav_feed_has n word svn g b)|].
    destruct H as (hs & Hrep & _). destruct (feed_stored hs n word svn g b n' Hrep Hf) as (R & _). now rewrite R.
  - pose proof (base_find n g k svn H) as Hb. destruct (find (has_svn svn) (base_row k n g)) as [e0|] eqn:Ef.
    + subst e1. destruct Hb as (e & He & Hco). left. exists e. split; auto. split; auto.
      apply find_some in Ef. now apply has_svn_iff.
    + right. split; auto.
Qed.

(** ** The other satellites *)
Lemma feed_other n word svn g b n' k s e : nav_has n -> bytes_ok 16 word -> 1 <= svn <= 36 -> s <> svn ->
  nav_feed n word svn g b = Ok n' -> stored k n 0 s e ->
  exists e1, carried_over n g e e1 /\
    (stored k n' 0 s e1 \/
     ((num_sats < 36)%nat /\
      (forall x, In x (stored_row k n 0) -> exists s', e_svn x = Some s' /\ s' <> svn) /\
      (forall x x1, In x (stored_row k n 0) -> carried_over n g x x1 -> oldest_word x1 <= oldest_word e1))).
Proof.
  intros H Hw Hsvn Hne Hf He. destruct (base_row_ok n g k H) as (Hok & Hl).
  assert (Hd : (0 < nav_depth)%nat) by apply (nv_sizes HS). assert (Hs : (0 < num_sats)%nat) by apply (nv_sizes HS).
  destruct (base_stored n g k s e H He) as (e1 & Hf1 & Hco). exists e1. split; auto.
  pose proof (nav_feed_has n word svn g b n' H Hw Hsvn Hf) as H'.
  rewrite (nav_has_stored n' k 0 s e1 H' Hd).
  assert (R : stored_row k n' 0 = feed_row k word svn b (base_row k n g)).
  { destruct H as (hs & Hrep & _). now destruct (feed_stored hs n word svn g b n' Hrep Hf) as (R & _). }
  rewrite R. destruct (feed_row_other k word svn b (base_row k n g) s e1) as [Hk|(_ & G1 & G2 & G3)]; auto; [lia|].
  right.
  assert (Hbase : forall x, In x (stored_row k n 0) -> exists x1, In x1 (base_row k n g) /\ carried_over n g x x1 /\
             e_svn x1 = e_svn x).
  { pose proof (stored_started n k 0 s e H Hd He) as Hst. intros x Hx. unfold base_row, carried_over.
    destruct (stored_gst n 0) as [g0|]; [|congruence]. destruct (gst_eqb g0 (subframe_of g)) eqn:E.
    - exists x. apply gst_eqb_eq in E. split; auto. split; [split; congruence|reflexivity].
    - exists (age_entry x). split; [now apply in_map|]. split; [|reflexivity].
      assert (g0 <> subframe_of g) by (intros ->; rewrite gst_eqb_refl in E; discriminate).
      split; [congruence|]. intros _. apply age_one_older. }
  split; [|split].
  - destruct (Nat.lt_ge_cases num_sats 36) as [Hlt|Hge]; auto. exfalso.
    destruct (row_room k (base_row k n g) svn) as (x & Hx & Hxn); auto; [lia|]. now apply (G2 x).
  - intros x Hx. destruct (Hbase x Hx) as (x1 & B1 & B2 & B3). destruct (e_svn x1) as [s'|] eqn:Es.
    + exists s'. split; [congruence|]. intros ->. now apply (G1 x1).
    + now destruct (G2 x1).
  - intros x x1 Hx Hc. destruct (Hbase x Hx) as (x2 & B1 & B2 & B3).
    assert (x1 = x2) as ->.
    { destruct Hc as (C1 & C2), B2 as (D1 & D2).
      destruct (option_eqb gst_eqb (stored_gst n 0) (Some (subframe_of g))) eqn:E.
      - assert (stored_gst n 0 = Some (subframe_of g)) as Eq.
        { destruct (stored_gst n 0) as [g0|]; [|discriminate]. cbn in E. apply gst_eqb_eq in E. congruence. }
        rewrite (C1 Eq), (D1 Eq). reflexivity.
      - assert (stored_gst n 0 <> Some (subframe_of g)) as Hn.
        { intros Eq. rewrite Eq in E. cbn in E. rewrite gst_eqb_refl in E. discriminate. }
        rewrite (one_older_age _ _ (C2 Hn)), (one_older_age _ _ (D2 Hn)). reflexivity. }
    exact (G3 x2 B1).
Qed.

(** ** Calls that feed OSNMA data *)
Lemma Forall2_row {A} (R : A -> A -> Prop) l l' s i : Forall2 R l l' -> Forall2 R (row s l i) (row s l' i).
Proof.
  intros H. unfold row, sub. generalize (i * s)%nat ((i + 1) * s - i * s)%nat. intros a m.
  revert a m. induction H as [|x y l l' Hxy H IH]; intros a m.
  - rewrite !skipn_nil, !firstn_nil. constructor.
  - destruct a as [|a]; cbn [skipn]; [|apply IH].
    destruct m as [|m]; cbn [firstn]; constructor; auto. apply (IH 0%nat m).
Qed.

Lemma Forall2_in {A B} (R : A -> B -> Prop) l l' x : Forall2 R l l' -> In x l -> exists y, In y l' /\ R x y.
Proof.
  induction 1 as [|a b l l' Hab H IH]; intros Hin; [destruct Hin|].
  destruct Hin as [->|Hin]; [exists b; split; [now left|auto]|]. destruct (IH Hin) as (y & Hy & Hr).
  exists y. split; [now right|auto].
Qed.

Lemma Forall2_in_r {A B} (R : A -> B -> Prop) l l' y : Forall2 R l l' -> In y l' -> exists x, In x l /\ R x y.
Proof.
  induction 1 as [|a b l l' Hab H IH]; intros Hin; [destruct Hin|].
  destruct Hin as [->|Hin]; [exists a; split; [now left|auto]|]. destruct (IH Hin) as (x & Hx & Hr).
  exists x. split; [now right|auto].
Qed.

Lemma grown_stored n n' k j svn e : nav_grown n n' -> stored k n j svn e ->
  exists e', stored k n' j svn e' /\ grown e e'.
Proof.
  intros (G1 & G2 & G3) (Hin & Hs). rewrite stored_row_row in Hin.
  pose proof (Forall2_row grown _ _ num_sats ((nav_depth + nv_wp n - j) mod nav_depth) (G3 k)) as HF.
  destruct (Forall2_in grown _ _ e HF Hin) as (e' & Hin' & Hg). rewrite <- G2, <- stored_row_row in Hin'.
  exists e'. split; auto. split; auto. destruct Hg as (_ & _ & -> & _). exact Hs.
Qed.

Lemma grown_stored_back n n' k j svn e' : nav_grown n n' -> stored k n' j svn e' ->
  exists e, stored k n j svn e /\ grown e e'.
Proof.
  intros (G1 & G2 & G3) (Hin & Hs). rewrite stored_row_row in Hin.
  pose proof (Forall2_row grown _ _ num_sats ((nav_depth + nv_wp n' - j) mod nav_depth) (G3 k)) as HF.
  destruct (Forall2_in_r grown _ _ e' HF Hin) as (e & Hin' & Hg). rewrite G2, <- stored_row_row in Hin'.
  exists e. split; auto. split; auto. destruct Hg as (_ & _ & Hg & _). congruence.
Qed.

Lemma grown_gst n n' j : nav_grown n n' -> stored_gst n' j = stored_gst n j.
Proof. intros (G1 & G2 & _). unfold stored_gst. now rewrite G1, G2. Qed.

End Storage.

(** ** Reachable states *)
Section Crypto.
Context {C : crypto} {B : build} {S : storage}.
Hypothesis HC : crypto_ok C.
Hypothesis HS : storage_ok S.
Variables (root : option (list Z)) (user : option public_key) (slow : bool).
Notation new := (osnma_new root user slow).

Lemma reach_has h o : Forall op_ok h -> run new h = Ok o -> nav_has (o_nav o).
Proof.
  intros Ho Hr. apply (run_inv HC HS root user slow h Ho) in Hr. destruct Hr as (_ & [_ _ _ _ _ _ (hs & H1 & H2 & _)]).
  now exists hs.
Qed.

Lemma field_of_data k i f e : nth_error (icd_fields k) i = Some f -> field_bits k i (data_of k e) = efield k i e.
Proof. intros H. rewrite data_of_bits. symmetry. apply efield_bits. apply (field_width k i f H). Qed.

(** A word of the satellite. *)
Theorem own_word h o o' word svn g b k : Forall op_ok h -> run new h = Ok o ->
  op_ok (FeedInav word svn g b) -> feed_inav o word svn g b = Ok o' ->
  let w := mkNWord word svn g b in
  exists e', stored k (o_nav o') 0 svn e' /\
    (forall i f, nth_error (icd_fields k) i = Some f -> carries k f w = true ->
       field_bits k i (data_of k e') = nw_bits w (f_from f) (f_to f)) /\
    (forall e, stored k (o_nav o) 0 svn e ->
       (forall i f, nth_error (icd_fields k) i = Some f -> carries k f w = false ->
          field_bits k i (data_of k e') = field_bits k i (data_of k e)) /\
       (data_of k e' = data_of k e -> e_authbits e' = e_authbits e) /\
       (data_of k e' <> data_of k e -> e_authbits e' = 0)) /\
    ((forall e, ~ stored k (o_nav o) 0 svn e) -> e_authbits e' = 0).
Proof.
  intros Ho Hr (Hw & Hsvn & Hg) Hf w. pose proof (reach_has h o Ho Hr) as Hn.
  unfold feed_inav in Hf. bind_inv Hf. injection Hf as <-. cbn [set_nav o_nav].
  destruct (feed_own HS _ word svn g b x k Hn Hw Hsvn E) as (e1 & Hok & Hst & Hc).
  destruct (entry_feed_spec k word svn b e1 Hok Hw Hsvn) as (Hok' & Hs' & Hfs & Hsame & Hdiff).
  destruct (entry_select_svn_spec svn e1) as (_ & _ & Sel1 & Sel2 & Sel3).
  assert (Hcar : forall f, carries k f (the_word word svn b) = carries k f w) by (intros f; apply carries_same; reflexivity).
  exists (entry_feed k word svn b e1). split; [exact Hst|]. split; [|split].
  - intros i f Hi Hcf. rewrite (field_of_data k i f) by auto. specialize (Hfs i f Hi). rewrite Hcar, Hcf in Hfs.
    destruct Hfs as (-> & _). apply nw_bits_same. reflexivity.
  - intros e He. destruct Hc as [(e0 & He0 & Hco & Hes)|(Hno & _)]; [|now destruct (Hno e)].
    assert (Hd : (0 < nav_depth)%nat) by apply (nv_sizes HS).
    assert (e0 = e) as ->.
    { apply (nav_has_stored HS) in He; auto. apply (nav_has_stored HS) in He0; auto. congruence. }
    assert (Hsd : e_data e1 = e_data e /\ e_authbits e1 = e_authbits e).
    { destruct Hco as (C1 & C2). destruct (option_eqb gst_eqb (stored_gst (o_nav o) 0) (Some (subframe_of g))) eqn:Eq.
      - rewrite C1; auto. destruct (stored_gst (o_nav o) 0) as [g0|]; [|discriminate]. cbn in Eq. apply gst_eqb_eq in Eq. congruence.
      - destruct C2 as (C2 & _ & C3 & _); auto. intros Eq'. rewrite Eq' in Eq. cbn in Eq. rewrite gst_eqb_refl in Eq. discriminate. }
    destruct Hsd as (Hsd & Hsa).
    assert (Hmb : message_bits k e1 = message_bits k e) by (unfold message_bits; now rewrite Hsd).
    rewrite !data_of_bits, <- Hmb, <- Hsa. rewrite (Sel1 Hes) in Hsame. split; [|split; auto].
    intros i f Hi Hcf. rewrite <- (data_of_bits k (entry_feed _ _ _ _ _)), <- (data_of_bits k e1).
    rewrite !(field_of_data k i f) by auto. specialize (Hfs i f Hi). rewrite Hcar, Hcf in Hfs. apply Hfs.
  - intros Hno. destruct Hc as [(e0 & He0 & _)|(_ & Hne)]; [now destruct (Hno e0)|].
    destruct (list_eq_dec bool_dec (message_bits k (entry_feed k word svn b e1)) (message_bits k e1)) as [Eq|Nq]; auto.
    rewrite (Hsame Eq). destruct (e_svn e1) as [s0|] eqn:Es.
    + destruct (Sel2 s0 eq_refl) as (-> & _); auto. congruence.
    + destruct (Sel3 eq_refl) as (-> & _). now apply (eo_none _ _ Hok).
Qed.

(** A word of another satellite. *)
Theorem other_word h o o' word svn g b k s e : Forall op_ok h -> run new h = Ok o ->
  op_ok (FeedInav word svn g b) -> feed_inav o word svn g b = Ok o' -> s <> svn -> stored k (o_nav o) 0 s e ->
  exists e1, carried_over (o_nav o) g e e1 /\
    (stored k (o_nav o') 0 s e1 \/
     ((num_sats < 36)%nat /\
      (forall x, In x (stored_row k (o_nav o) 0) -> exists s', e_svn x = Some s' /\ s' <> svn) /\
      (forall x x1, In x (stored_row k (o_nav o) 0) -> carried_over (o_nav o) g x x1 ->
         oldest_word x1 <= oldest_word e1))).
Proof.
  intros Ho Hr (Hw & Hsvn & Hg) Hf Hne He. pose proof (reach_has h o Ho Hr) as Hn.
  unfold feed_inav in Hf. bind_inv Hf. injection Hf as <-. cbn [set_nav o_nav].
  exact (feed_other HS _ word svn g b x k s e Hn Hw Hsvn Hne E He).
Qed.

Lemma carried_cases (n : nav) g (e e1 : entry) : carried_over n g e e1 ->
  e_data e1 = e_data e /\ e_authbits e1 = e_authbits e /\ (stored_gst n 0 = Some (subframe_of g) -> e1 = e).
Proof.
  intros (C1 & C2). destruct (option_eqb gst_eqb (stored_gst n 0) (Some (subframe_of g))) eqn:Eq.
  - assert (e1 = e) as ->; [|auto]. apply C1. destruct (stored_gst n 0) as [g0|]; [|discriminate].
    cbn in Eq. apply gst_eqb_eq in Eq. congruence.
  - destruct C2 as (C2 & _ & C3 & _); auto. intros Eq'. rewrite Eq' in Eq. cbn in Eq. rewrite gst_eqb_refl in Eq. discriminate.
Qed.

(** The satellites of the storage are those of words that were fed. *)
Lemma stored_fed h : forall o k s e, Forall op_ok h -> run new h = Ok o -> stored k (o_nav o) 0 s e ->
  In s (map nw_svn (inav_words h)).
Proof.
  induction h as [|x h IH] using rev_ind; intros o k s e Ho Hr He.
  - injection Hr as <-. destruct He as (Hin & Hs). exfalso. cbn [osnma_new o_nav] in Hin. unfold stored_row in Hin.
    apply In_firstn, In_skipn in Hin.
    assert (e_svn e = None); [|congruence]. destruct k; cbn [nav_new nv_arr nv_ced nv_timing] in Hin; apply repeat_spec in Hin; now subst e.
  - apply Forall_app in Ho. destruct Ho as (Ho & Hx). apply Forall_cons_iff in Hx. destruct Hx as (Hx & _).
    rewrite run_snoc in Hr. bind_inv Hr. rename x0 into o1. rewrite inav_words_app, map_app. apply in_or_app.
    pose proof (reach_has _ _ Ho E) as Hn. assert (Hd : (0 < nav_depth)%nat) by apply (nv_sizes HS).
    destruct x as [word svn g b|data svn g]; cbn [step] in Hr.
    + destruct (Z.eq_dec s svn) as [->|Hne]; [right; now left|]. left.
      unfold feed_inav in Hr. bind_inv Hr. injection Hr as <-. cbn [set_nav o_nav] in He.
      destruct Hx as (Hw & Hsvn & Hg). pose proof (nav_feed_has HS _ word svn g b x Hn Hw Hsvn E0) as Hn'.
      apply (nav_has_stored HS) in He; auto.
      assert (R : stored_row k x 0 = feed_row k word svn b (base_row k (o_nav o1) g)).
      { destruct Hn as (hs & Hrep & _). now destruct (feed_stored HS hs _ _ _ _ _ _ Hrep E0) as (R & _). }
      destruct (base_row_ok HS (o_nav o1) g k Hn) as (Hrow & Hlen).
      pose proof (base_find HS (o_nav o1) g k s Hn) as Hb. destruct (find (has_svn s) (base_row k (o_nav o1) g)) as [e1|] eqn:Ef.
      * destruct Hb as (e0 & He0 & _). exact (IH o1 k s e0 Ho E He0).
      * exfalso. rewrite R, (feed_row_absent k word svn b _ s Hrow) in He; [discriminate|rewrite Hlen; apply (nv_sizes HS)|exact Hne|exact Ef].
    + left. apply feed_osnma_grown in Hr. destruct (grown_stored_back _ _ k 0 s e Hr He) as (e0 & He0 & _). exact (IH o1 k s e0 Ho E He0).
Qed.

(** As long as there is room a word of another satellite takes nothing away. *)
Lemma other_word_room h o o' word svn g b k s e : Forall op_ok h -> run new h = Ok o ->
  op_ok (FeedInav word svn g b) -> feed_inav o word svn g b = Ok o' -> s <> svn -> stored k (o_nav o) 0 s e ->
  room_for (map nw_svn (inav_words (h ++ [FeedInav word svn g b]))) ->
  exists e1, carried_over (o_nav o) g e e1 /\ stored k (o_nav o') 0 s e1.
Proof.
  intros Ho Hr Hx Hf Hne He (sats & Hl & Hin).
  destruct (other_word h o o' word svn g b k s e Ho Hr Hx Hf Hne He) as (e1 & Hco & [H|(_ & Hfull & _)]); [now exists e1|].
  exfalso. pose proof (reach_has _ _ Ho Hr) as Hn.
  destruct (stored_row_ok HS (o_nav o) 0 k Hn) as (Hrow & Hlen); [apply (nv_sizes HS)|].
  rewrite inav_words_app, map_app in Hin.
  destruct (row_room_in k (stored_row k (o_nav o) 0) svn sats) as (x & Hx1 & Hx2); [exact Hrow|lia| | | |].
  - apply Hin. apply in_or_app. right. now left.
  - intros x s' Hx1 Hx2. apply Hin. apply in_or_app. left. apply (stored_fed h o k s' x Ho Hr). now split.
  - intros x Hx1 Hx2. destruct (Hfull x Hx1) as (s' & E & Hn'). congruence.
  - destruct (Hfull x Hx1) as (s' & E & _). congruence.
Qed.
Lemma room_prefix l l' : room_for (l ++ l') -> room_for l.
Proof. intros (sats & Hl & H). exists sats. split; [exact Hl|]. intros s Hs. apply H. apply in_or_app. now left. Qed.
Lemma room_incl l l' : (forall s, In s l -> In s l') -> room_for l' -> room_for l.
Proof. intros Hs (sats & Hl & H). exists sats. split; [exact Hl|]. intros s Hi. auto. Qed.
Lemma op_svn_range x : op_ok x -> 1 <= op_svn x <= 36.
Proof. destruct x; cbn [op_ok op_svn]; intros (_ & H & _); exact H. Qed.
Lemma room_words h : room_for (map op_svn h) -> room_for (map nw_svn (inav_words h)).
Proof.
  apply room_incl. intros s Hs. apply in_map_iff in Hs. destruct Hs as (w & <- & Hw). unfold inav_words in Hw.
  apply in_flat_map in Hw. destruct Hw as (x & Hx & Hw). apply in_map_iff. exists x. split; [|exact Hx].
  destruct x; [|contradiction Hw]. destruct Hw as [<-|[]]. reflexivity.
Qed.
Lemma room_36 l : (36 <= num_sats)%nat -> Forall (fun s => 1 <= s <= 36) l -> room_for l.
Proof.
  intros H36 Hl. exists svn_iter. split; [exact H36|]. rewrite Forall_forall in Hl. intros s Hs. specialize (Hl s Hs).
  unfold svn_iter, num_svns. apply in_map_iff. exists (Z.to_nat s). split; [lia|]. apply in_seq. lia.
Qed.

Lemma room_36_ops h : (36 <= num_sats)%nat -> Forall op_ok h -> room_for (map op_svn h).
Proof.
  intros H36 Hok. apply (room_36 _ H36). apply Forall_map. revert Hok. apply Forall_impl. exact op_svn_range.
Qed.
Lemma room_36_words h : (36 <= num_sats)%nat -> Forall op_ok h -> room_for (map nw_svn (inav_words h)).
Proof. intros H36 Hok. apply room_words. exact (room_36_ops h H36 Hok). Qed.

(** As long as there is room nothing is lost. *)
Theorem never_lost h q : forall o o' k s e, room_for (map nw_svn (inav_words (h ++ q))) -> Forall op_ok (h ++ q) ->
  run new h = Ok o -> run o q = Ok o' -> stored k (o_nav o) 0 s e ->
  exists e', stored k (o_nav o') 0 s e' /\
    ((forall w, In w (inav_words q) -> nw_svn w <> s) ->
     e_data e' = e_data e /\ e_authbits e <= e_authbits e').
Proof.
  induction q as [|x q IH] using rev_ind; intros o o' k s e Hroom Ho Hr Hq He.
  - injection Hq as <-. exists e. split; auto. intros _. split; [reflexivity|lia].
  - rewrite app_assoc in Ho. apply Forall_app in Ho. destruct Ho as (Ho & Hx). apply Forall_cons_iff in Hx.
    destruct Hx as (Hx & _). rewrite run_app in Hq. destruct (run o q) as [o1|] eqn:E1; [|discriminate].
    unfold run in Hq. cbn [bind fold_outcome] in Hq. destruct (step o1 x) as [o2|] eqn:E2; [|discriminate]. cbn [bind] in Hq. injection Hq as <-.
    assert (Hroom1 : room_for (map nw_svn (inav_words (h ++ q)))).
    { rewrite app_assoc, inav_words_app, map_app in Hroom. exact (room_prefix _ _ Hroom). }
    destruct (IH o o1 k s e Hroom1 Ho Hr E1 He) as (e1 & He1 & Hs1).
    assert (Hr1 : run new (h ++ q) = Ok o1) by (rewrite run_app, Hr; exact E1).
    destruct x as [word svn g b|data svn g]; cbn [step] in E2.
    + destruct (Z.eq_dec s svn) as [->|Hne].
      * destruct (own_word _ o1 o2 word svn g b k Ho Hr1 Hx E2) as (e2 & He2 & _). exists e2. split; auto.
        intros Hw. exfalso. apply (Hw (mkNWord word svn g b)); [|reflexivity].
        rewrite inav_words_app. apply in_or_app. right. now left.
      * rewrite app_assoc in Hroom. destruct (other_word_room _ o1 o2 word svn g b k s e1 Ho Hr1 Hx E2 Hne He1 Hroom) as (e2 & Hco & He2).
        exists e2. split; auto. intros Hw. destruct (carried_cases _ _ _ _ Hco) as (D1 & D2 & _). rewrite D1, D2. apply Hs1.
        intros w Hin. apply Hw. rewrite inav_words_app. apply in_or_app. now left.
    + apply feed_osnma_grown in E2. destruct (grown_stored _ _ k 0 s e1 E2 He1) as (e2 & He2 & G1 & G2 & G3 & G4).
      exists e2. split; auto. intros Hw. rewrite G1. destruct Hs1 as (D1 & D2).
      { intros w Hin. apply Hw. rewrite inav_words_app. apply in_or_app. now left. }
      split; auto. destruct (stored_row_ok HS (o_nav o1) 0 k (reach_has _ _ Ho Hr1)) as (Hrow & _); [apply (nv_sizes HS)|].
      destruct He1 as (Hin1 & _). pose proof (row_ok_in k _ e1 Hrow Hin1) as [_ _ _ Ha _ _]. lia.
Qed.

(** A word of a satellite that has an entry takes nothing from the others. *)
Lemma other_word_known h o o' word svn g b k s e e0 : Forall op_ok h -> run new h = Ok o ->
  op_ok (FeedInav word svn g b) -> feed_inav o word svn g b = Ok o' -> s <> svn -> stored k (o_nav o) 0 s e ->
  stored k (o_nav o) 0 svn e0 ->
  exists e1, carried_over (o_nav o) g e e1 /\ stored k (o_nav o') 0 s e1.
Proof.
  intros Ho Hr Hx Hf Hne He (Hin0 & Hs0).
  destruct (other_word h o o' word svn g b k s e Ho Hr Hx Hf Hne He) as (e1 & Hco & [H|(_ & Hfull & _)]); [now exists e1|].
  exfalso. destruct (Hfull e0 Hin0) as (s' & E & N). congruence.
Qed.

Theorem known_kept h q : forall o o' k s e, Forall op_ok (h ++ q) ->
  run new h = Ok o -> run o q = Ok o' ->
  (forall w, In w (inav_words q) -> exists e0, stored k (o_nav o) 0 (nw_svn w) e0) ->
  stored k (o_nav o) 0 s e ->
  exists e', stored k (o_nav o') 0 s e' /\
    ((forall w, In w (inav_words q) -> nw_svn w <> s) ->
     e_data e' = e_data e /\ e_authbits e <= e_authbits e').
Proof.
  induction q as [|x q IH] using rev_ind; intros o o' k s e Ho Hr Hq Hkn He.
  - injection Hq as <-. exists e. split; auto. intros _. split; [reflexivity|lia].
  - rewrite app_assoc in Ho. apply Forall_app in Ho. destruct Ho as (Ho & Hx). apply Forall_cons_iff in Hx.
    destruct Hx as (Hx & _). rewrite run_app in Hq. destruct (run o q) as [o1|] eqn:E1; [|discriminate].
    unfold run in Hq. cbn [bind fold_outcome] in Hq. destruct (step o1 x) as [o2|] eqn:E2; [|discriminate]. cbn [bind] in Hq. injection Hq as <-.
    rewrite inav_words_app in Hkn.
    assert (Hkn1 : forall w, In w (inav_words q) -> exists e0, stored k (o_nav o) 0 (nw_svn w) e0).
    { intros w Hw. apply Hkn. apply in_or_app. now left. }
    destruct (IH o o1 k s e Ho Hr E1 Hkn1 He) as (e1 & He1 & Hs1).
    assert (Hr1 : run new (h ++ q) = Ok o1) by (rewrite run_app, Hr; exact E1).
    destruct x as [word svn g b|data svn g]; cbn [step] in E2.
    + destruct (Z.eq_dec s svn) as [->|Hne].
      * destruct (own_word _ o1 o2 word svn g b k Ho Hr1 Hx E2) as (e2 & He2 & _). exists e2. split; auto.
        intros Hw. exfalso. apply (Hw (mkNWord word svn g b)); [|reflexivity].
        rewrite inav_words_app. apply in_or_app. right. now left.
      * destruct (Hkn (mkNWord word svn g b)) as (e0 & He0); [apply in_or_app; right; now left|]. cbn [nw_svn] in He0.
        destruct (IH o o1 k svn e0 Ho Hr E1 Hkn1 He0) as (e0' & He0' & _).
        destruct (other_word_known _ o1 o2 word svn g b k s e1 e0' Ho Hr1 Hx E2 Hne He1 He0') as (e2 & Hco & He2).
        exists e2. split; auto. intros Hw. destruct (carried_cases _ _ _ _ Hco) as (D1 & D2 & _). rewrite D1, D2. apply Hs1.
        intros w Hin. apply Hw. rewrite inav_words_app. apply in_or_app. now left.
    + apply feed_osnma_grown in E2. destruct (grown_stored _ _ k 0 s e1 E2 He1) as (e2 & He2 & G1 & G2 & G3 & G4).
      exists e2. split; auto. intros Hw. rewrite G1. destruct Hs1 as (D1 & D2).
      { intros w Hin. apply Hw. rewrite inav_words_app. apply in_or_app. now left. }
      split; auto. destruct (stored_row_ok HS (o_nav o1) 0 k (reach_has _ _ Ho Hr1)) as (Hrow & _); [apply (nv_sizes HS)|].
      destruct He1 as (Hin1 & _). pose proof (row_ok_in k _ e1 Hrow Hin1) as [_ _ _ Ha _ _]. lia.
Qed.

(** ** The words of a subframe *)
Lemma latest_snoc k f ws w : latest k f (ws ++ [w]) = if carries k f w then Some w else latest k f ws.
Proof. unfold latest. rewrite rev_app_distr. reflexivity. Qed.

Lemma words_of_snoc svn ws w : words_of svn (ws ++ [w]) = if nw_svn w =? svn then words_of svn ws ++ [w] else words_of svn ws.
Proof. unfold words_of. rewrite filter_app. cbn [filter]. destruct (nw_svn w =? svn); [reflexivity|apply app_nil_r]. Qed.

Lemma latest_in k f ws w : latest k f ws = Some w -> In w ws.
Proof. intros H. apply find_some in H. apply in_rev. apply H. Qed.

Lemma subframe_words h q : forall o o' k svn g, Forall op_ok (h ++ q) ->
  run new h = Ok o -> run o q = Ok o' ->
  (forall w, In w (inav_words q) -> subframe_of (nw_gst w) = g) ->
  (room_for (map nw_svn (inav_words (h ++ q))) \/ (forall w, In w (inav_words q) -> nw_svn w = svn) \/
   (forall w, In w (inav_words q) -> exists e0, stored k (o_nav o) 0 (nw_svn w) e0)) ->
  (inav_words q <> [] -> stored_gst (o_nav o') 0 = Some g) /\
  forall i f w, nth_error (icd_fields k) i = Some f -> latest k f (words_of svn (inav_words q)) = Some w ->
    exists e, stored k (o_nav o') 0 svn e /\ efield k i e = nw_bits w (f_from f) (f_to f) /\
      nth_error (e_age e) i = Some 0.
Proof.
  induction q as [|x q IH] using rev_ind; intros o o' k svn g Ho Hr Hq Hg Hroom.
  - split; [intros Hn; now destruct Hn|]. intros i f w _ Hl. discriminate Hl.
  - rewrite app_assoc in Ho. apply Forall_app in Ho. destruct Ho as (Ho & Hx). apply Forall_cons_iff in Hx.
    destruct Hx as (Hx & _). rewrite run_app in Hq. destruct (run o q) as [o1|] eqn:E1; [|discriminate].
    unfold run in Hq. cbn [bind fold_outcome] in Hq. destruct (step o1 x) as [o2|] eqn:E2; [|discriminate]. cbn [bind] in Hq. injection Hq as <-.
    assert (Hr1 : run new (h ++ q) = Ok o1) by (rewrite run_app, Hr; exact E1).
    rewrite (inav_words_app q) in *.
    destruct (IH o o1 k svn g Ho Hr E1) as (IHg & IHf).
    { intros w Hin. apply Hg. apply in_or_app. now left. }
    { destruct Hroom as [Hroom|[Hsv|Hkn]]; [left|right; left|right; right].
      - rewrite app_assoc, inav_words_app, map_app in Hroom. exact (room_prefix _ _ Hroom).
      - intros w Hin. apply Hsv. apply in_or_app. now left.
      - intros w Hin. apply Hkn. apply in_or_app. now left. }
    pose proof (reach_has _ _ Ho Hr1) as Hn. assert (Hd : (0 < nav_depth)%nat) by apply (nv_sizes HS).
    destruct x as [word s gw b|data s gw]; cbn [step] in E2.
    2: { cbn [inav_words flat_map]. rewrite app_nil_r. apply feed_osnma_grown in E2. split.
         - intros Hne. rewrite (grown_gst _ _ 0 E2). auto.
         - intros i f w Hi Hl. destruct (IHf i f w Hi Hl) as (e & He & Hfe & Hag).
           destruct (grown_stored _ _ k 0 svn e E2 He) as (e2 & He2 & G1 & G2 & _). exists e2. split; auto.
           rewrite G2. unfold efield in *. rewrite G1. auto. }
    cbn [inav_words flat_map app] in Hg, Hroom |- *. set (w0 := mkNWord word s gw b) in *.
    assert (Hgw : subframe_of gw = g) by (apply (Hg w0); apply in_or_app; right; now left).
    assert (Hgst : stored_gst (o_nav o2) 0 = Some g).
    { unfold feed_inav in E2. bind_inv E2. injection E2 as <-. cbn [set_nav o_nav].
      destruct Hn as (hs & Hrep & _). destruct (feed_stored HS hs _ _ _ _ _ _ Hrep E) as (_ & ->). now rewrite Hgw. }
    split; [auto|]. intros i f w Hi Hl. rewrite words_of_snoc in Hl. cbn [nw_svn w0] in Hl.
    destruct (Z.eqb_spec s svn) as [->|Hne].
    + rewrite latest_snoc in Hl.
      destruct Hx as (Hw & Hsvn & Hgok). unfold feed_inav in E2. bind_inv E2. injection E2 as <-. cbn [set_nav o_nav] in *.
      destruct (feed_own HS _ word svn gw b x k Hn Hw Hsvn E) as (e1 & Hok & Hst & Hc).
      destruct (entry_feed_spec k word svn b e1 Hok Hw Hsvn) as (Hok' & Hs' & Hfs & _).
      destruct (entry_select_svn_spec svn e1) as (_ & _ & Sel1 & _).
      exists (entry_feed k word svn b e1). split; auto. specialize (Hfs i f Hi).
      rewrite (carries_same k f (the_word word svn b) w0) in Hfs by reflexivity.
      destruct (carries k f w0).
      * injection Hl as <-. destruct Hfs as (-> & ->). split; [apply nw_bits_same; reflexivity|reflexivity].
      * destruct (IHf i f w Hi Hl) as (e & He & Hfe & Hag).
        assert (Hcur : stored_gst (o_nav o1) 0 = Some g).
        { apply IHg. intros E0. rewrite E0 in Hl. discriminate Hl. }
        destruct Hc as [(e0 & He0 & Hco & Hes)|(Hno & _)]; [|now destruct (Hno e)].
        assert (e0 = e) as ->.
        { apply (nav_has_stored HS) in He; auto. apply (nav_has_stored HS) in He0; auto. congruence. }
        destruct (carried_cases _ _ _ _ Hco) as (_ & _ & Heq). rewrite Hgw in Heq. specialize (Heq Hcur). subst e1.
        rewrite (Sel1 Hes) in Hfs. destruct Hfs as (-> & ->). auto.
    + destruct (IHf i f w Hi Hl) as (e & He & Hfe & Hag).
      assert (Hcur : stored_gst (o_nav o1) 0 = Some g).
      { apply IHg. intros E0. rewrite E0 in Hl. discriminate Hl. }
      assert (Hk : exists e2, carried_over (o_nav o1) gw e e2 /\ stored k (o_nav o2) 0 svn e2).
      { destruct Hroom as [Hroom|[Hsv|Hkn]].
        - rewrite app_assoc in Hroom. apply (other_word_room _ o1 o2 word s gw b k svn e Ho Hr1 Hx E2); auto.
        - exfalso. apply Hne. apply (Hsv w0). apply in_or_app. right. now left.
        - destruct (Hkn w0) as (e0 & He0); [apply in_or_app; right; now left|].
          destruct (known_kept h q o o1 k s e0 Ho Hr E1) as (e0' & He0' & _); [|exact He0|].
          + intros w' Hin. apply Hkn. apply in_or_app. now left.
          + apply (other_word_known _ o1 o2 word s gw b k svn e e0' Ho Hr1 Hx E2); auto. }
      destruct Hk as (e2 & Hco & Hk).
      destruct (carried_cases _ _ _ _ Hco) as (_ & _ & Heq). rewrite Hgw in Heq. specialize (Heq Hcur). subst e2.
      exists e. auto.
Qed.

Lemma icd_data_some k ws bits : icd_data k ws = Some bits ->
  (forall i f, nth_error (icd_fields k) i = Some f -> exists w, latest k f ws = Some w) /\
  forall e, (forall i f w, nth_error (icd_fields k) i = Some f -> latest k f ws = Some w ->
               efield k i e = nw_bits w (f_from f) (f_to f)) -> message_bits k e = bits.
Proof.
  unfold icd_data. intros H.
  assert (Hgen : forall fs i0 bs, icd_data_from k fs ws = Some bs ->
    (forall i f, nth_error fs i = Some f -> exists w, latest k f ws = Some w) /\
    forall e, (forall i f w, nth_error fs i = Some f -> latest k f ws = Some w ->
                 efield k (i0 + i) e = nw_bits w (f_from f) (f_to f)) ->
      concat (map (fun i => efield k i e) (seq i0 (length fs))) = bs).
  { induction fs as [|f fs IH]; intros i0 bs Hb; cbn [icd_data_from] in Hb.
    - injection Hb as <-. split; [intros [|i]; discriminate|reflexivity].
    - destruct (latest k f ws) as [w|] eqn:El; [|discriminate].
      destruct (icd_data_from k fs ws) as [l|] eqn:Ed; [|discriminate]. injection Hb as <-.
      destruct (IH (Datatypes.S i0) l eq_refl) as (I1 & I2). split.
      + intros [|i] f' Hf'; cbn [nth_error] in Hf'; [injection Hf' as <-; eauto|eauto].
      + intros e He. cbn [length seq map concat]. f_equal.
        * rewrite <- (He 0%nat f w eq_refl El). f_equal. lia.
        * apply I2. intros i f' w' Hi Hl. rewrite <- (He (Datatypes.S i) f' w' Hi Hl). f_equal. lia. }
  destruct (Hgen _ 0%nat bits H) as (G1 & G2). split; auto.
  intros e He. rewrite message_bits_fields, <- (nfields k). apply G2. exact He.
Qed.

Theorem subframe_data h q o o' k svn g bits : Forall op_ok (h ++ q) ->
  run new h = Ok o -> run o q = Ok o' ->
  (forall w, In w (inav_words q) -> subframe_of (nw_gst w) = g) ->
  (room_for (map nw_svn (inav_words (h ++ q))) \/ (forall w, In w (inav_words q) -> nw_svn w = svn) \/
   (forall w, In w (inav_words q) -> exists e0, stored k (o_nav o) 0 (nw_svn w) e0)) ->
  icd_data k (words_of svn (inav_words q)) = Some bits ->
  exists e, stored k (o_nav o') 0 svn e /\ data_of k e = bits /\ stored_gst (o_nav o') 0 = Some g /\
    oldest_word e = 0 /\ (forall e', stored k (o_nav o') 0 svn e' -> e' = e).
Proof.
  intros Ho Hr Hq Hg Hroom Hd. destruct (subframe_words h q o o' k svn g Ho Hr Hq Hg Hroom) as (Hgst & Hf).
  destruct (icd_data_some _ _ _ Hd) as (Hall & Hbits).
  assert (Hr' : run new (h ++ q) = Ok o') by (rewrite run_app, Hr; exact Hq).
  pose proof (reach_has _ _ Ho Hr') as Hn. assert (Hdp : (0 < nav_depth)%nat) by apply (nv_sizes HS).
  assert (Huniq : forall e e', stored k (o_nav o') 0 svn e -> stored k (o_nav o') 0 svn e' -> e' = e).
  { intros e e' He He'. apply (nav_has_stored HS) in He; auto. apply (nav_has_stored HS) in He'; auto. congruence. }
  assert (exists f, nth_error (icd_fields k) 0 = Some f) as (f0 & Hf0) by (destruct k; eexists; reflexivity).
  destruct (Hall 0%nat f0 Hf0) as (w0 & Hw0).
  destruct (Hf 0%nat f0 w0 Hf0 Hw0) as (e & He & _). exists e. split; auto.
  assert (Hef : forall i f w, nth_error (icd_fields k) i = Some f -> latest k f (words_of svn (inav_words q)) = Some w ->
    efield k i e = nw_bits w (f_from f) (f_to f) /\ nth_error (e_age e) i = Some 0).
  { intros i f w Hi Hl. destruct (Hf i f w Hi Hl) as (e' & He' & Hb & Ha).
    rewrite <- (Huniq e e' He He'). auto. }
  split; [rewrite data_of_bits; apply Hbits; intros; now apply Hef|].
  split.
  { apply Hgst. intros E0. rewrite E0 in Hw0. discriminate Hw0. }
  split; [|intros; now apply Huniq].
  assert (Hz : Forall (fun x => x = 0) (e_age e)).
  { apply Forall_forall. intros x Hx. apply In_nth_error in Hx. destruct Hx as (i & Hi).
    destruct (stored_row_ok HS (o_nav o') 0 k Hn Hdp) as (Hrow & _). pose proof (row_ok_in k _ e Hrow (proj1 He)) as Hok.
    assert (Hlt : (i < kind_words k)%nat) by (rewrite <- (eo_age _ _ Hok); apply nth_error_Some; congruence).
    destruct (nth_error (icd_fields k) i) as [f|] eqn:Ef; [|apply nth_error_None in Ef; rewrite nfields in Ef; lia].
    destruct (Hall i f Ef) as (w & Hw). destruct (Hef i f w Ef Hw) as (_ & Ha). congruence. }
  unfold oldest_word. clear - Hz. induction Hz as [|x l Hx Hz IH]; [reflexivity|]. cbn [fold_right]. lia.
Qed.

End Crypto.

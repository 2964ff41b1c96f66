(** Two satellites that are new to a full storage take the place of each other. *)
From Coq Require Import ZArith List Bool Lia ZifyBool ZifyNat.
From Verif Require Import Model.Prelude Model.Params Model.Gst Model.Svn Model.Bitfields
  Model.Tesla Model.Merkle Model.Subframe Model.Dsm Model.MackStore Model.Nav Model.Osnma
  Spec.TimeSpec Spec.CollectSpec Spec.NavSpec Spec.TeslaSpec Spec.KrootSpec Spec.KeySpec Spec.SystemSpec Spec.StoredSpec
  Spec.StarveSpec
  Proofs.Base Proofs.Rows Proofs.GstProofs Proofs.NavProofs Proofs.EntryProofs Proofs.NavInv Proofs.NavHistory
  Proofs.SystemProofs Proofs.GetterProofs Proofs.KeyStoreProofs Proofs.StepProofs Proofs.PanicProofs
  Proofs.StoredProofs Proofs.RecentProofs.
Import ListNotations.
Open Scope Z_scope.
Ltac Zify.zify_post_hook ::= Z.div_mod_to_equations.

Lemma oldest_is_max e : oldest_word e = max_age e.
Proof. reflexivity. Qed.

(** Ageing. *)
Lemma fold_max_ge l x : 0 <= x -> In x l -> x <= fold_right Z.max 0 l.
Proof. intros Hx. induction l as [|y l IH]; intros Hin; [destruct Hin|]. cbn [fold_right]. destruct Hin as [->|Hin]; [lia|]. specialize (IH Hin). lia. Qed.
Lemma fold_max_in l m : 0 < m -> fold_right Z.max 0 l = m -> In m l.
Proof.
  intros Hm. induction l as [|y l IH]; cbn [fold_right]; intros H; [lia|].
  destruct (Z.max_spec y (fold_right Z.max 0 l)) as [(_ & E)|(_ & E)]; rewrite E in H; [right; now apply IH|now left].
Qed.
Lemma fold_max_pos l : 0 <= fold_right Z.max 0 l.
Proof. induction l; cbn [fold_right]; lia. Qed.
Lemma fold_max_le l c : 0 <= c -> Forall (fun x => x <= c) l -> fold_right Z.max 0 l <= c.
Proof. intros Hc H. induction H; cbn [fold_right]; lia. Qed.
Lemma max_age_aged e : (0 < length (e_age e))%nat -> Forall (fun a => 0 <= a <= 255) (e_age e) ->
  max_age (age_entry e) = Z.min 255 (max_age e + 1).
Proof.
  unfold max_age, age_entry. cbn [e_age]. destruct (e_age e) as [|x l]; [cbn; lia|]. intros _ H. revert H.
  revert x. induction l as [|y l IH]; intros x H.
  - apply Forall_cons_iff in H. destruct H as (H & _). cbn [map fold_right]. unfold sat_add_u8. lia.
  - apply Forall_cons_iff in H. destruct H as (Hx & H). specialize (IH y H).
    change (fold_right Z.max 0 (map (fun a => sat_add_u8 a 1) (x :: y :: l))) with
      (Z.max (sat_add_u8 x 1) (fold_right Z.max 0 (map (fun a => sat_add_u8 a 1) (y :: l)))).
    change (fold_right Z.max 0 (x :: y :: l)) with (Z.max x (fold_right Z.max 0 (y :: l))).
    rewrite IH. unfold sat_add_u8. lia.
Qed.

(** A word of the satellite does not make the oldest data older; a word of another satellite
    leaves at most one field that is not empty. *)
Lemma feed_max_age_own k word svn b e : entry_ok k e -> bytes_ok 16 word -> 1 <= svn <= 36 -> e_svn e = Some svn ->
  max_age (entry_feed k word svn b e) <= max_age e.
Proof.
  intros Hok Hw Hs He. destruct (entry_feed_spec k word svn b e Hok Hw Hs) as (Hok' & _ & Hf & _).
  destruct (entry_select_svn_spec svn e) as (_ & _ & Sel & _). rewrite (Sel He) in Hf.
  apply fold_max_le; [apply fold_max_pos|]. apply Forall_forall. intros x Hx. apply In_nth_error in Hx. destruct Hx as (i & Hi).
  assert (Hlt : (i < length (icd_fields k))%nat).
  { rewrite nfields, <- (eo_age _ _ Hok'). apply nth_error_Some. congruence. }
  destruct (nth_error (icd_fields k) i) as [f|] eqn:Ef; [|apply nth_error_None in Ef; lia].
  specialize (Hf i f Ef). destruct (carries k f _).
  - destruct Hf as (_ & Hf). assert (x = 0) as -> by congruence. apply fold_max_pos.
  - destruct Hf as (_ & Hf). rewrite Hi in Hf. symmetry in Hf. apply nth_error_In in Hf.
    apply fold_max_ge; [|exact Hf]. pose proof (eo_ages _ _ Hok) as Ha. rewrite Forall_forall in Ha. specialize (Ha x Hf). lia.
Qed.

Lemma carries_once k i j f f' w : nth_error (icd_fields k) i = Some f -> nth_error (icd_fields k) j = Some f' ->
  carries k f w = true -> carries k f' w = true -> i = j.
Proof.
  unfold carries. rewrite !andb_true_iff. intros Hi Hj (H1 & _) (H2 & _). apply Z.eqb_eq in H1, H2.
  assert (E : f_type f = f_type f') by congruence. clear H1 H2.
  destruct k; repeat (destruct i as [|i]; [repeat (destruct j as [|j]; [cbn in Hi, Hj; injection Hi as <-; injection Hj as <-; cbn in E; congruence|]); destruct j; discriminate Hj|]);
    destruct i; discriminate Hi.
Qed.

Lemma feed_max_age_other k word svn b e s : entry_ok k e -> bytes_ok 16 word -> 1 <= svn <= 36 -> e_svn e = Some s -> s <> svn ->
  max_age (entry_feed k word svn b e) = 255 /\ e_authbits (entry_feed k word svn b e) = 0.
Proof.
  intros Hok Hw Hs He Hne. destruct (entry_feed_spec k word svn b e Hok Hw Hs) as (Hok' & _ & Hf & Hsame & Hdiff).
  destruct (entry_select_svn_spec svn e) as (_ & _ & _ & Sel & _). destruct (Sel s He Hne) as (Sa & Sg). split.
  2: { destruct (list_eq_dec bool_dec (message_bits k (entry_feed k word svn b e)) (message_bits k e)) as [E|E]; [|auto].
       rewrite (Hsame E). exact Sa. }
  assert (Hle : max_age (entry_feed k word svn b e) <= 255).
  { apply fold_max_le; [lia|]. eapply Forall_impl; [|exact (eo_ages _ _ Hok')]. cbn beta. lia. }
  assert (Hex : exists i f, nth_error (icd_fields k) i = Some f /\ carries k f (the_word word svn b) = false).
  { destruct (nth_error (icd_fields k) 0) as [f0|] eqn:E0; [|destruct k; discriminate E0].
    destruct (nth_error (icd_fields k) 1) as [f1|] eqn:E1; [|destruct k; discriminate E1].
    destruct (carries k f0 (the_word word svn b)) eqn:C0; [|now exists 0%nat, f0].
    destruct (carries k f1 (the_word word svn b)) eqn:C1; [|now exists 1%nat, f1].
    pose proof (carries_once k 0 1 f0 f1 _ E0 E1 C0 C1). lia. }
  destruct Hex as (i & f & Hi & Hc). specialize (Hf i f Hi). rewrite Hc in Hf. destruct Hf as (_ & Hf).
  assert (Hlt : (i < length (e_age e))%nat).
  { rewrite (eo_age _ _ Hok), <- (nfields k). apply nth_error_Some. congruence. }
  rewrite Sg, nth_error_map in Hf. destruct (nth_error (e_age e) i) as [a|] eqn:Ea; [|apply nth_error_None in Ea; lia].
  cbn [option_map] in Hf. apply nth_error_In in Hf.
  pose proof (fold_max_ge (e_age (entry_feed k word svn b e)) 255 ltac:(lia) Hf) as H. unfold max_age in *. lia.
Qed.

(** ** The current row *)

Lemma max_age_le k e : entry_ok k e -> max_age e <= 255.
Proof. intros H. apply fold_max_le; [lia|]. eapply Forall_impl; [|exact (eo_ages _ _ H)]. cbn beta. lia. Qed.
Lemma max_age_age k e : entry_ok k e -> max_age (age_entry e) = Z.min 255 (max_age e + 1).
Proof. intros H. apply max_age_aged; [rewrite (eo_age _ _ H); destruct k; cbn; lia|exact (eo_ages _ _ H)]. Qed.

Section Contest.
Variables (a b z : Z) (F : list Z).
Hypothesis (Haz : a <> z) (Hbz : b <> z) (HaF : ~ In a F) (HbF : ~ In b F) (HzF : ~ In z F).
Definition rival (s : Z) : Prop := s = a \/ s = b.

(** [None]: the last entry is still that of [z]. *)
Definition rowst (r : list entry) (cur : option Z) : Prop :=
  exists front e, r = front ++ [e] /\ map e_svn front = map Some F /\
    match cur with
    | None => e_svn e = Some z /\ forall x, In x front -> max_age x <= max_age e
    | Some c => rival c /\ e_svn e = Some c /\ max_age e = 255
    end.

Lemma rowst_age k r cur : row_ok k r -> rowst r cur -> rowst (map age_entry r) cur.
Proof.
  intros Hr (front & e & -> & HF & Hc). pose proof (row_ok_in k _ e Hr ltac:(apply in_or_app; right; now left)) as He.
  exists (map age_entry front), (age_entry e). split; [now rewrite map_app|]. split; [rewrite map_map; exact HF|].
  destruct cur as [c|].
  - destruct Hc as (H0 & H1 & H2). split; [exact H0|]. split; [exact H1|]. rewrite (max_age_age k e He). lia.
  - destruct Hc as (H1 & H2). split; [exact H1|]. intros x Hx. apply in_map_iff in Hx. destruct Hx as (y & <- & Hy).
    pose proof (row_ok_in k _ y Hr ltac:(apply in_or_app; now left)) as Hyo.
    rewrite (max_age_age k y Hyo), (max_age_age k e He). specialize (H2 y Hy). lia.
Qed.

Lemma put_front i (x e : entry) front : (i < length front)%nat -> put i [x] (front ++ [e]) = put i [x] front ++ [e].
Proof.
  intros Hi. unfold put. cbn [length]. rewrite firstn_app, skipn_app.
  replace (i - length front)%nat with 0%nat by lia. replace (i + 1 - length front)%nat with 0%nat by lia.
  rewrite firstn_O, app_nil_r, !skipn_O, <- !app_assoc. reflexivity.
Qed.
Lemma put_end (x e : entry) front : put (length front) [x] (front ++ [e]) = front ++ [x].
Proof.
  unfold put. cbn [length]. rewrite firstn_app, Nat.sub_diag, firstn_O, app_nil_r, firstn_all.
  rewrite skipn_all2; [reflexivity|]. rewrite app_length. cbn. lia.
Qed.

(** A word of one of the other satellites. *)
Lemma rowst_known k word s bd r cur : row_ok k r -> bytes_ok 16 word -> 1 <= s <= 36 -> In s F -> rowst r cur ->
  rowst (feed_row k word s bd r) cur.
Proof.
  intros Hr Hw Hs Hin (front & e & -> & HF & Hc).
  destruct (feed_row_slot k word s bd (front ++ [e]) Hr) as (i & x & Hx & -> & Hslot); [rewrite app_length; cbn; lia|].
  assert (Hxs : e_svn x = Some s).
  { destruct Hslot as [H|(H & _)]; [exact H|exfalso]. apply (in_map Some) in Hin. rewrite <- HF in Hin.
    apply in_map_iff in Hin. destruct Hin as (y & E & Hy). apply (H y); [apply in_or_app; now left|exact E]. }
  assert (Hi : (i < length front)%nat).
  { destruct (Nat.lt_ge_cases i (length front)) as [H|H]; [exact H|exfalso].
    rewrite nth_error_app2 in Hx by exact H. destruct (i - length front)%nat as [|m]; [|destruct m; discriminate Hx].
    injection Hx as <-. destruct cur as [c|].
    - destruct Hc as (H0 & H1 & _). assert (c = s) by congruence. subst c. destruct H0; subst s; contradiction.
    - destruct Hc as (H1 & _). assert (z = s) by congruence. subst s. contradiction. }
  rewrite nth_error_app1 in Hx by exact Hi. rewrite put_front by exact Hi.
  assert (Hxo : entry_ok k x) by (apply (row_ok_in k _ x Hr); apply in_or_app; left; exact (nth_error_In _ _ Hx)).
  exists (put i [entry_feed k word s bd x] front), e. split; [reflexivity|]. split.
  - rewrite <- HF. apply nth_error_ext. intros j. rewrite !nth_error_map, nth_error_put1 by exact Hi.
    destruct (i =? j)%nat eqn:Ej; [|reflexivity]. apply Nat.eqb_eq in Ej. subst j. rewrite Hx. cbn [option_map].
    now rewrite entry_feed_svn, Hxs.
  - destruct cur as [c|]; [exact Hc|]. destruct Hc as (H1 & H2). split; [exact H1|]. intros y Hy.
    apply In_put in Hy. destruct Hy as [[<-|[]]|Hy]; [|now apply H2].
    apply Z.le_trans with (max_age x); [|apply H2; exact (nth_error_In _ _ Hx)].
    now apply feed_max_age_own.
Qed.

(** A word of one of the two satellites that is not that of the last entry. *)
Lemma rowst_new k word s bd r cur : row_ok k r -> bytes_ok 16 word -> 1 <= s <= 36 -> rival s -> cur <> Some s -> rowst r cur ->
  rowst (feed_row k word s bd r) (Some s) /\
  forall x, In x (feed_row k word s bd r) -> In x r \/ max_age x = 255 /\ e_authbits x = 0.
Proof.
  intros Hr Hw Hs Hri Hcur (front & e & -> & HF & Hc).
  assert (HsF : forall x, In x front -> exists s', e_svn x = Some s' /\ s' <> s).
  { intros x Hx. apply (in_map e_svn) in Hx. rewrite HF in Hx. apply in_map_iff in Hx. destruct Hx as (s' & <- & Hin).
    exists s'. split; [reflexivity|]. intros ->. destruct Hri; subst s; contradiction. }
  assert (Hes : exists s', e_svn e = Some s' /\ s' <> s).
  { destruct cur as [c|].
    - destruct Hc as (_ & H & _). exists c. split; [exact H|]. congruence.
    - destruct Hc as (H & _). exists z. split; [exact H|]. destruct Hri; congruence. }
  assert (Heo : entry_ok k e) by (apply (row_ok_in k _ e Hr); apply in_or_app; right; now left).
  assert (Hmax : forall x, In x front -> max_age x <= max_age e).
  { intros x Hx. destruct cur as [c|]; [|now apply Hc]. destruct Hc as (_ & _ & ->).
    apply (max_age_le k). apply (row_ok_in k _ x Hr). apply in_or_app. now left. }
  assert (Hidx : max_by_key (slot_key s) (front ++ [e]) = Some (length front)).
  { destruct (max_by_key_nonempty (slot_key s) (front ++ [e])) as (i & Hi); [rewrite app_length; cbn; lia|].
    rewrite Hi. f_equal. destruct (max_by_key_spec _ _ _ Hi) as (x & Hx & _ & Hlast).
    destruct (Nat.lt_ge_cases i (length front)) as [H|H].
    - exfalso. rewrite nth_error_app1 in Hx by exact H. specialize (Hlast (length front) e H).
      rewrite nth_error_app2, Nat.sub_diag in Hlast by lia. specialize (Hlast eq_refl). apply nth_error_In in Hx.
      destruct (HsF x Hx) as (s1 & E1 & N1). destruct Hes as (s2 & E2 & N2). unfold slot_key in Hlast. rewrite E1, E2 in Hlast.
      specialize (Hmax x Hx). destruct (Z.eqb_spec s1 s); [congruence|]. destruct (Z.eqb_spec s2 s); [congruence|]. lia.
    - apply nth_error_Some in Hx || assert (i < length (front ++ [e]))%nat by (apply nth_error_Some; congruence).
      rewrite app_length in *. cbn [length] in *. lia. }
  destruct Hes as (s2 & E2 & N2). destruct (feed_max_age_other k word s bd e s2 Heo Hw Hs E2 N2) as (M1 & M2).
  assert (Hfr : feed_row k word s bd (front ++ [e]) = front ++ [entry_feed k word s bd e]).
  { unfold feed_row. rewrite Hidx, nth_error_app2, Nat.sub_diag by lia. cbn [nth_error]. apply put_end. }
  rewrite Hfr. split.
  - exists front, (entry_feed k word s bd e). split; [reflexivity|]. split; [exact HF|]. split; [exact Hri|].
    split; [apply entry_feed_svn|exact M1].
  - intros x Hx. apply in_app_or in Hx. destruct Hx as [Hx|[<-|[]]]; [left; apply in_or_app; now left|right; now split].
Qed.

(** Tags change neither the satellites nor the ages. *)
Lemma rowst_grown r r' cur : Forall2 grown r r' -> rowst r cur -> rowst r' cur.
Proof.
  intros Hg (front & e & -> & HF & Hc). apply Forall2_app_inv_l in Hg. destruct Hg as (f' & l' & Hf & Hl & ->).
  inversion Hl as [|e0 e' l0 l1 He Hl0]; subst. inversion Hl0; subst. exists f', e'. split; [reflexivity|].
  destruct He as (_ & Ea & Es & _). split.
  - rewrite <- HF. clear - Hf. induction Hf as [|x y l l' (_ & _ & Es & _) H IH]; [reflexivity|]. cbn [map]. now rewrite Es, IH.
  - assert (Hma : max_age e' = max_age e) by (unfold max_age; now rewrite Ea). rewrite Es, Hma.
    destruct cur as [c|]; [exact Hc|]. destruct Hc as (H1 & H2). split; [exact H1|]. intros x Hx.
    apply In_nth_error in Hx. destruct Hx as (i & Hi).
    assert (Hex : exists y, nth_error front i = Some y /\ grown y x).
    { clear - Hf Hi. revert i Hi. induction Hf as [|y y' l l' Hy H IH]; intros [|i] Hi; try discriminate Hi.
      - injection Hi as <-. now exists y.
      - apply IH. exact Hi. }
    destruct Hex as (y & Hy & _ & Ey & _). unfold max_age at 1. rewrite Ey. apply H2. exact (nth_error_In _ _ Hy).
Qed.
End Contest.

Lemma tag_cop_small t : tag_cop t < 16.
Proof.
  unfold tag_cop. pose proof (load_be_range (sub (length t - 4) (length t) t)) as H.
  assert (Hl : (length (sub (length t - 4) (length t) t) <= 4)%nat) by (unfold sub; rewrite firstn_length; lia).
  assert (2 ^ Z.of_nat (length (sub (length t - 4) (length t) t)) <= 2 ^ 4) by (apply Z.pow_le_mono_r; lia).
  change (2 ^ 4) with 16 in *. lia.
Qed.

(** ** The whole storage *)
Section Storage.
Context {S : storage}.
Hypothesis HS : storage_ok S.

Lemma feed_kind_forall (P : entry -> Prop) k k' word s bd n n' : nav_feed_kind k' word s bd n = Ok n' ->
  Forall P (nv_arr k n) ->
  (k = k' -> Forall P (sub (nv_wp n * num_sats) ((nv_wp n + 1) * num_sats) (nv_arr k n'))) ->
  nv_wp n' = nv_wp n /\ (k <> k' -> nv_arr k n' = nv_arr k n) /\ Forall P (nv_arr k n').
Proof.
  unfold nav_feed_kind. intros H Hn Hrow. bind_inv H. bind_inv H. bind_inv H. bind_inv H. bind_inv H. injection H as <-.
  apply copy_from_ok in E3. destruct E3 as (L1 & L2 & L3 & ->).
  split; [now destruct k'|]. split; [now destruct k, k'|]. rewrite nv_arr_set in Hrow |- *.
  assert (G : k = k' -> Forall P (put (nv_wp n * num_sats) x2 (nv_arr k' n))).
  { intros <-. specialize (Hrow eq_refl). destruct k; (rewrite sub_put_same in Hrow; [apply Forall_put; assumption|lia|lia]). }
  destruct k, k'; auto.
Qed.

Lemma nav_feed_forall (P : entry -> Prop) k word s g bd n n' : (forall e, P e -> P (age_entry e)) ->
  StoredProofs.nav_has n' -> nav_feed n word s g bd = Ok n' -> Forall P (nv_arr k n) -> Forall P (stored_row k n' 0) ->
  Forall P (nv_arr k n').
Proof.
  intros Hage Hn' H Hn Hrow. unfold nav_feed in H. bind_inv H. bind_inv H.
  assert (H1 : Forall P (nv_arr k x)).
  { clear - Hage Hn E. unfold nav_adjust in E. bind_inv E. bind_inv E. bind_inv E. injection E as <-.
    assert (Hx : Forall P (nv_arr k x1)); [|destruct k; exact Hx]. clear E2. destruct x0 as [g0|]; [destruct (negb (gst_eqb g0 _))|].
    - bind_inv E1. bind_inv E1. injection E1 as <-.
      assert (Hca : forall l from to l', Forall P l -> copy_and_age l from to = Ok l' -> Forall P l').
      { clear - Hage. intros l from to l' Hl H. unfold copy_and_age, row_of in H. bind_inv H. apply slice_ok in E. destruct E as (_ & _ & ->).
        bind_inv H. apply copy_from_ok in E. destruct E as (_ & _ & _ & ->).
        bind_inv H. apply slice_ok in E. destruct E as (_ & _ & ->).
        apply copy_from_ok in H. destruct H as (_ & _ & _ & ->).
        assert (Hp : Forall P (put (to * num_sats) (sub (from * num_sats) ((from + 1) * num_sats) l) l)) by (apply Forall_put; [now apply Forall_sub|exact Hl]).
        apply Forall_put; [|exact Hp]. apply Forall_map. eapply Forall_impl; [|apply Forall_sub; exact Hp]. exact Hage. }
      destruct k; cbn [nv_arr nv_ced nv_timing] in *; eapply Hca; eassumption.
    - injection E1 as <-. exact Hn.
    - injection E1 as <-. exact Hn. }
  assert (Hwp : nv_wp n' = nv_wp x /\ nv_wp x0 = nv_wp x).
  { unfold nav_feed_kind in E0, H. bind_inv E0. bind_inv E0. bind_inv E0. bind_inv E0. bind_inv E0. injection E0 as <-.
    bind_inv H. bind_inv H. bind_inv H. bind_inv H. bind_inv H. injection H as <-. split; reflexivity. }
  destruct Hwp as (W1 & W2).
  assert (Hcur : stored_row k n' 0 = sub (nv_wp x * num_sats) ((nv_wp x + 1) * num_sats) (nv_arr k n')).
  { destruct Hn' as (hs & Hrep & _). pose proof (proj1 (proj2 (proj2 (proj2 Hrep)))) as Hw. unfold stored_row, sub. rewrite W1.
    rewrite W1 in Hw. assert (Hd : (0 < nav_depth)%nat) by apply (nv_sizes HS).
    assert (Hlt : (nv_wp x < nav_depth)%nat) by (rewrite Hw; apply Nat.mod_upper_bound; lia).
    replace ((nav_depth + nv_wp x - 0) mod nav_depth)%nat with (nv_wp x); [f_equal; lia|].
    rewrite Nat.sub_0_r. replace (nav_depth + nv_wp x)%nat with (nv_wp x + 1 * nav_depth)%nat by lia.
    rewrite Nat.mod_add by lia. symmetry. now apply Nat.mod_small. }
  rewrite Hcur in Hrow.
  destruct k.
  - assert (Harr : nv_arr Ced n' = nv_arr Ced x0).
    { clear - H. unfold nav_feed_kind in H. bind_inv H. bind_inv H. bind_inv H. bind_inv H. bind_inv H. injection H as <-. reflexivity. }
    rewrite Harr in *. exact (proj2 (proj2 (feed_kind_forall P Ced Ced word s bd x x0 E0 H1 (fun _ => Hrow)))).
  - destruct (feed_kind_forall P Timing Ced word s bd x x0 E0 H1 ltac:(discriminate)) as (_ & _ & H2).
    rewrite <- W2 in Hrow. exact (proj2 (proj2 (feed_kind_forall P Timing Timing word s bd x0 n' H H2 (fun _ => Hrow)))).
Qed.

Section Crypto.
Context {C : crypto} {B : build}.

(** Whatever every tag preserves, every call with OSNMA data preserves. *)
Section Tags.
Variable R : nav -> nav -> Prop.
Hypothesis Rrefl : forall n, R n n.
Hypothesis Rtrans : forall n1 n2 n3, R n1 n2 -> R n2 n3 -> R n1 n3.
Hypothesis Rtag : forall k key tag cop gm gn prnd svn prna j s n n', cop < 16 ->
  process_one_tag k key tag cop gm gn prnd svn prna j s n = Ok n' -> R n n'.

Lemma process_mack_rel n m key prna gm s n' : process_mack n m key prna gm s = Ok n' -> R n n'.
Proof.
  unfold process_mack. intros H. bind_inv H. bind_inv H. bind_inv H. bind_inv H.
  assert (Hcop : x0 < 16).
  { unfold mack_cop in E0. bind_inv E0. injection E0 as <-. apply slice_ok in E3. destruct E3 as (_ & L & ->).
    pose proof (load_be_range (sub (mk_tag_size m + 12) (mk_tag_size m + 12 + 4) (mk_data m))) as Hl.
    rewrite length_sub in Hl by lia. replace (mk_tag_size m + 12 + 4 - (mk_tag_size m + 12))%nat with 4%nat in Hl by lia. cbn in Hl. lia. }
  apply Rtag in E2; [|exact Hcop]. apply Rtrans with x2; [exact E2|].
  apply (fold_outcome_inv (process_mack_tag m key prna gm x s) (R x2)) in H; auto.
  intros n1 j n2 _ H1 H2. apply Rtrans with n1; [exact H1|]. unfold process_mack_tag in H2.
  bind_inv H2. destruct (prnd_to_u8 _); [|injection H2 as <-; apply Rrefl].
  destruct (tag_adkd _); try (injection H2 as <-; apply Rrefl);
    (destruct (svn_try_from _); [|injection H2 as <-; apply Rrefl]; eapply Rtag; [|exact H2]; apply tag_cop_small).
Qed.
Lemma process_slowmac_rel n m key prna gm s n' : process_mack_slowmac n m key prna gm s = Ok n' -> R n n'.
Proof.
  unfold process_mack_slowmac. intros H. bind_inv H.
  apply (fold_outcome_inv (process_slowmac_tag m key prna gm x s) (R n)) in H; auto.
  intros n1 j n2 _ H1 H2. apply Rtrans with n1; [exact H1|]. unfold process_slowmac_tag in H2.
  bind_inv H2. destruct (negb _); [injection H2 as <-; apply Rrefl|].
  destruct (prnd_to_u8 _); [|injection H2 as <-; apply Rrefl].
  destruct (svn_try_from _); [|injection H2 as <-; apply Rrefl]. eapply Rtag; [|exact H2]; apply tag_cop_small.
Qed.
Lemma tags_fast_rel st sl key g svn n n' : process_tags_fast st sl key g svn n = Ok n' -> R n n'.
Proof.
  unfold process_tags_fast. intros H. destruct sl; [injection H as <-; apply Rrefl|].
  bind_inv H. destruct x as [[m s]|]; [|injection H as <-; apply Rrefl].
  bind_inv H. destruct x as [m'|]; [|injection H as <-; apply Rrefl]. now apply process_mack_rel in H.
Qed.
Lemma tags_slow_rel st sk key g svn n n' : process_tags_slow st sk key g svn n = Ok n' -> R n n'.
Proof.
  unfold process_tags_slow. intros H. destruct sk as [sk|]; [|injection H as <-; apply Rrefl].
  bind_inv H. destruct x as [[m s]|]; [|injection H as <-; apply Rrefl].
  bind_inv H. destruct x as [m'|]; [|injection H as <-; apply Rrefl]. now apply process_slowmac_rel in H.
Qed.
Lemma process_tags_rel o key o' : process_tags o key = Ok o' -> R (o_nav o) (o_nav o').
Proof.
  unfold process_tags. intros H. bind_inv H. bind_inv H. bind_inv H. bind_inv H. bind_inv H. injection H as <-.
  cbn [set_nav o_nav].
  apply (fold_outcome_inv (fun n svn => n0 <- process_tags_fast (o_mack o) (o_slow o) key x svn n ;;
           process_tags_slow (o_mack o) x2 key x0 svn n0) (R (o_nav o))) in E3; auto.
  intros n1 svn n2 _ H1 H2. bind_inv H2. apply tags_fast_rel in E4. apply tags_slow_rel in H2. eauto.
Qed.
Lemma feed_osnma_rel o d svn g o' : feed_osnma o d svn g = Ok o' -> R (o_nav o) (o_nav o').
Proof.
  unfold feed_osnma. intros H. destruct (forallb _ _); [injection H as <-; apply Rrefl|].
  bind_inv H. destruct x as (sf & [[[hk mk] sg]|]).
  2: { injection H as <-. apply Rrefl. }
  unfold process_subframe in H. bind_inv H. bind_inv H. bind_inv H. bind_inv H. destruct x2 as (cd & dd).
  bind_inv H. replace (o_nav o) with (o_nav x2).
  2: { destruct dd; [now apply process_dsm_nav in E4|]. injection E4 as <-. reflexivity. }
  apply validate_key_effect in H. destruct H as [->|cur key ks Hc Hv Hlt Hch Hg Hs Ht]; [apply Rrefl|].
  now apply process_tags_rel in Ht.
Qed.
End Tags.

(** Entries of the two satellites are never complete and have no authentication bits. *)
Definition barren (a b : Z) (e : entry) : Prop :=
  forall s, rival a b s -> e_svn e = Some s -> In 255 (e_age e) /\ e_authbits e = 0.
Definition all_barren (a b : Z) (n : nav) : Prop := forall k, Forall (barren a b) (nv_arr k n).

Lemma barren_age a b e : barren a b e -> barren a b (age_entry e).
Proof.
  intros H s Hri Hs. destruct (H s Hri Hs) as (M1 & M2). split; [|exact M2]. cbn [age_entry e_age].
  apply (in_map (fun a => sat_add_u8 a 1)) in M1. exact M1.
Qed.
Lemma barren_tag a b k key tag cop gm gn prnd svn prna j s n n' : cop < 16 ->
  process_one_tag k key tag cop gm gn prnd svn prna j s n = Ok n' -> all_barren a b n -> all_barren a b n'.
Proof.
  intros Hcop H Hn. unfold process_one_tag in H. destruct (cop =? 0).
  - bind_inv H. injection H as <-. exact Hn.
  - bind_inv H. destruct x as [e|]; [|injection H as <-; exact Hn].
    destruct (_ <=? _) eqn:Ele; [|injection H as <-; exact Hn].
    assert (He : In e (nv_arr k n) /\ e_svn e = Some svn).
    { unfold find_entry in E. bind_inv E. destruct x as [i|]; [|discriminate]. bind_inv E. unfold find_first in E.
      injection E as E. apply find_some in E. destruct E as (Hin & Hs). unfold row_of in E1. apply slice_ok in E1.
      destruct E1 as (_ & _ & ->). apply In_sub in Hin. split; [exact Hin|]. unfold option_eqb in Hs.
      destruct (e_svn e) as [s'|]; [|discriminate]. f_equal. now apply Z.eqb_eq. }
    destruct He as (Hin & Hs).
    assert (Hnot : ~ rival a b svn).
    { intros Hri. specialize (Hn k). rewrite Forall_forall in Hn. destruct (Hn e Hin svn Hri Hs) as (Hm & _).
      pose proof (fold_max_ge (e_age e) 255 ltac:(lia) Hm) as Hge. fold (max_age e) in Hge. unfold sat_add_u8 in Ele. lia. }
    bind_inv H. destruct x as (r & l). injection H as <-.
    assert (Hl : Forall (barren a b) l).
    { unfold nav_validate_tag in E0. bind_inv E0. bind_inv E0. injection E0 as <- <-.
      assert (Ha : Forall (barren a b) (add_authbits_all k tag e (nv_arr k n))).
      { unfold add_authbits_all. apply Forall_map. eapply Forall_impl; [|exact (Hn k)]. intros e' He' s' Hri Hs'.
        destruct (option_eqb Z.eqb (e_svn e) (e_svn e')) eqn:Eo; cbn [andb] in *; [|now apply (He' s')].
        destruct (bits_eqb _ _); [|now apply (He' s')]. exfalso. cbn [add_authbits e_svn] in Hs'.
        rewrite Hs, Hs' in Eo. cbn in Eo. apply Z.eqb_eq in Eo. subst s'. contradiction. }
      destruct x0; [destruct s|]; try exact (Hn k); exact Ha. }
    intros k'. rewrite nv_arr_set. destruct k, k'; try exact Hl; exact (Hn _).
Qed.

Lemma barren_osnma a b o d svn g o' : feed_osnma o d svn g = Ok o' -> all_barren a b (o_nav o) -> all_barren a b (o_nav o').
Proof.
  apply (feed_osnma_rel (fun n n' => all_barren a b n -> all_barren a b n')); [auto|auto|].
  intros. eapply barren_tag; eassumption.
Qed.

Hypothesis HC : crypto_ok C.
Variables (root : option (list Z)) (user : option public_key) (slow : bool).
Notation new := (osnma_new root user slow).

(** A satellite that has not been received is nowhere. *)
Lemma nowhere h s : forall o, Forall op_ok h -> run new h = Ok o -> ~ In s (map nw_svn (inav_words h)) ->
  forall k, Forall (fun e => e_svn e <> Some s) (nv_arr k (o_nav o)).
Proof.
  induction h as [|x h IH] using rev_ind; intros o Hok Hr Hno k.
  - injection Hr as <-. cbn [osnma_new o_nav]. apply Forall_forall. intros e He.
    destruct k; cbn [nav_new nv_arr nv_ced nv_timing] in He; apply repeat_spec in He; subst e; discriminate.
  - pose proof Hok as Hok'. apply Forall_app in Hok. destruct Hok as (Hok & Hx). apply Forall_cons_iff in Hx. destruct Hx as (Hx & _).
    pose proof Hr as Hr'. rewrite run_snoc in Hr. bind_inv Hr. rename x0 into o1.
    pose proof Hno as Hno'. rewrite inav_words_app, map_app in Hno.
    assert (H1 : forall k, Forall (fun e => e_svn e <> Some s) (nv_arr k (o_nav o1))).
    { apply IH; auto. intros H. apply Hno. apply in_or_app. now left. }
    destruct x as [word sv g bd|data sv g]; cbn [step] in Hr.
    + unfold feed_inav in Hr. bind_inv Hr. injection Hr as <-. cbn [set_nav o_nav] in *.
      eapply (nav_feed_forall (fun e => e_svn e <> Some s) k word sv g bd (o_nav o1)); [intros e He; exact He| |exact E0|apply H1|].
      * exact (reach_has HC HS root user slow _ _ Hok' Hr').
      * apply Forall_forall. intros e He Hs. apply Hno'. apply (stored_fed HC HS root user slow _ _ k s e Hok' Hr'). now split.
    + apply feed_osnma_grown in Hr. destruct Hr as (_ & _ & G). specialize (G k). specialize (H1 k).
      clear - G H1. induction G as [|e e' l l' (_ & _ & Es & _) G IHG]; [constructor|]. apply Forall_cons_iff in H1.
      constructor; [rewrite Es; apply H1|now apply IHG].
Qed.

Section Contest.
Variables (a b z : Z) (F : list Z).
Hypothesis (Haz : a <> z) (Hbz : b <> z) (HaF : ~ In a F) (HbF : ~ In b F) (HzF : ~ In z F).
Definition last_turn (q : list op) : option Z :=
  match rev (filter (fun s => (s =? a) || (s =? b)) (map nw_svn (inav_words q))) with
  | s :: _ => Some s
  | [] => None
  end.

Lemma turns_prefix l l' : take_turns a b (l ++ l') -> take_turns a b l.
Proof. intros H l1 s l2 E. apply (H l1 s (l2 ++ filter (fun s => (s =? a) || (s =? b)) l')). rewrite filter_app, E, <- app_assoc. reflexivity. Qed.

Lemma contest h q : forall o o', Forall op_ok (h ++ q) -> run new h = Ok o -> run o q = Ok o' ->
  (forall k, full_with k (o_nav o) F z) -> all_barren a b (o_nav o) ->
  (forall w, In w (inav_words q) -> rival a b (nw_svn w) \/ In (nw_svn w) F) ->
  take_turns a b (map nw_svn (inav_words q)) ->
  all_barren a b (o_nav o') /\ forall k, rowst a b z F (stored_row k (o_nav o') 0) (last_turn q).
Proof.
  induction q as [|x q IH] using rev_ind; intros o o' Hok Hr Hq Hfull Hbar Hw Ht.
  - injection Hq as <-. split; [exact Hbar|]. intros k. destruct (Hfull k) as (front & e & E1 & E2 & E3 & E4).
    exists front, e. split; [exact E1|]. split; [exact E2|]. cbn [last_turn inav_words flat_map map filter rev]. split; [exact E3|exact E4].
  - pose proof Hok as Hok'. rewrite app_assoc in Hok. apply Forall_app in Hok. destruct Hok as (Hok & Hx). apply Forall_cons_iff in Hx.
    destruct Hx as (Hx & _). rewrite run_app in Hq. destruct (run o q) as [o1|] eqn:E1; [|discriminate].
    unfold run in Hq. cbn [bind fold_outcome] in Hq. destruct (step o1 x) as [o2|] eqn:E2; [|discriminate]. cbn [bind] in Hq. injection Hq as <-.
    assert (Hr1 : run new (h ++ q) = Ok o1) by (rewrite run_app, Hr; exact E1).
    assert (Hr2 : run new (h ++ q ++ [x]) = Ok o2) by (rewrite app_assoc, run_snoc, Hr1; exact E2).
    rewrite (inav_words_app q) in Hw, Ht. rewrite map_app in Ht.
    destruct (IH o o1 Hok Hr E1 Hfull Hbar) as (B1 & R1); [|now apply turns_prefix in Ht|].
    { intros w Hin. apply Hw. apply in_or_app. now left. }
    pose proof (reach_has HC HS root user slow _ _ Hok Hr1) as Hn1. pose proof (reach_has HC HS root user slow _ _ Hok' Hr2) as Hn2.
    unfold last_turn. rewrite (inav_words_app q), map_app, filter_app.
    destruct x as [word s g bd|data s g]; cbn [step] in E2.
    2: { cbn [inav_words flat_map map filter]. rewrite app_nil_r. fold (last_turn q). split; [now apply (barren_osnma a b) in E2|].
         intros k. apply feed_osnma_grown in E2. apply (rowst_grown a b z F (stored_row k (o_nav o1) 0)); [|apply R1].
         destruct E2 as (_ & W & G). rewrite !stored_row_row, W. apply Forall2_row. apply G. }
    cbn [inav_words flat_map app map filter nw_svn] in Ht, Hw |- *. specialize (Hw (mkNWord word s g bd)) as Hs. cbn [nw_svn] in Hs.
    specialize (Hs ltac:(apply in_or_app; right; now left)). clear Hw.
    destruct Hx as (Hw & Hsvn & Hg). unfold feed_inav in E2. bind_inv E2. injection E2 as <-. cbn [set_nav o_nav] in *.
    destruct Hn1 as (hs & Hrep & Hnok). destruct (feed_stored HS hs _ _ _ _ _ _ Hrep E) as (Hrow & _).
    assert (Hn1 : StoredProofs.nav_has (o_nav o1)) by (exists hs; now split).
    assert (Hbase : forall k, rowst a b z F (base_row k (o_nav o1) g) (last_turn q)).
    { intros k. destruct (stored_row_ok HS (o_nav o1) 0 k Hn1) as (Hro & _); [apply (nv_sizes HS)|]. unfold base_row.
      destruct (stored_gst (o_nav o1) 0) as [g0|] eqn:Eg.
      - destruct (gst_eqb g0 (subframe_of g)); [apply R1|]. apply (rowst_age a b z F k); [exact Hro|apply R1].
      - exfalso. destruct hs as [|s0 hs _] using rev_ind.
        + destruct (stored_current_fresh HS _ Hrep) as (F1 & _). destruct (R1 k) as (front & e & Er & _ & Hc).
          assert (He : e_svn e = None).
          { assert (Hin : In e (stored_row k (o_nav o1) 0)) by (rewrite Er; apply in_or_app; right; now left).
            rewrite F1 in Hin. unfold fresh_row in Hin. apply repeat_spec in Hin. now subst e. }
          destruct (last_turn q); [destruct Hc as (_ & Hc & _)|destruct Hc as (Hc & _)]; congruence.
        + destruct (stored_current HS hs s0 _ Hrep) as (_ & G0). congruence. }
    assert (Hbb : forall k, Forall (barren a b) (base_row k (o_nav o1) g)).
    { intros k. assert (Hst : Forall (barren a b) (stored_row k (o_nav o1) 0)).
      { apply Forall_forall. intros e He. unfold stored_row in He. apply In_firstn, In_skipn in He. specialize (B1 k).
        rewrite Forall_forall in B1. now apply B1. }
      destruct (stored_row_ok HS (o_nav o1) 0 k Hn1) as (Hro & _); [apply (nv_sizes HS)|].
      unfold base_row. destruct (stored_gst (o_nav o1) 0) as [g0|].
      - destruct (gst_eqb g0 (subframe_of g)); [exact Hst|]. apply Forall_map. apply Forall_forall. intros e He s' Hri Hs'.
        rewrite Forall_forall in Hst. apply (barren_age a b e (Hst e He) s' Hri Hs').
      - apply Forall_forall. intros e He s' _ Hs'. unfold fresh_row in He. apply repeat_spec in He. subst e. discriminate Hs'. }
    assert (Hgoal : (forall k, Forall (barren a b) (stored_row k x 0)) ->
      all_barren a b x).
    { intros Hst k. apply (nav_feed_forall (barren a b) k word s g bd (o_nav o1)); auto using barren_age. }
    destruct Hs as [Hri|HsF].
    + assert (Hlast : last_turn q <> Some s).
      { unfold last_turn. intros El. set (l := filter (fun s => (s =? a) || (s =? b)) (map nw_svn (inav_words q))) in *.
        destruct (rev l) as [|s' l0] eqn:Erev; [discriminate|]. injection El as ->.
        assert (Er : l = rev l0 ++ [s]) by (rewrite <- (rev_involutive l), Erev; reflexivity).
        apply (Ht (rev l0) s []). rewrite filter_app. fold l. rewrite Er. cbn [filter].
        replace ((s =? a) || (s =? b)) with true; [now rewrite <- app_assoc|].
        symmetry. apply orb_true_iff. destruct Hri; [left|right]; now apply Z.eqb_eq. }
      replace ((s =? a) || (s =? b)) with true.
      2: { symmetry. apply orb_true_iff. destruct Hri; [left|right]; now apply Z.eqb_eq. }
      rewrite rev_app_distr. cbn [rev app].
      assert (Hnew : forall k, rowst a b z F (stored_row k x 0) (Some s) /\ Forall (barren a b) (stored_row k x 0)).
      { intros k. rewrite Hrow. destruct (base_row_ok HS (o_nav o1) g k Hn1) as (Hro & _).
        destruct (rowst_new a b z F Haz Hbz HaF HbF k word s bd _ (last_turn q) Hro Hw Hsvn Hri Hlast (Hbase k)) as (N1 & N2).
        split; [exact N1|]. apply Forall_forall. intros e He. destruct (N2 e He) as [Hin|(M1 & M2)].
        - specialize (Hbb k). rewrite Forall_forall in Hbb. now apply Hbb.
        - intros s' _ _. split; [|exact M2]. apply fold_max_in; [lia|exact M1]. }
      split; [apply Hgoal; intros k; apply Hnew|intros k; apply Hnew].
    + replace ((s =? a) || (s =? b)) with false.
      2: { symmetry. apply orb_false_iff. split; apply Z.eqb_neq; intros ->; contradiction. }
      rewrite app_nil_r. fold (last_turn q).
      assert (Hnew : forall k, rowst a b z F (stored_row k x 0) (last_turn q) /\ Forall (barren a b) (stored_row k x 0)).
      { intros k. rewrite Hrow. destruct (base_row_ok HS (o_nav o1) g k Hn1) as (Hro & Hlen). split.
        - now apply (rowst_known a b z F HaF HbF HzF).
        - destruct (feed_row_slot k word s bd _ Hro) as (i & e & He & -> & _); [rewrite Hlen; apply (nv_sizes HS)|].
          apply Forall_put; [|apply Hbb]. constructor; [|constructor]. intros s' Hri Hs'. rewrite entry_feed_svn in Hs'.
          exfalso. injection Hs' as <-. destruct Hri; subst s; contradiction. }
      split; [apply Hgoal; intros k; apply Hnew|intros k; apply Hnew].
Qed.

(** Two satellites that are new to a full storage and take turns are never stored completely,
    and nothing of them is ever returned. *)
Theorem starve h q o o' : Forall op_ok (h ++ q) -> run new h = Ok o -> run o q = Ok o' ->
  (forall k, full_with k (o_nav o) F z) ->
  ~ In a (map nw_svn (inav_words h)) -> ~ In b (map nw_svn (inav_words h)) ->
  (forall w, In w (inav_words q) -> rival a b (nw_svn w) \/ In (nw_svn w) F) ->
  take_turns a b (map nw_svn (inav_words q)) ->
  forall k s, rival a b s ->
  (forall j e, stored k (o_nav o') j s e -> (j < nav_depth)%nat -> oldest_word e = 255 /\ e_authbits e = 0) /\
  (forall d, getter k o' s <> Ok (Some d)).
Proof.
  intros Hok Hr Hq Hfull Ha Hb Hw Ht k s Hri.
  assert (Hokh : Forall op_ok h) by (apply Forall_app in Hok; apply Hok).
  assert (Hr' : run new (h ++ q) = Ok o') by (rewrite run_app, Hr; exact Hq).
  assert (Hbar : all_barren a b (o_nav o)).
  { intros k0. apply Forall_forall. intros e He s' Hri' Hs'. exfalso.
    destruct Hri' as [->| ->]; [pose proof (nowhere h a o Hokh Hr Ha k0) as N|pose proof (nowhere h b o Hokh Hr Hb k0) as N];
      rewrite Forall_forall in N; exact (N e He Hs'). }
  destruct (contest h q o o' Hok Hr Hq Hfull Hbar Hw Ht) as (Hbar' & _).
  assert (Hst : forall j e, stored k (o_nav o') j s e -> (j < nav_depth)%nat -> oldest_word e = 255 /\ e_authbits e = 0).
  { intros j e (Hin & Hs) Hj.
    destruct (stored_row_ok HS (o_nav o') j k (reach_has HC HS root user slow _ _ Hok Hr') Hj) as (Hrow & _).
    pose proof (max_age_le k e (row_ok_in k _ e Hrow Hin)) as Hle. unfold stored_row in Hin. apply In_firstn, In_skipn in Hin.
    specialize (Hbar' k). rewrite Forall_forall in Hbar'. destruct (Hbar' e Hin s Hri Hs) as (M1 & M2). split; [|exact M2].
    pose proof (fold_max_ge (e_age e) 255 ltac:(lia) M1) as Hge. rewrite oldest_is_max. fold (max_age e) in Hge. lia. }
  split; [exact Hst|]. intros d Hd.
  destruct (getter_some HC HS root user slow (h ++ q) o' k s d Hok Hr' Hd) as (j & e & g & Hj & He & H40 & _).
  destruct (Hst j e He Hj). lia.
Qed.
End Contest.
End Crypto.
End Storage.

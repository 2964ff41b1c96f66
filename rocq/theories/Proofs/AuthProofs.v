(** Valid tags do authenticate: retention of the MACK messages, and the whole call. *)
From Coq Require Import ZArith List Bool Lia ZifyBool ZifyNat Sorted.
From Verif Require Import Model.Prelude Model.Params Model.Gst Model.Svn Model.Bitfields
  Model.Maclt Model.Tesla Model.Merkle Model.Subframe Model.Dsm Model.MackStore Model.Nav Model.Osnma
  Spec.TimeSpec Spec.CollectSpec Spec.StoreSpec Spec.NavSpec Spec.TeslaSpec Spec.KrootSpec
  Spec.MerkleSpec Spec.MacltSpec Spec.KeySpec Spec.SystemSpec Spec.StoredSpec Spec.CompleteSpec
  Proofs.Base Proofs.Ring Proofs.Rows Proofs.GstProofs Proofs.LayoutProofs Proofs.SubframeProofs Proofs.DsmProofs
  Proofs.MackProofs Proofs.NavProofs Proofs.EntryProofs Proofs.NavInv Proofs.TeslaProofs
  Proofs.KrootProofs Proofs.MackValidProofs Proofs.MerkleProofs Proofs.TagProofs Proofs.NavHistory
  Proofs.SystemProofs Proofs.GetterProofs Proofs.KeyStoreProofs Proofs.StepProofs Proofs.AlertProofs
  Proofs.StoredProofs Proofs.RecentProofs Proofs.CompleteProofs.
Import ListNotations.
Open Scope Z_scope.
Ltac Zify.zify_post_hook ::= Z.div_mod_to_equations.

(** ** The MACK messages of the last subframes are kept *)

Definition before {A} (a b : gst * A) : Prop := time_of (fst a) < time_of (fst b).
Definition start_ok {A} (x : gst * A) : Prop := gst_ok (fst x) /\ is_subframe (fst x) = true.

(** The stretches are in time order, none later than [g]. *)
Definition ordered (g : gst) (gs : list (gst * list item)) : Prop :=
  StronglySorted before gs /\ Forall start_ok gs /\ Forall (fun x => time_of (fst x) <= time_of g) gs.

Lemma sorted_nth {A} (R : A -> A -> Prop) l : StronglySorted R l ->
  forall a b x y, (a < b)%nat -> nth_error l a = Some x -> nth_error l b = Some y -> R x y.
Proof.
  induction 1 as [|z l Hl IH Hz]; intros a b x y Hab Ha Hb; [destruct a; discriminate|].
  destruct b as [|b]; [lia|]. cbn in Hb. destruct a as [|a]; cbn in Ha.
  - injection Ha as <-. rewrite Forall_forall in Hz. apply Hz. eapply nth_error_In; eauto.
  - apply (IH a b); auto. lia.
Qed.
Lemma sorted_snoc {A} (R : A -> A -> Prop) l x : StronglySorted R (l ++ [x]) <-> StronglySorted R l /\ Forall (fun y => R y x) l.
Proof.
  induction l as [|z l IH]; cbn [app].
  - split; [intros _; split; constructor|intros _; constructor; constructor].
  - split.
    + intros H. apply StronglySorted_inv in H. destruct H as (H & Hz). apply IH in H. destruct H as (H1 & H2).
      rewrite Forall_app, Forall_cons_iff in Hz. split; [constructor; tauto|]. constructor; tauto.
    + intros (H & Hx). apply StronglySorted_inv in H. rewrite Forall_cons_iff in Hx. destruct H as (H & Hz).
      constructor; [apply IH; tauto|]. rewrite Forall_app, Forall_cons_iff. split; [tauto|]. split; [tauto|constructor].
Qed.

Lemma push_ordered gs x : gst_ok (it_gst x) -> is_subframe (it_gst x) = true -> ordered (it_gst x) gs ->
  ordered (it_gst x) (push_item gs x).
Proof.
  intros Hx Hxs (H1 & H2 & H3). destruct gs as [|(g, l) gs _] using rev_ind.
  - rewrite push_item_nil. split; [constructor; constructor|].
    split; (constructor; [|constructor]); [split; assumption|cbn [fst]; lia].
  - rewrite push_item_snoc. destruct (gst_eqb g (it_gst x)) eqn:E.
    + apply gst_eqb_eq in E. subst g. apply sorted_snoc in H1. destruct H1 as (H1 & H1').
      split; [apply sorted_snoc; split; [exact H1|exact H1']|].
      rewrite !Forall_app, !Forall_cons_iff in *. split; [exact H2|exact H3].
    + assert (Hlt : time_of g < time_of (it_gst x)).
      { apply Forall_app in H3. destruct H3 as (_ & H3). rewrite Forall_cons_iff in H3. destruct H3 as (H3 & _). cbn [fst] in H3.
        apply Forall_app in H2. destruct H2 as (_ & H2). rewrite Forall_cons_iff in H2. destruct H2 as ((H2 & _) & _). cbn [fst] in H2.
        enough (time_of g <> time_of (it_gst x)) by lia. intros Heq. apply time_of_inj in Heq; auto. subst g.
        rewrite gst_eqb_refl in E. discriminate. }
      split.
      * apply sorted_snoc. split; [exact H1|]. apply sorted_snoc in H1. destruct H1 as (H1 & H1').
        apply Forall_app. split; [|constructor; [exact Hlt|constructor]].
        eapply Forall_impl; [|exact H1']. intros y Hy. unfold before in *. cbn [fst] in *. lia.
      * split; apply Forall_app; (split; [assumption|]); (constructor; [|constructor]); [split; assumption|cbn [fst]; lia].
Qed.

(** Each stretch is at least a subframe later than the one before. *)
Lemma ordered_step gs g a b x y : ordered g gs -> nth_error gs a = Some x -> nth_error gs b = Some y -> (a <= b)%nat ->
  time_of (fst x) + 30 * (Z.of_nat b - Z.of_nat a) <= time_of (fst y).
Proof.
  intros (H1 & H2 & _) Ha Hb Hab. revert y Hb. remember (b - a)%nat as d eqn:Ed. revert b Hab Ed.
  induction d as [|d IH]; intros b Hab Ed y Hb.
  - replace b with a in * by lia. rewrite Ha in Hb. injection Hb as <-. lia.
  - destruct (nth_error gs (b - 1)) as [z|] eqn:Ez.
    2: { apply nth_error_None in Ez. assert (b < length gs)%nat by (apply nth_error_Some; congruence). lia. }
    specialize (IH (b - 1)%nat ltac:(lia) ltac:(lia) z Ez).
    pose proof (sorted_nth _ _ H1 (b - 1) b z y ltac:(lia) Ez Hb) as Hlt. unfold before in Hlt.
    rewrite Forall_forall in H2.
    destruct (H2 z (nth_error_In _ _ Ez)) as (_ & Sz). destruct (H2 y (nth_error_In _ _ Hb)) as (_ & Sy).
    apply is_subframe_start in Sz, Sy. destruct Sz as (nz & Sz), Sy as (ny & Sy). lia.
Qed.

Section Storage.
Context {S : storage}.
Hypothesis HS : storage_ok S.

Lemma mack_kept gs st x st' svn g d r : represents_ms gs st -> ordered (it_gst x) gs ->
  gst_ok (it_gst x) -> is_subframe (it_gst x) = true ->
  store_item st x = Ok st' -> mack_get st svn g = Ok (Some r) ->
  time_of (it_gst x) = time_of g + 30 * Z.of_nat d -> (0 < d < mack_depth)%nat ->
  mack_get st' svn g = Ok (Some r).
Proof.
  intros Hrep Hord Hx Hxs Hst Hget Ht Hd.
  destruct (mack_get_total HS gs st svn g Hrep) as (r' & Er & Hr). rewrite Er in Hget. injection Hget as ->.
  destruct (Hr ltac:(discriminate)) as (a & l & Ha & Hrec & Hfind). clear Hr.
  destruct (store_item_spec HS gs st x Hrep) as (st1 & E1 & Hrep1). rewrite E1 in Hst. injection Hst as ->.
  pose proof (push_ordered gs x Hx Hxs Hord) as Hord1.
  assert (Ha1 : nth_error (push_item gs x) a = Some (g, l)).
  { destruct gs as [|(g0, l0) gs _] using rev_ind; [destruct a; discriminate|]. rewrite push_item_snoc.
    assert (a < length (gs ++ [(g0, l0)]))%nat as Hlen by (apply nth_error_Some; congruence).
    destruct (gst_eqb g0 (it_gst x)) eqn:E.
    - apply gst_eqb_eq in E. rewrite app_length in Hlen. cbn [length] in Hlen.
      destruct (Nat.lt_ge_cases a (length gs)) as [Hlt|Hge].
      + rewrite nth_error_app1 in Ha |- * by exact Hlt. exact Ha.
      + exfalso. rewrite nth_error_app2 in Ha by exact Hge. replace (a - length gs)%nat with 0%nat in Ha by lia.
        cbn in Ha. injection Ha as -> ->. subst g. lia.
    - rewrite nth_error_app1 by exact Hlen. exact Ha. }
  rewrite <- Hfind. apply (mack_get_unique HS (push_item gs x) st' svn g a l Hrep1 Ha1).
  - destruct (Nat.le_gt_cases (length (push_item gs x)) (a + mack_depth)) as [Hle|Hgt]; [exact Hle|exfalso].
    destruct (nth_error (push_item gs x) (a + mack_depth)) as [y|] eqn:Ey; [|apply nth_error_None in Ey; lia].
    pose proof (ordered_step _ _ _ _ _ _ Hord1 Ha1 Ey ltac:(lia)) as Hstep. cbn [fst] in Hstep.
    destruct Hord1 as (_ & _ & Hle). rewrite Forall_forall in Hle. specialize (Hle y (nth_error_In _ _ Ey)). cbn in Hle. lia.
  - intros b l' Hb. destruct (Nat.lt_total b a) as [Hlt|[Heq|Hgt]]; [|exact Heq|]; exfalso.
    + pose proof (sorted_nth _ _ (proj1 Hord1) b a _ _ Hlt Hb Ha1) as Hc. unfold before in Hc. cbn [fst] in Hc. lia.
    + pose proof (sorted_nth _ _ (proj1 Hord1) a b _ _ Hgt Ha1 Hb) as Hc. unfold before in Hc. cbn [fst] in Hc. lia.
Qed.

Section Crypto.
Context {C : crypto} {B : build}.
Hypothesis HC : crypto_ok C.
Variables (root : option (list Z)) (user : option public_key) (slow : bool).
Notation new := (osnma_new root user slow).

Lemma process_dsm_mack o d hd g o' : process_dsm o d hd g = Ok o' -> o_mack o' = o_mack o /\ o_slow o' = o_slow o.
Proof.
  intros H. destruct (process_dsm_effect _ _ _ _ _ H) as [->|? ? ? ? ? ? ? ? ->|? ? ? ? ? ? ? ->|? ? ? ? ->]; [now split| |now split|now split].
  unfold process_nma_header. destruct (nma_status _); destruct (nma_cpks _); now split.
Qed.
Lemma validate_key_mack o mk g o' : osnma_validate_key o mk g = Ok o' -> o_mack o' = o_mack o.
Proof.
  intros H. destruct (validate_key_effect _ _ _ _ H) as [->|? ? ? ? ? ? ? ? ? Hp]; [reflexivity|].
  apply process_tags_trust in Hp. tauto.
Qed.

(** The stretches of MACK messages in the storage are in time order. *)
Definition mack_ordered (h : list op) (o : osnma) : Prop :=
  exists gs, represents_ms gs (o_mack o) /\ StronglySorted before gs /\ Forall start_ok gs /\
    Forall (fun x => exists y, In y h /\ fst x = subframe_of (op_gst y)) gs.

Lemma mack_ordered_at h o x : mack_ordered h o -> Forall op_ok (h ++ [x]) -> in_subframe_order (h ++ [x]) ->
  exists gs, represents_ms gs (o_mack o) /\ ordered (subframe_of (op_gst x)) gs /\
    Forall (fun x => exists y, In y h /\ fst x = subframe_of (op_gst y)) gs.
Proof.
  intros (gs & H1 & H2 & H3 & H4) Hok Hord. exists gs. split; [exact H1|]. split; [|exact H4].
  split; [exact H2|]. split; [exact H3|]. eapply Forall_impl; [|exact H4].
  intros s (y & Hy & ->). apply (last_time h x Hord). apply in_or_app. now left.
Qed.

Lemma op_gst_ok x : op_ok x -> gst_ok (op_gst x).
Proof. destruct x; intros H; apply H. Qed.
Lemma subframe_of_ok g : gst_ok g -> gst_ok (subframe_of g) /\ is_subframe (subframe_of g) = true.
Proof.
  destruct g as [w t]. unfold gst_ok, subframe_of, is_subframe, secs_per_subframe. cbn [g_wn g_tow]. intros H. lia.
Qed.

Lemma run_mack_ordered h : Forall op_ok h -> in_subframe_order h -> forall o, run new h = Ok o -> mack_ordered h o.
Proof.
  induction h as [|x h IH] using rev_ind; intros Hok Hord o Hrun.
  - cbn in Hrun. injection Hrun as <-. exists []. split; [apply represents_ms_new; exact HS|]. repeat split; constructor.
  - pose proof Hok as Hok'. pose proof Hord as Hord'. apply Forall_app in Hok. destruct Hok as (Hok & Hx).
    apply Forall_cons_iff in Hx. destruct Hx as (Hx & _). apply in_subframe_order_app in Hord. destruct Hord as (Hord & _).
    rewrite run_snoc in Hrun. bind_inv Hrun. specialize (IH Hok Hord _ E).
    destruct (mack_ordered_at _ _ _ IH Hok' Hord') as (gs & G1 & G2 & G3).
    assert (G3' : Forall (fun s : gst * list item => exists y, In y (h ++ [x]) /\ fst s = subframe_of (op_gst y)) gs).
    { eapply Forall_impl; [|exact G3]. intros s (y & Hy & Es). exists y. split; [apply in_or_app; now left|exact Es]. }
    assert (Hsame : o_mack o = o_mack x0 -> mack_ordered (h ++ [x]) o).
    { intros Em. exists gs. rewrite Em. split; [exact G1|]. split; [apply G2|]. split; [apply G2|exact G3']. }
    destruct x as [word svn g b|data svn g].
    + apply Hsame. cbn [step] in Hrun. unfold feed_inav in Hrun. bind_inv Hrun. injection Hrun as <-. reflexivity.
    + cbn [step] in Hrun.
      destruct (feed_osnma_cases root user slow h x0 o data svn g Hok Hx (run_inv HC HS root user slow h Hok _ E) Hrun)
        as (sf & _ & _ & [->|(hk & mk & Hrec & Hp)]); [now apply Hsame|].
      destruct (process_subframe_cases _ _ _ _ _ _ Hp) as (ms & cd & dd & o2 & Hms & _ & Hd & Hv).
      assert (Em : o_mack o = ms).
      { rewrite (validate_key_mack _ _ _ _ Hv). destruct dd; [|subst o2; reflexivity].
        apply process_dsm_mack in Hd. destruct Hd as (-> & _). reflexivity. }
      set (it := mkItem mk svn (subframe_of g) (nma_status (nth 0 hk 0))).
      change (store_item (o_mack x0) it = Ok ms) in Hms.
      destruct (store_item_spec HS gs _ it G1) as (ms' & E1 & Hrep). rewrite E1 in Hms. injection Hms as ->.
      destruct (subframe_of_ok g (op_gst_ok _ Hx)) as (Hg1 & Hg2).
      pose proof (push_ordered gs it Hg1 Hg2 G2) as (P1 & P2 & _).
      exists (push_item gs it). rewrite Em. split; [exact Hrep|]. split; [exact P1|]. split; [exact P2|].
      assert (Hnew : exists y, In y (h ++ [FeedOsnma data svn g]) /\ it_gst it = subframe_of (op_gst y)).
      { eexists. split; [apply in_or_app; right; left; reflexivity|reflexivity]. }
      clear -G3' Hnew. destruct gs as [|(g0, l0) gs _] using rev_ind.
      * rewrite push_item_nil. constructor; [exact Hnew|constructor].
      * rewrite push_item_snoc. destruct (gst_eqb g0 (it_gst it)).
        -- rewrite Forall_app, Forall_cons_iff in *. exact G3'.
        -- apply Forall_app. split; [exact G3'|]. constructor; [exact Hnew|constructor].
Qed.


(** ** The data *)

Lemma stored_gst_ok h o j g : Forall op_ok h -> run new h = Ok o -> (j < nav_depth)%nat ->
  stored_gst (o_nav o) j = Some g -> gst_ok g /\ is_subframe g = true.
Proof.
  intros Hok Hrun Hj H. rewrite (stored_recent HC HS root user slow h o j Hok Hrun Hj) in H.
  destruct (nth_error (rev (nav_stretches (inav_words h))) j) as [(g', l)|] eqn:E; [|discriminate].
  cbn in H. injection H as ->. apply nth_error_In in E. apply in_rev in E. apply In_nth_error in E. destruct E as (a & Ha).
  destruct (stretch_words _ _ _ _ Ha) as (Hne & Hw). destruct l as [|w l]; [now elim Hne|].
  destruct (Hw w (or_introl eq_refl)) as (Hw1 & <-). apply subframe_of_ok. eapply fed_ok; eauto.
Qed.

Lemma stored_gst_unique h o i j g : Forall op_ok h -> in_subframe_order h -> run new h = Ok o ->
  (i < nav_depth)%nat -> (j < nav_depth)%nat ->
  stored_gst (o_nav o) i = Some g -> stored_gst (o_nav o) j = Some g -> i = j.
Proof.
  intros Hok Hord Hrun Hi Hj H1 H2. destruct (Nat.lt_total i j) as [Hlt|[Heq|Hgt]]; [|exact Heq|]; exfalso.
  - pose proof (stored_order HC HS root user slow h o i j g g Hok Hord Hrun ltac:(lia) H1 H2). lia.
  - pose proof (stored_order HC HS root user slow h o j i g g Hok Hord Hrun ltac:(lia) H2 H1). lia.
Qed.

Lemma find_entry_back h o k svn g e : Forall op_ok h -> in_subframe_order h -> run new h = Ok o -> is_subframe g = true ->
  find_entry k (o_nav o) svn g = Ok (Some e) ->
  exists j, (j < nav_depth)%nat /\ stored_gst (o_nav o) j = Some g /\ stored k (o_nav o) j svn e.
Proof.
  intros Hok Hord Hrun Hg H. pose proof (reach_has HC HS root user slow h o Hok Hrun) as Hhas.
  destruct Hhas as (hs & Hrep & Hnok). destruct (find_entry_spec HS k hs _ svn g Hrep Hg) as (r & Er & Hr).
  rewrite Er in H. injection H as ->. destruct Hr as (a & s & Ha & Es & Hl & Hf).
  assert (a < length hs)%nat by (apply nth_error_Some; congruence).
  exists (length hs - 1 - a)%nat.
  destruct (stored_snap HS hs _ a s (length hs - 1 - a) Hrep Ha ltac:(lia) ltac:(lia)) as (S1 & S2).
  split; [lia|]. split; [now rewrite S2, Es|].
  apply nav_has_stored; [exact HS|now exists hs|lia|]. now rewrite S1.
Qed.

Lemma stored_snap_ex hs n j g : represents_nav hs n -> (j < nav_depth)%nat -> stored_gst n j = Some g ->
  exists a s, nth_error hs a = Some s /\ (a + j + 1 = length hs)%nat.
Proof.
  intros Hrep Hj H. destruct (Nat.le_gt_cases (length hs) j) as [Hle|Hgt].
  - destruct (stored_fresh HS hs n j Hrep ltac:(lia)) as (_ & E). congruence.
  - destruct (nth_error hs (length hs - 1 - j)) as [s|] eqn:E; [|apply nth_error_None in E; lia].
    exists (length hs - 1 - j)%nat, s. split; [exact E|lia].
Qed.

Lemma find_entry_stored h o k svn g j e : Forall op_ok h -> in_subframe_order h -> run new h = Ok o ->
  (j < nav_depth)%nat -> stored_gst (o_nav o) j = Some g -> stored k (o_nav o) j svn e ->
  find_entry k (o_nav o) svn g = Ok (Some e).
Proof.
  intros Hok Hord Hrun Hj Hg Hs. pose proof (reach_has HC HS root user slow h o Hok Hrun) as Hhas.
  destruct (stored_gst_ok h o j g Hok Hrun Hj Hg) as (Hgok & Hgs).
  apply nav_has_stored in Hs; auto. pose proof Hhas as (hs & Hrep & Hnok).
  destruct (find_entry_spec HS k hs _ svn g Hrep Hgs) as (r & Er & Hr).
  assert (Hall : forall a s, nth_error hs a = Some s -> s_gst s = g -> (length hs <= a + nav_depth)%nat ->
     s_row k s = stored_row k (o_nav o) j).
  { intros a s Ha Es Hl. assert (a < length hs)%nat by (apply nth_error_Some; congruence).
    destruct (stored_snap HS hs _ a s (length hs - 1 - a) Hrep Ha ltac:(lia) ltac:(lia)) as (S1 & S2).
    rewrite Es in S2. rewrite <- (stored_gst_unique h o (length hs - 1 - a) j g Hok Hord Hrun ltac:(lia) Hj S2 Hg). symmetry. apply S1. }
  destruct r as [e'|].
  - destruct Hr as (a & s & Ha & Es & Hl & Hf). rewrite (Hall a s Ha Es Hl) in Hf. rewrite Er. congruence.
  - exfalso. destruct Hr as [Hr|(a & s & Ha & Es & Hl & Hf)].
    + destruct (stored_snap_ex hs _ j g Hrep Hj Hg) as (a & s & Ha & Hl).
      destruct (stored_snap HS hs _ a s j Hrep Ha Hl Hj) as (_ & S2). apply (Hr a s Ha); [lia|congruence].
    + rewrite (Hall a s Ha Es Hl) in Hf. congruence.
Qed.

(** ** The key *)

Lemma nma_header_keys o o1 hd pkid : o_keys o1 = o_keys o ->
  o_keys (process_nma_header o1 hd pkid) = o_keys (process_nma_header o hd pkid).
Proof.
  intros H. unfold process_nma_header. destruct (nma_status hd), (nma_cpks hd); cbn; now rewrite ?H.
Qed.
Lemma process_dsm_keys o o1 d hd g o' o1' : same_trust o o1 -> process_dsm o d hd g = Ok o' ->
  process_dsm o1 d hd g = Ok o1' -> o_keys o1' = o_keys o'.
Proof.
  intros (T1 & T2 & T3) H H1. unfold process_dsm in *. destruct (dm_type d).
  - unfold process_dsm_kroot in *. rewrite T2 in H1. bind_inv H. rewrite E in H1. cbn [bind] in H1.
    bind_inv H. rewrite E0 in H1. cbn [bind] in H1. destruct x0 as [pk|]; [|injection H as <-; injection H1 as <-; exact T3].
    bind_inv H. rewrite E1 in H1. cbn [bind] in H1. destruct x0 as [key|]; [|injection H as <-; injection H1 as <-; exact T3].
    bind_inv H. rewrite E2 in H1. cbn [bind] in H1. injection H as <-. injection H1 as <-.
    rewrite T3. apply nma_header_keys. reflexivity.
  - unfold process_dsm_pkr in *. bind_inv H. rewrite E in H1. cbn [bind] in H1. destruct x as [fn| |].
    + unfold process_dsm_pkr_npk in *. rewrite T1 in H1. destruct (o_merkle o); [|injection H as <-; injection H1 as <-; exact T3].
      bind_inv H. rewrite E0 in H1. cbn [bind] in H1. destruct x; [|injection H as <-; injection H1 as <-; exact T3].
      bind_inv H. bind_inv H1. injection H as <-. injection H1 as <-. exact T3.
    + unfold process_dsm_pkr_alert_message in *. rewrite T1 in H1. destruct (o_merkle o); [|injection H as <-; injection H1 as <-; exact T3].
      bind_inv H. rewrite E0 in H1. cbn [bind] in H1. destruct x; injection H as <-; injection H1 as <-; [reflexivity|exact T3].
    + injection H as <-. injection H1 as <-. exact T3.
Qed.

Lemma key_accepted o mk g o' K nk : length mk = 60%nat -> gst_ok g -> is_subframe g = true -> key_ok K ->
  current_key (o_keys o) = Some K -> discloses K mk g nk -> osnma_validate_key o mk g = Ok o' ->
  exists key ks, key_ok key /\ key_bytes key = key_bytes nk /\ k_chain key = k_chain nk /\ k_gst key = g /\
    store_key (o_keys o) key = Ok ks /\ process_tags (set_keys ks o) key = Ok o'.
Proof.
  intros Hlen Hg Hsub HK Hcur (Hnk & Hin & Hch & Hng & n & Hn & Ht & Hbef) H.
  unfold osnma_validate_key in H. rewrite Hcur in H.
  assert (Hsz : sizes_ok (ch_key_bytes (k_chain K) * 8) (ch_tag_bits (k_chain K))) by (apply announced_sizes_ok; apply HK).
  destruct (num_tags_bounds mk _ _ Hlen Hsz) as (_ & Hfit & _).
  unfold mack_of_chain in H. rewrite mack_key_ok in H by auto. cbn [bind] in H.
  set (nt := mack_num_tags (mack_new mk (ch_key_bytes (k_chain K) * 8) (ch_tag_bits (k_chain K)))) in *.
  destruct (key_from_bitslice_ok
    (sub ((ch_tag_bits (k_chain K) + 16) * nt)
         ((ch_tag_bits (k_chain K) + 16) * nt + ch_key_bytes (k_chain K) * 8) (bits_of_bytes mk))
    g (k_chain K) (ko_chain _ HK) Hg Hsub) as (key & En & Hkok & Hkch & Hkg & Hkb).
  { rewrite length_sub by (rewrite length_bits_of_bytes; lia). lia. }
  rewrite En in H. cbn [bind] in H.
  assert (Eb : key_bytes key = key_bytes nk).
  { apply bits_of_bytes_inj; [now apply key_bytes_are_bytes|exact Hnk|].
    rewrite Hkb. unfold key_in_mack in Hin. rewrite Hch in Hin. rewrite Hin.
    unfold nt, mack_num_tags, mack_new. cbn [mk_data mk_key_size mk_tag_size].
    now rewrite (Nat.mul_comm 8 (ch_key_bytes (k_chain K))). }
  assert (Hc : gst_cmp (k_gst K) (k_gst key) = Lt).
  { rewrite gst_cmp_time, Hkg; [apply Z.compare_lt_iff; lia|apply HK|apply Hkok]. }
  rewrite Hc in H. destruct (validate_key_exact HC K key HK Hkok) as (r & Er & Hr1 & Hr2). rewrite Er in H. cbn [bind] in H.
  assert (Hex : exists k, r = ROk k).
  { apply Hr2. split; [exact Hkch|]. exists n. rewrite Hkg, Eb. auto. }
  destruct Hex as (k & ->). subst k. bind_inv H.
  exists key, x. rewrite Hkch, Hch. auto 10.
Qed.


(** The key is then the one of the chain in force. *)
Lemma store_key_current ks K key ks' : keys_distinct ks -> current_key ks = Some K -> k_chain key = k_chain K ->
  store_key ks key = Ok ks' -> current_key ks' = Some key.
Proof.
  intros Hd HK Hc H. destruct (store_key_spec ks key ks' Hd H) as (D1 & D2 & D3 & D4 & _).
  unfold current_key in *. rewrite D3. destruct (ks_cif ks) as [c|]; [|discriminate].
  destruct (find_key_spec _ _ _ HK) as (_ & Hid). rewrite <- Hc in Hid.
  destruct (find_key (fun k => ch_id (k_chain k) =? cif_cid c) ks') as [k|] eqn:E.
  - destruct (find_key_spec _ _ _ E) as (E1 & E2). f_equal. apply (held_unique ks'); auto. unfold chain_of. lia.
  - pose proof (find_key_none _ _ E key D2). cbn beta in *. congruence.
Qed.

(** ** The call that completes the subframe *)

Lemma completes_step h o x o' hk mk g : Forall op_ok (h ++ [x]) -> run new h = Ok o -> step o x = Ok o' ->
  completes h x hk mk g ->
  exists sf svn, subframe_received (h ++ [x]) svn g hk mk /\ g = subframe_of (op_gst x) /\
    rest_inv root user slow (h ++ [x]) (set_sub sf o) /\
    process_subframe (set_sub sf o) hk mk svn g = Ok o'.
Proof.
  intros Hok Hrun Hstep (data & svn & gk & -> & Hz & Hex). cbn [step] in Hstep.
  pose proof Hok as Hok'. apply Forall_app in Hok. destruct Hok as (Hok & Hx). apply Forall_cons_iff in Hx. destruct Hx as (Hx & _).
  pose proof (run_inv HC HS root user slow h Hok _ Hrun) as (Hsub & Hrest).
  assert (Hmono : rest_inv root user slow (h ++ [FeedOsnma data svn gk]) o) by (apply rest_inv_mono; auto).
  unfold feed_osnma in Hstep.
  replace (forallb (fun x => x =? 0) data) with (forallb (Z.eqb 0) data) in Hstep.
  2: { clear. induction data as [|x l IH]; cbn [forallb]; [reflexivity|]. now rewrite IH, Z.eqb_sym. }
  rewrite Hz in Hstep. set (w := mkWord data svn gk) in *.
  assert (Hw : osnma_words (h ++ [FeedOsnma data svn gk]) = osnma_words h ++ [w]).
  { rewrite osnma_words_app. cbn [osnma_words flat_map]. now rewrite Hz. }
  assert (Hwok : word_ok w) by (destruct Hx as ((X1 & _) & X2 & X3); split; auto).
  pose proof (osnma_words_ok h Hok) as Hwords.
  destruct (subframe_feed_spec (current_run (osnma_words h)) (o_sub o) w) as (sf & Esf & Hsf); auto.
  { now apply Forall_current_run. }
  { intros; eapply current_run_same; eauto. }
  change (subframe_feed (o_sub o) data svn gk = Ok (sf, expected_subframe (osnma_words h) w)) in Esf.
  rewrite Esf, Hex in Hstep. cbn [bind] in Hstep.
  exists sf, svn. apply expected_subframe_sound in Hex. destruct Hex as (ws & W1 & W2 & W3 & W4 & W5).
  split; [|split; [exact W4|split; [|exact Hstep]]].
  - exists (ws ++ [w]). rewrite Hw. split; [exact W1|]. split; [|auto]. intros y Hy. apply in_app_or in Hy.
    destruct Hy as [Hy|[<-|[]]]; [|now rewrite W4]. specialize (W5 y Hy). unfold same_subframe in W5.
    apply andb_true_iff in W5. rewrite !Z.eqb_eq in W5. rewrite W4. unfold subframe_of. destruct W5 as (-> & ->). reflexivity.
  - destruct Hmono as [I1 I2 I3 I4 I5 I6 I7]. constructor; auto.
Qed.

(** The state in which the key is checked. *)
Lemma completes_key h o x o' hk mk g ks : Forall op_ok (h ++ [x]) -> in_subframe_order (h ++ [x]) -> run new h = Ok o ->
  step o x = Ok o' -> completes h x hk mk g -> keys_then o hk g ks ->
  gst_ok g /\ is_subframe g = true /\ length mk = 60%nat /\
  exists o2, o_keys o2 = ks /\ o_nav o2 = o_nav o /\ o_slow o2 = o_slow o /\ keys_distinct (o_keys o2) /\
    (forall K, held (o_keys o2) K -> key_ok K) /\
    (forall svn gm d r, mack_get (o_mack o) svn gm = Ok (Some r) -> time_of g = time_of gm + 30 * Z.of_nat d ->
       (0 < d < mack_depth)%nat -> mack_get (o_mack o2) svn gm = Ok (Some r)) /\
    osnma_validate_key o2 mk g = Ok o'.
Proof.
  intros Hok Hord Hrun Hstep Hc Hks.
  destruct (completes_step h o x o' hk mk g Hok Hrun Hstep Hc) as (sf & svn & Hrec & Hg & Hinv & Hp).
  destruct (subframe_received_bytes _ _ _ _ _ Hok Hrec) as (_ & (Hlen & _) & Hgok & Hsub & Hsvn).
  split; [exact Hgok|]. split; [exact Hsub|]. split; [exact Hlen|].
  destruct (process_subframe_cases _ _ _ _ _ _ Hp) as (ms & cd & d & o2 & E0 & E1 & E2 & E3).
  destruct (subframe_stored HS _ _ _ _ _ _ _ _ _ _ _ _ Hok Hinv Hrec E0 E1) as (Hinv2 & Hd).
  cbn [set_sub o_dsm o_mack] in E0, E1.
  destruct Hks as (cd' & d' & F1 & F2). rewrite E1 in F1. injection F1 as <- <-.
  assert (Hinv3 : rest_inv root user slow (h ++ [x]) o2).
  { destruct d as [d|]; [|now rewrite E2]. destruct (Hd d eq_refl) as (Hdr & Ht).
    unfold process_dsm in E2. destruct (dm_id d <? 12) eqn:El; rewrite Ht in E2.
    - eapply process_dsm_kroot_inv; [exact HC|exact Hok|exact Hinv2| |exact Hdr|exact Hrec|exact E2]. lia.
    - eapply process_dsm_pkr_inv; [exact Hok|exact Hinv2| |exact Hdr|exact E2]. lia. }
  assert (Hst : stores_ok o).
  { apply (run_stores h new); [apply new_stores|exact Hrun]. }
  assert (Hm2 : o_mack o2 = ms /\ o_slow o2 = o_slow o /\ o_nav o2 = o_nav o /\ o_keys o2 = ks /\ stores_ok o2).
  { destruct d as [d|].
    - destruct F2 as (o2' & F2 & ->). pose proof (process_dsm_mack _ _ _ _ _ E2) as (M1 & M2).
      split; [exact M1|]. split; [exact M2|]. split; [exact (process_dsm_nav _ _ _ _ _ E2)|]. split.
      + eapply process_dsm_keys; [|exact F2|exact E2]. split; [|split]; reflexivity.
      + eapply process_dsm_stores; [|exact E2]. exact Hst.
    - subst o2. split; [reflexivity|]. split; [reflexivity|]. split; [reflexivity|]. split; [symmetry; exact F2|exact Hst]. }
  destruct Hm2 as (M1 & M2 & M3 & M4 & M5).
  exists o2. split; [exact M4|]. split; [exact M3|]. split; [exact M2|]. split; [apply M5|]. split.
  { intros K HK. apply (ri_keys _ _ _ _ _ Hinv3 K). exact HK. }
  split; [|exact E3]. intros sv gm dd r Hget Ht Hdd. rewrite M1.
  apply Forall_app in Hok as Hok'. destruct Hok' as (Hok1 & _). apply in_subframe_order_app in Hord as Hord'. destruct Hord' as (Hord1 & _).
  destruct (mack_ordered_at h o x (run_mack_ordered h Hok1 Hord1 o Hrun) Hok Hord) as (gs & G1 & G2 & _).
  rewrite <- Hg in G2.
  eapply (mack_kept gs (o_mack o) (mkItem mk svn g (nma_status (nth 0 hk 0)))); [exact G1|exact G2|exact Hgok|exact Hsub|exact E0|exact Hget|exact Ht|exact Hdd].
Qed.


Lemma max_age_oldest e : max_age e = oldest_word e.
Proof. reflexivity. Qed.

Lemma stored_has_data h o k svn g j e : Forall op_ok h -> in_subframe_order h -> run new h = Ok o ->
  (j < nav_depth)%nat -> stored_gst (o_nav o) j = Some g -> stored k (o_nav o) j svn e ->
  has_data (o_nav o) k svn g (data_of k e) (oldest_word e) (e_authbits e) /\
  (length (data_of k e) <= 550)%nat /\ 0 <= e_authbits e <= 65535 /\ 0 <= oldest_word e.
Proof.
  intros Hok Hord Hrun Hj Hg Hs. pose proof (find_entry_stored h o k svn g j e Hok Hord Hrun Hj Hg Hs) as Hf.
  pose proof (reach_has HC HS root user slow h o Hok Hrun) as Hhas.
  destruct (stored_row_ok HS _ j k Hhas Hj) as (Hrow & _).
  pose proof (row_ok_in k _ e Hrow (proj1 Hs)) as He.
  assert (Hab : 0 <= e_authbits e <= 65535) by apply He.
  split; [|split; [|split; [exact Hab|]]].
  - exists e. split; [exact Hf|]. split; [now rewrite data_of_bits|]. split; [apply max_age_oldest|lia].
  - unfold data_of. rewrite firstn_length. eapply Nat.le_trans; [apply Nat.le_min_l|]. destruct k; apply Nat.leb_le; reflexivity.
  - unfold oldest_word. clear. induction (e_age e) as [|a l IH]; cbn [fold_right]; lia.
Qed.

(** The result of a call after which the data has at least [a] bits. *)
Lemma has_data_stored h o x o' k svn g j bits age a : Forall op_ok (h ++ [x]) -> in_subframe_order (h ++ [x]) ->
  run new h = Ok o -> step o x = Ok o' -> stored_gst (o_nav o') j = Some g -> (j < nav_depth)%nat ->
  has_data (o_nav o') k svn g bits age a ->
  (exists e', stored k (o_nav o') j svn e' /\ data_of k e' = bits /\ a <= e_authbits e') /\
  (40 <= a -> (forall w, In w (inav_words (h ++ [x])) -> 1 <= g_wn (nw_gst w)) ->
   exists d, getter k o' svn = Ok (Some d)).
Proof.
  intros Hok Hord Hrun Hstep Hg Hj (e' & He & Hb & _ & Ha).
  assert (Hrun' : run new (h ++ [x]) = Ok o') by (rewrite run_snoc, Hrun; exact Hstep).
  destruct (stored_gst_ok (h ++ [x]) o' j g Hok Hrun' Hj Hg) as (Hgok & Hgs).
  destruct (find_entry_back (h ++ [x]) o' k svn g e' Hok Hord Hrun' Hgs He) as (j' & Hj' & Hg' & Hs).
  rewrite (stored_gst_unique (h ++ [x]) o' j' j g Hok Hord Hrun' Hj' Hj Hg' Hg) in Hs.
  split.
  - exists e'. split; [exact Hs|]. split; [now rewrite data_of_bits|apply Ha].
  - intros H40 Hwn. destruct (getter_total HC HS root user slow (h ++ [x]) o' k svn Hok Hwn Hrun') as ([d|] & Ed); [eauto|].
    pose proof (getter_none HC HS root user slow (h ++ [x]) o' k svn Hok Hrun' Ed j e' Hj Hs). lia.
Qed.

Theorem tag_authenticates h o x o' hk mk g ks K key prna gm j gn e k svn adkd cop tag :
  slow = false -> Forall op_ok (h ++ [x]) -> in_subframe_order (h ++ [x]) -> run new h = Ok o -> step o x = Ok o' ->
  completes h x hk mk g -> keys_then o hk g ks -> current_key ks = Some K -> discloses K mk g key ->
  (j < nav_depth)%nat -> stored k (o_nav o) j svn e -> stored_gst (o_nav o) j = Some gn -> 1 <= svn <= 36 ->
  adkd_means adkd k 30 -> oldest_word e < cop < 16 -> (2 <= mack_depth)%nat ->
  gst_ok gm -> time_of gn + 30 = time_of gm -> time_of gm + 30 = time_of g ->
  holds_tag o prna gm (k_chain key) (key_bytes key) key svn adkd cop (data_of k e) tag ->
  (exists e', stored k (o_nav o') j svn e' /\ data_of k e' = data_of k e /\
     Z.min 65535 (e_authbits e + Z.of_nat (length tag)) <= e_authbits e') /\
  ((40 <= length tag)%nat -> (forall w, In w (inav_words (h ++ [x])) -> 1 <= g_wn (nw_gst w)) ->
   exists d, getter k o' svn = Ok (Some d)).
Proof.
  intros Hslow Hok Hord Hrun Hstep Hc Hks HK Hdis Hj Hst Hgn Hsvn Had Hcop Hdep Hgm Ht1 Ht2 (message & s & Hprna & Hlm & Hget & Hs & Hv & Htag).
  destruct (completes_key h o x o' hk mk g ks Hok Hord Hrun Hstep Hc Hks)
    as (Hg & Hgs & Hlen & o2 & K1 & K2 & K3 & K4 & K5 & K6 & K7).
  apply Forall_app in Hok as Hok'. destruct Hok' as (Hok1 & _). apply in_subframe_order_app in Hord as Hord'. destruct Hord' as (Hord1 & _).
  destruct (stored_has_data h o k svn gn j e Hok1 Hord1 Hrun Hj Hgn Hst) as (Hhas & Hbl & Hab & Hage).
  destruct (stored_gst_ok h o j gn Hok1 Hrun Hj Hgn) as (Hgnok & _).
  rewrite <- K1 in HK. pose proof (K5 K (current_key_in _ _ HK)) as HKok.
  destruct (key_accepted o2 mk g o' K key Hlen Hg Hgs HKok HK Hdis K7) as (k' & ks' & P1 & P2 & P3 & P4 & P5 & P6).
  assert (Hsl : o_slow (set_keys ks' o2) = false).
  { cbn [set_keys o_slow]. rewrite K3. pose proof (run_inv HC HS root user slow h Hok1 _ Hrun) as (_ & Hr). now rewrite (ri_slow _ _ _ _ _ Hr). }
  rewrite <- P2, <- P3 in Hv, Htag.
  assert (Hdata : has_data (o_nav o') k svn gn (data_of k e) (oldest_word e) (Z.min 65535 (e_authbits e + Z.of_nat (length tag)))).
  { eapply (process_tags_adds HC (set_keys ks' o2) k' o' prna gm gn message s k svn adkd cop); 
      [exact P1|exact Hsl|exact Hlm|exact Hprna|exact Hs|exact Hsvn|exact Had| | | |exact Hv|exact Htag|exact Hbl| | | | |exact P6].
    - split; [exact Hgm|]. rewrite P4. split; [exact Hg|]. replace (time_of gm + 30 - time_of g) with 0 by lia. reflexivity.
    - split; [exact Hgnok|]. split; [exact Hgm|]. replace (time_of gn + 30 - time_of gm) with 0 by lia. reflexivity.
    - cbn [set_keys o_mack]. apply (K6 prna gm 1%nat); [exact Hget|lia|lia].
    - lia.
    - lia.
    - lia.
    - cbn [set_keys o_nav]. rewrite K2. exact Hhas. }
  assert (Hgn' : stored_gst (o_nav o') j = Some gn).
  { rewrite <- Hgn. apply grown_gst. destruct Hc as (data & sv & gk & -> & _). cbn [step] in Hstep. now apply feed_osnma_grown in Hstep. }
  destruct (has_data_stored h o x o' k svn gn j _ _ _ Hok Hord Hrun Hstep Hgn' Hj Hdata) as (R1 & R2).
  split; [exact R1|]. intros H40. apply R2. lia.
Qed.

Lemma other_unique ks K q P : held ks K -> held ks q -> held ks P -> chain_of q <> chain_of K -> chain_of P <> chain_of K ->
  q = P.
Proof. intros [H|H] [Hq|Hq] [HP|HP] E1 E2; congruence. Qed.

(** Slow MAC, with any key for the MACSEQ. *)
Lemma slow_tag_core h o x o' hk mk g ks K key mc mkb prna gm j gn e svn cop tag :
  Forall op_ok (h ++ [x]) -> in_subframe_order (h ++ [x]) -> run new h = Ok o -> step o x = Ok o' ->
  completes h x hk mk g -> keys_then o hk g ks -> current_key ks = Some K -> discloses K mk g key ->
  (forall k' ks' g10, key_ok k' -> key_bytes k' = key_bytes key -> k_chain k' = k_chain key -> k_gst k' = g ->
     store_key ks k' = Ok ks' -> keys_distinct ks -> (forall q, held ks q -> key_ok q) ->
     gst_ok g10 -> is_subframe g10 = true -> time_of g10 = time_of g - 300 ->
     exists mkey, slowmac_key_of ks' g10 = Ok (Some mkey) /\ key_ok mkey /\ k_chain mkey = mc /\ key_bytes mkey = mkb) ->
  (j < nav_depth)%nat -> stored Ced (o_nav o) j svn e -> stored_gst (o_nav o) j = Some gn -> 1 <= svn <= 36 ->
  oldest_word e < cop < 16 -> (12 <= mack_depth)%nat ->
  gst_ok gm -> time_of gn + 30 = time_of gm -> time_of gm + 330 = time_of g ->
  holds_tag o prna gm mc mkb key svn 12 cop (data_of Ced e) tag ->
  (exists e', stored Ced (o_nav o') j svn e' /\ data_of Ced e' = data_of Ced e /\
     Z.min 65535 (e_authbits e + Z.of_nat (length tag)) <= e_authbits e') /\
  ((40 <= length tag)%nat -> (forall w, In w (inav_words (h ++ [x])) -> 1 <= g_wn (nw_gst w)) ->
   exists d, getter Ced o' svn = Ok (Some d)).
Proof.
  intros Hok Hord Hrun Hstep Hc Hks HK Hdis Hmac Hj Hst Hgn Hsvn Hcop Hdep Hgm Ht1 Ht2 (message & s & Hprna & Hlm & Hget & Hs & Hv & Htag).
  destruct (completes_key h o x o' hk mk g ks Hok Hord Hrun Hstep Hc Hks)
    as (Hg & Hgs & Hlen & o2 & K1 & K2 & K3 & K4 & K5 & K6 & K7).
  apply Forall_app in Hok as Hok'. destruct Hok' as (Hok1 & _). apply in_subframe_order_app in Hord as Hord'. destruct Hord' as (Hord1 & _).
  destruct (stored_has_data h o Ced svn gn j e Hok1 Hord1 Hrun Hj Hgn Hst) as (Hhas & Hbl & Hab & Hage).
  destruct (stored_gst_ok h o j gn Hok1 Hrun Hj Hgn) as (Hgnok & _).
  rewrite <- K1 in HK. pose proof (K5 K (current_key_in _ _ HK)) as HKok.
  destruct (key_accepted o2 mk g o' K key Hlen Hg Hgs HKok HK Hdis K7) as (k' & ks' & P1 & P2 & P3 & P4 & P5 & P6).
  assert (H10 : exists g10, add_seconds (k_gst k') (-300) = Ok g10).
  { unfold process_tags in P6. bind_inv P6. bind_inv P6. bind_inv P6. eauto. }
  destruct H10 as (g10 & H10).
  pose proof (seconds_before_n (k_gst k') g10 300 (ko_gst _ P1) ltac:(lia) H10) as (T1 & _ & T2).
  pose proof (gst_time_bound g10 T1) as Tb. pose proof (gst_time_bound _ Hgm) as Tb2. pose proof (gst_time_bound _ Hg) as Tb3.
  pose proof (gst_time_bound _ Hgnok) as Tb4.
  assert (T3 : time_of g10 = time_of g - 300) by (rewrite P4 in T2; lia).
  assert (Hsub10 : is_subframe g10 = true).
  { apply is_subframe_start. apply is_subframe_start in Hgs. destruct Hgs as (ng & Hng). exists (ng - 10). lia. }
  rewrite K1 in K4, K5, P5.
  destruct (Hmac k' ks' g10 P1 P2 P3 P4 P5 K4 K5 T1 Hsub10 T3) as (mkey & Hsm & Dok & Dch & Emk).
  rewrite <- P2, <- P3 in *.
  assert (Hdata : has_data (o_nav o') Ced svn gn (data_of Ced e) (oldest_word e) (Z.min 65535 (e_authbits e + Z.of_nat (length tag)))).
  { eapply (process_tags_adds_slow HC (set_keys ks' o2) k' o' prna gm gn message s svn cop _ tag _ _ mkey g10); 
      [exact P1|exact Hlm|exact Hprna|exact Hs|exact Hsvn| | | |exact H10|exact Hsm|exact Dok| |exact Htag|exact Hbl| | | | |exact P6].
    - split; [exact Hgm|]. rewrite P4. split; [exact Hg|]. replace (time_of gm + 330 - time_of g) with 0 by lia. reflexivity.
    - split; [exact Hgnok|]. split; [exact Hgm|]. replace (time_of gn + 30 - time_of gm) with 0 by lia. reflexivity.
    - cbn [set_keys o_mack]. apply (K6 prna gm 11%nat); [exact Hget|lia|lia].
    - rewrite Dch, Emk. exact Hv.
    - lia.
    - lia.
    - lia.
    - cbn [set_keys o_nav]. rewrite K2. exact Hhas. }
  assert (Hgn' : stored_gst (o_nav o') j = Some gn).
  { rewrite <- Hgn. apply grown_gst. destruct Hc as (data & sv & gk & -> & _). cbn [step] in Hstep. now apply feed_osnma_grown in Hstep. }
  destruct (has_data_stored h o x o' Ced svn gn j _ _ _ Hok Hord Hrun Hstep Hgn' Hj Hdata) as (R1 & R2).
  split; [exact R1|]. intros H40. apply R2. lia.
Qed.

Theorem slow_tag_authenticates h o x o' hk mk g ks K key mkb prna gm j gn e svn cop tag :
  Forall op_ok (h ++ [x]) -> in_subframe_order (h ++ [x]) -> run new h = Ok o -> step o x = Ok o' ->
  completes h x hk mk g -> keys_then o hk g ks -> current_key ks = Some K -> in_force_since ks (time_of g - 300) ->
  discloses K mk g key -> key_before (k_chain key) 10 (key_bytes key) (time_of g) mkb ->
  (j < nav_depth)%nat -> stored Ced (o_nav o) j svn e -> stored_gst (o_nav o) j = Some gn -> 1 <= svn <= 36 ->
  oldest_word e < cop < 16 -> (12 <= mack_depth)%nat ->
  gst_ok gm -> time_of gn + 30 = time_of gm -> time_of gm + 330 = time_of g ->
  holds_tag o prna gm (k_chain key) mkb key svn 12 cop (data_of Ced e) tag ->
  (exists e', stored Ced (o_nav o') j svn e' /\ data_of Ced e' = data_of Ced e /\
     Z.min 65535 (e_authbits e + Z.of_nat (length tag)) <= e_authbits e') /\
  ((40 <= length tag)%nat -> (forall w, In w (inav_words (h ++ [x])) -> 1 <= g_wn (nw_gst w)) ->
   exists d, getter Ced o' svn = Ok (Some d)).
Proof.
  intros Hok Hord Hrun Hstep Hc Hks HK Hsince Hdis Hmkb Hj Hst Hgn Hsvn Hcop Hdep Hgm Ht1 Ht2.
  intros Hht. refine (slow_tag_core h o x o' hk mk g ks K key _ mkb prna gm j gn e svn cop tag Hok Hord Hrun Hstep Hc Hks HK Hdis _ Hj Hst Hgn Hsvn Hcop Hdep Hgm Ht1 Ht2 Hht).
  intros k' ks' g10 P1 P2 P3 P4 P5 K4 K5 T1 Hsub10 T3.
  assert (Hch : k_chain k' = k_chain K) by (rewrite P3; apply Hdis).
  pose proof (store_key_current _ _ _ _ K4 HK Hch P5) as Hcur.
  destruct (store_key_spec _ _ _ K4 P5) as (_ & _ & Hcif & _).
  assert (Hpast : key_past_chain ks' g10 = Some k').
  { unfold key_past_chain. unfold current_key in Hcur |- *. destruct (ks_cif ks') as [c|] eqn:Ec; [|discriminate].
    destruct (cif_start c) as [g0|] eqn:Es; [|exact Hcur].
    destruct (Hsince c g0 ltac:(congruence) Es) as (Hg0 & Hle).
    replace (gst_ltb g10 g0) with false; [exact Hcur|]. symmetry. apply not_true_is_false. intros Hlt.
    apply gst_ltb_time in Hlt; auto. lia. }
  pose proof (gst_time_bound g10 T1) as Tb.
  assert (Hdiff : subframes_difference (k_gst k') g10 = 10).
  { pose proof (subframes_difference_exact (k_gst k') g10 (ko_gst _ P1) T1 (ko_sub _ P1) Hsub10). rewrite P4 in *. lia. }
  destruct (derive_spec HC 10 k' P1 ltac:(rewrite P4; lia)) as (mkey & Dk & Dok & Dch & Dt & Db).
  exists mkey. split.
  { unfold slowmac_key_of. rewrite Hpast, Hdiff. change (0 <=? 10) with true. cbn [bind]. 
    change (Z.to_nat 10) with 10%nat. rewrite Dk. reflexivity. }
  split; [exact Dok|]. split; [now rewrite Dch|].
  rewrite P4, P2, P3 in Db. exact (key_before_fun _ _ _ _ _ _ Db Hmkb).
Qed.

(** Slow MAC after a change of the chain in force: the MACSEQ is checked with the previous
    chain. *)
Theorem slow_tag_previous_chain h o x o' hk mk g ks K key c g0 P n mkb prna gm j gn e svn cop tag :
  Forall op_ok (h ++ [x]) -> in_subframe_order (h ++ [x]) -> run new h = Ok o -> step o x = Ok o' ->
  completes h x hk mk g -> keys_then o hk g ks -> current_key ks = Some K -> discloses K mk g key ->
  ks_cif ks = Some (mkCif c (Some g0)) -> gst_ok g0 -> time_of g - 300 < time_of g0 ->
  held ks P -> chain_of P <> c -> time_of (k_gst P) = time_of g - 300 + 30 * Z.of_nat n ->
  key_before (k_chain P) n (key_bytes P) (time_of (k_gst P)) mkb ->
  (j < nav_depth)%nat -> stored Ced (o_nav o) j svn e -> stored_gst (o_nav o) j = Some gn -> 1 <= svn <= 36 ->
  oldest_word e < cop < 16 -> (12 <= mack_depth)%nat ->
  gst_ok gm -> time_of gn + 30 = time_of gm -> time_of gm + 330 = time_of g ->
  holds_tag o prna gm (k_chain P) mkb key svn 12 cop (data_of Ced e) tag ->
  (exists e', stored Ced (o_nav o') j svn e' /\ data_of Ced e' = data_of Ced e /\
     Z.min 65535 (e_authbits e + Z.of_nat (length tag)) <= e_authbits e') /\
  ((40 <= length tag)%nat -> (forall w, In w (inav_words (h ++ [x])) -> 1 <= g_wn (nw_gst w)) ->
   exists d, getter Ced o' svn = Ok (Some d)).
Proof.
  intros Hok Hord Hrun Hstep Hc Hks HK Hdis Hcif Hg0 Hlt HP HPc Hn Hmkb Hj Hst Hgn Hsvn Hcop Hdep Hgm Ht1 Ht2.
  intros Hht. refine (slow_tag_core h o x o' hk mk g ks K key _ mkb prna gm j gn e svn cop tag Hok Hord Hrun Hstep Hc Hks HK Hdis _ Hj Hst Hgn Hsvn Hcop Hdep Hgm Ht1 Ht2 Hht).
  intros k' ks' g10 P1 P2 P3 P4 P5 K4 K5 T1 Hsub10 T3.
  assert (Hch : k_chain k' = k_chain K) by (rewrite P3; apply Hdis).
  destruct (store_key_spec _ _ _ K4 P5) as (D1 & D2 & Hcif' & D4 & D5).
  assert (HKc : chain_of k' = c).
  { unfold current_key in HK. rewrite Hcif in HK. destruct (find_key_spec _ _ _ HK) as (_ & E).
    cbn [cif_cid] in E. unfold chain_of. rewrite Hch. lia. }
  assert (HP' : held ks' P) by (apply D5; [exact HP|congruence]).
  assert (Hpast : key_past_chain ks' g10 = Some P).
  { unfold key_past_chain. rewrite Hcif', Hcif. cbn [cif_start cif_cid].
    replace (gst_ltb g10 g0) with true by (symmetry; apply gst_ltb_time; auto; lia).
    destruct (find_key _ ks') as [q|] eqn:E.
    - destruct (find_key_spec _ _ _ E) as (E1 & E2). cbn beta in E2.
      destruct (D4 q E1) as [->|(E3 & _)]; [unfold chain_of in HKc; lia|].
      f_equal. assert (Hq : chain_of q <> c) by (unfold chain_of; lia). apply (other_unique ks K q P (current_key_in _ _ HK)); auto;
      unfold chain_of in *; rewrite <- Hch; congruence.
    - pose proof (find_key_none _ _ E P HP'). cbn beta in *. unfold chain_of in HPc. lia. }
  pose proof (K5 P HP) as HPok. pose proof (gst_time_bound g10 T1) as Tb.
  assert (Hdiff : subframes_difference (k_gst P) g10 = Z.of_nat n).
  { pose proof (subframes_difference_exact (k_gst P) g10 (ko_gst _ HPok) T1 (ko_sub _ HPok) Hsub10). lia. }
  destruct (derive_spec HC n P HPok ltac:(lia)) as (mkey & Dk & Dok & Dch & Dt & Db).
  exists mkey. split.
  { unfold slowmac_key_of. rewrite Hpast, Hdiff. replace (0 <=? Z.of_nat n) with true by lia.
    rewrite Nat2Z.id, Dk. reflexivity. }
  split; [exact Dok|]. split; [exact Dch|]. exact (key_before_fun _ _ _ _ _ _ Db Hmkb).
Qed.

End Crypto.
End Storage.

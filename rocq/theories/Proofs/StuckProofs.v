(** Without a new TESLA key nothing is authenticated. *)
From Coq Require Import ZArith List Bool Lia ZifyBool ZifyNat.
From Verif Require Import Model.Prelude Model.Params Model.Gst Model.Tesla Model.Merkle Model.Subframe Model.Dsm Model.Nav Model.Osnma
  Spec.TimeSpec Spec.CollectSpec Spec.NavSpec Spec.TeslaSpec Spec.KrootSpec Spec.KeySpec Spec.SystemSpec Spec.CompleteSpec Spec.PanicSpec Spec.HonestSpec
  Proofs.Base Proofs.SubframeProofs Proofs.SystemProofs Proofs.GetterProofs Proofs.KeyStoreProofs Proofs.StepProofs Proofs.AlertProofs
  Proofs.HonestKeys.
Import ListNotations.
Open Scope Z_scope.

Section Crypto.
Context {C : crypto} {B : build} {S : storage}.
Hypothesis HC : crypto_ok C.
Hypothesis HS : storage_ok S.
Variables (root : option (list Z)) (user : option public_key) (slow : bool).
Notation new := (osnma_new root user slow).

Lemma fed_completes h o data svn gk sf hk mk g : Forall op_ok h -> op_ok (FeedOsnma data svn gk) -> inv root user slow h o ->
  forallb (Z.eqb 0) data = false -> subframe_feed (o_sub o) data svn gk = Ok (sf, Some (hk, mk, g)) ->
  completes h (FeedOsnma data svn gk) hk mk g.
Proof.
  intros Hok Hx (Hsub & _) Hz H. exists data, svn, gk. split; [reflexivity|]. split; [exact Hz|].
  set (w := mkWord data svn gk) in *.
  assert (Hwok : word_ok w) by (destruct Hx as ((X1 & _) & X2 & X3); split; auto).
  pose proof (osnma_words_ok h Hok) as Hwords.
  destruct (subframe_feed_spec (current_run (osnma_words h)) (o_sub o) w) as (sf' & Esf & _); auto.
  { now apply Forall_current_run. }
  { intros; eapply current_run_same; eauto. }
  change (subframe_feed (o_sub o) data svn gk = Ok (sf', expected_subframe (osnma_words h) w)) in Esf. congruence.
Qed.

(** A call with OSNMA data changes the navigation data store only if it ends with the key of the
    subframe that it completes. *)
Lemma osnma_step_nav h o data svn gk o' : Forall op_ok h -> op_ok (FeedOsnma data svn gk) -> run new h = Ok o ->
  step o (FeedOsnma data svn gk) = Ok o' ->
  o_nav o' = o_nav o \/ exists hk mk g k, completes h (FeedOsnma data svn gk) hk mk g /\ held (o_keys o') k /\ k_gst k = g.
Proof.
  intros Hok Hx Hr H. pose proof (run_inv HC HS root user slow h Hok _ Hr) as Hinv. cbn [step] in H. unfold feed_osnma in H.
  destruct (forallb (fun x => x =? 0) data) eqn:Hz; [left; congruence|].
  assert (Hz' : forallb (Z.eqb 0) data = false).
  { rewrite <- Hz. clear. induction data as [|x l IH]; cbn [forallb]; [reflexivity|]. now rewrite IH, Z.eqb_sym. }
  bind_inv H. destruct x as (sf & [[[hk mk] sg]|]); [|left; injection H as <-; reflexivity].
  pose proof (fed_completes h o data svn gk sf hk mk sg Hok Hx Hinv Hz' E) as Hc.
  unfold process_subframe in H. bind_inv H. bind_inv H. bind_inv H. bind_inv H. destruct x2 as (cd & d).
  bind_inv H. rename x2 into o2.
  assert (En : o_nav o2 = o_nav o).
  { destruct d as [d|]; [|injection E4 as <-; reflexivity]. apply process_dsm_nav in E4. exact E4. }
  assert (Hs : stores_ok o2).
  { pose proof (run_stores h new o (new_stores root user slow) Hr) as Hso.
    destruct d as [d|]; [|injection E4 as <-; exact Hso]. apply (process_dsm_stores _ _ _ _ _) in E4; [exact E4|exact Hso]. }
  destruct (validate_key_effect _ _ _ _ H) as [->|cur key ks K1 K2 K3 K4 K5 K6 K7]; [now left|].
  right. exists hk, mk, sg, key. split; [exact Hc|]. split; [|exact K5].
  destruct (process_tags_trust _ _ _ K7) as (Ht & _). destruct Ht as (_ & _ & T3). rewrite T3. cbn [set_keys o_keys].
  exact (proj1 (proj2 (store_key_spec _ _ _ (proj2 Hs) K6))).
Qed.

Definition no_new_key (h q : list op) (o1 : osnma) : Prop :=
  forall p x q' o hk mk g k, q = p ++ x :: q' -> run o1 (p ++ [x]) = Ok o -> completes (h ++ p) x hk mk g ->
    held (o_keys o) k -> k_gst k <> g.

Theorem no_key_no_authentication h q o1 o2 : Forall op_ok (h ++ q) -> run new h = Ok o1 -> run o1 q = Ok o2 ->
  no_new_key h q o1 ->
  forall k svn d, getter k o2 svn = Ok (Some d) -> authenticated root user slow h k svn (nd_data d) (nd_authbits d).
Proof.
  intros Hok R1 R2 Hq.
  assert (Hn : exists ws, nav_has (verified root user slow h) ws (o_nav o2)).
  { revert o2 R2. induction q as [|x q IH] using rev_ind; intros o2 R2.
    - injection R2 as <-. exists (inav_words h). apply (reachable_has HC HS); [|exact R1]. now rewrite app_nil_r in Hok.
    - rewrite run_app in R2. bind_inv R2. rename x0 into o. rewrite app_assoc in Hok.
      pose proof (proj1 (proj1 (Forall_app _ _ _) Hok)) as Hok1. apply Forall_app in Hok. destruct Hok as (_ & Hx).
      apply Forall_cons_iff in Hx. destruct Hx as (Hx & _).
      destruct (IH Hok1) with (o2 := o) as (ws & Hws); [|exact E|].
      { intros p y q' o' hk mk g k E' Hr Hc Hk. apply (Hq p y (q' ++ [x]) o' hk mk g k); auto. now rewrite E', <- app_assoc. }
      assert (Hr : run new (h ++ q) = Ok o) by (rewrite run_app, R1; exact E).
      assert (Hs : step o x = Ok o2).
      { unfold run in R2. cbn [fold_outcome] in R2. bind_inv R2. congruence. }
      destruct x as [word svn g b|data svn gk].
      + cbn [step] in Hs. unfold feed_inav in Hs. bind_inv Hs. injection Hs as <-. destruct Hx as (Hw & Hsvn & Hg).
        exists (ws ++ [mkNWord word svn g b]). now apply (nav_has_feed HS _ ws (o_nav o)).
      + destruct (osnma_step_nav (h ++ q) o data svn gk o2 Hok1 Hx Hr Hs) as [->|(hk & mk & g & k & Hc & Hk & Eg)]; [now exists ws|].
        exfalso. apply (Hq q (FeedOsnma data svn gk) [] o2 hk mk g k); auto.
        rewrite run_app, E. exact R2. }
  destruct Hn as (ws & Hws). intros k svn d Hg. exact (nav_has_getter HS _ _ _ _ _ _ Hws Hg).
Qed.

(** After a gap of more than 25 hours. *)
Variables (pk : public_key) (t : transmission).
Hypothesis Ht : transmission_ok pk t.

Theorem long_outage_data h q o K : Forall op_ok (h ++ q) -> hears root user pk t (h ++ q) -> run new h = Ok o ->
  current_key (o_keys o) = Some K ->
  (forall p x q' hk mk g, q = p ++ x :: q' -> completes (h ++ p) x hk mk g -> time_of (k_gst K) + 90000 < time_of g) ->
  exists o', run new (h ++ q) = Ok o' /\ o_keys o' = o_keys o /\
    forall k svn d, getter k o' svn = Ok (Some d) -> authenticated root user slow h k svn (nd_data d) (nd_authbits d).
Proof.
  intros Hok Hh Hr HK Hq. destruct (honest_stuck HC HS pk t Ht root user slow q h o K Hok Hh Hr HK Hq) as (o' & Hr' & Ek).
  exists o'. split; [exact Hr'|]. split; [exact Ek|].
  assert (R2 : run o q = Ok o') by (rewrite run_app, Hr in Hr'; exact Hr').
  apply (no_key_no_authentication h q o o' Hok Hr R2).
  intros p x q' o2 hk mk g k E Hr2 Hc Hk Hg.
  assert (Eq : q = (p ++ [x]) ++ q') by (rewrite <- app_assoc; exact E).
  assert (Hok2 : Forall op_ok (h ++ p ++ [x])) by (rewrite Eq, app_assoc in Hok; now apply Forall_app in Hok).
  assert (Hh2 : hears root user pk t (h ++ p ++ [x])) by (rewrite Eq, app_assoc in Hh; exact (hears_app pk t root user _ _ Hh)).
  destruct (honest_stuck HC HS pk t Ht root user slow (p ++ [x]) h o K Hok2 Hh2 Hr HK) as (o3 & Hr3 & Ek3).
  { intros p1 y q1 hk1 mk1 g1 E1 H1. apply (Hq p1 y (q1 ++ q') hk1 mk1 g1); [|exact H1]. rewrite Eq, E1, <- app_assoc. reflexivity. }
  assert (o3 = o2) by (rewrite run_app, Hr in Hr3; cbn [bind] in Hr3; congruence). subst o3.
  pose proof (Hq p x q' hk mk g E Hc) as Hfar.
  assert (Hok1 : Forall op_ok h) by now apply Forall_app in Hok.
  destruct (honest_run HC HS pk t Ht root user slow h Hok1 (hears_app pk t root user _ _ Hh)) as (o0 & Hr0 & Hks).
  assert (o0 = o) by congruence. subst o0.
  destruct Hks as (_ & _ & [(EE & _)|(K0 & EE & HKc & _)]); [rewrite EE in HK; discriminate HK|].
  rewrite EE, with_key_current in HK by (apply HKc). assert (K0 = K) by congruence. subst K0.
  rewrite Ek3, EE in Hk. destruct Hk as [Hk|Hk]; [|discriminate Hk]. cbn [with_key ks_k0] in Hk.
  assert (k = K) by congruence. subst k. rewrite Hg in Hfar. lia.
Qed.
End Crypto.

(** The lines of the log about the navigation data storage. *)
From Coq Require Import ZArith List Bool Lia ZifyBool ZifyNat.
From Verif Require Import Model.Prelude Model.Params Model.Gst Model.Svn Model.Bitfields
  Model.Maclt Model.Tesla Model.Merkle Model.Subframe Model.Dsm Model.MackStore Model.Nav Model.Osnma
  Model.Logging
  Spec.TimeSpec Spec.CollectSpec Spec.StoreSpec Spec.NavSpec Spec.TeslaSpec Spec.KrootSpec
  Spec.KeySpec Spec.SystemSpec Spec.StoredSpec Spec.NavLogSpec
  Proofs.Base Proofs.Ring Proofs.Rows Proofs.GstProofs Proofs.NavProofs Proofs.EntryProofs Proofs.NavInv
  Proofs.NavHistory Proofs.SystemProofs Proofs.GetterProofs Proofs.KeyStoreProofs Proofs.StepProofs Proofs.StoredProofs
  Proofs.LoggingProofs Proofs.LogRunProofs Proofs.LogTrueProofs.
Import ListNotations.
Open Scope Z_scope.

Section Storage.
Context {C : crypto} {B : build} {S : storage}.
Hypothesis HS : storage_ok S.
Variable mx : option level.

(** ** The current row *)

Lemma age_fresh k : age_entry (entry_new k) = entry_new k.
Proof. destruct k; reflexivity. Qed.
Lemma age_fresh_row k : map age_entry (fresh_row k) = fresh_row k.
Proof. unfold fresh_row. induction num_sats as [|m IH]; cbn [repeat map]; [reflexivity|]. now rewrite age_fresh, IH. Qed.

Lemma base_fresh hs n g k : represents_nav hs n -> stored_gst n 0 = None -> base_row k n g = map age_entry (stored_row k n 0).
Proof.
  intros Hrep Eg. unfold base_row. rewrite Eg. destruct hs as [|s hs _] using rev_ind.
  - destruct (stored_current_fresh HS n Hrep) as (R & _). now rewrite R, age_fresh_row.
  - destruct (stored_current HS _ _ _ Hrep) as (_ & R). congruence.
Qed.

Lemma base_from n g k e1 : nav_has n -> In e1 (base_row k n g) -> exists e, In e (stored_row k n 0) /\ carried_over n g e e1.
Proof.
  intros (hs & Hrep & _) Hin. unfold carried_over. destruct (stored_gst n 0) as [g0|] eqn:Eg.
  - unfold base_row in Hin. rewrite Eg in Hin. destruct (gst_eqb g0 (subframe_of g)) eqn:E.
    + apply gst_eqb_eq in E. exists e1. split; [exact Hin|]. split; congruence.
    + apply in_map_iff in Hin. destruct Hin as (e & <- & Hin). exists e. split; [exact Hin|].
      assert (g0 <> subframe_of g) by (intros ->; rewrite gst_eqb_refl in E; discriminate).
      split; [congruence|]. intros _. apply age_one_older.
  - rewrite (base_fresh hs n g k Hrep Eg) in Hin. apply in_map_iff in Hin. destruct Hin as (e & <- & Hin).
    exists e. split; [exact Hin|]. split; [discriminate|]. intros _. apply age_one_older.
Qed.

Lemma base_to n g k e e1 : nav_has n -> In e (stored_row k n 0) -> carried_over n g e e1 -> In e1 (base_row k n g).
Proof.
  intros (hs & Hrep & _) Hin (H1 & H2). destruct (stored_gst n 0) as [g0|] eqn:Eg.
  - unfold base_row. rewrite Eg. destruct (gst_eqb g0 (subframe_of g)) eqn:E.
    + apply gst_eqb_eq in E. rewrite H1 by congruence. exact Hin.
    + assert (Hne : Some g0 <> Some (subframe_of g)).
      { intros X. assert (g0 = subframe_of g) by congruence. subst g0. rewrite gst_eqb_refl in E. discriminate. }
      rewrite (one_older_age _ _ (H2 Hne)). now apply in_map.
  - rewrite (base_fresh hs n g k Hrep Eg). rewrite (one_older_age e e1); [now apply in_map|]. apply H2. discriminate.
Qed.

Lemma carried_svn n g e e1 : carried_over n g e e1 -> e_svn e1 = e_svn e.
Proof.
  intros (H1 & H2). destruct (option_eqb gst_eqb (stored_gst n 0) (Some (subframe_of g))) eqn:E.
  - assert (Eq : stored_gst n 0 = Some (subframe_of g)).
    { destruct (stored_gst n 0) as [g0|]; [|discriminate]. cbn in E. apply gst_eqb_eq in E. congruence. }
    now rewrite (H1 Eq).
  - assert (Hn : stored_gst n 0 <> Some (subframe_of g)).
    { intros Eq. rewrite Eq in E. cbn in E. rewrite gst_eqb_refl in E. discriminate. }
    destruct (H2 Hn) as (_ & R & _). exact R.
Qed.

Lemma carried_ex n g e : exists e1, carried_over n g e e1.
Proof.
  destruct (option_eqb gst_eqb (stored_gst n 0) (Some (subframe_of g))) eqn:E.
  - assert (Eq : stored_gst n 0 = Some (subframe_of g)).
    { destruct (stored_gst n 0) as [g0|]; [|discriminate]. cbn in E. apply gst_eqb_eq in E. congruence. }
    exists e. split; congruence.
  - assert (Hn : stored_gst n 0 <> Some (subframe_of g)).
    { intros Eq. rewrite Eq in E. cbn in E. rewrite gst_eqb_refl in E. discriminate. }
    exists (age_entry e). split; [congruence|]. intros _. apply age_one_older.
Qed.

(** The row after the write pointer is adjusted. *)
Lemma adjusted_row hs n g n1 : represents_nav hs n -> nav_adjust n (gst_subframe g) = Ok n1 ->
  (nv_wp n1 < nav_depth)%nat /\ forall k, row_of (nv_arr k n1) (nv_wp n1) = Ok (base_row k n g).
Proof.
  intros Hrep Ha. destruct (nav_adjust_spec HS hs n (gst_subframe g) Hrep) as (n2 & E & Hrep1 & _).
  rewrite Ha in E. injection E as <-.
  destruct (abs_adjust_last hs (gst_subframe g)) as (hs1 & s & Eh & Hsg). rewrite Eh in Hrep1.
  destruct (last_snap HS hs1 s n1 Hrep1) as (L1 & L2 & L3 & L4). split; [exact L1|]. intros k.
  unfold row_of. rewrite (row_slice _ nav_depth) by (auto; apply (nv_arr_length k _ _ Hrep1)). rewrite L4. f_equal.
  unfold base_row. destruct hs as [|s0 hs0 _] using rev_ind.
  - destruct (stored_current_fresh HS _ Hrep) as (F1 & F2). rewrite F2.
    unfold abs_adjust in Eh. cbn [rev] in Eh. destruct hs1 as [|x [|y t]]; [|discriminate|discriminate].
    injection Eh as <-. destruct k; reflexivity.
  - destruct (stored_current HS _ _ _ Hrep) as (F1 & F2). rewrite F1, F2, subframe_of_eq. rewrite abs_adjust_snoc in Eh.
    destruct (gst_eqb (s_gst s0) (gst_subframe g)) eqn:Eg.
    + apply app_inj_tail in Eh. now destruct Eh as (_ & <-).
    + apply app_inj_tail in Eh. destruct Eh as (_ & <-). destruct k; reflexivity.
Qed.

(** ** The lines *)

Variables (ws : list nword) (n n' : nav) (word : list Z) (svn : Z) (g : gst) (b : band).
Hypothesis Hhas : nav_has n.
Hypothesis Hlast : forall g0, stored_gst n 0 = Some g0 -> last_word_in ws g0.
Hypothesis Hword : bytes_ok 16 word.
Hypothesis Hsvn : 1 <= svn <= 36.
Hypothesis Hfeed : nav_feed n word svn g b = Ok n'.

Definition line_ok (m : message) : Prop := about_nav_storage m = true -> nav_claim ws n n' svn g m.
Notation right := (says line_ok).

Ltac not_about := match goal with
  | H : Ok _ = Ok ?m |- line_ok ?m => injection H as <-; intros X; discriminate X
  | H : bind _ _ = Ok ?m |- line_ok ?m => repeat bind_inv H; injection H as <-; intros X; discriminate X
  end.

Lemma kind_right k m : (nv_wp m < nav_depth)%nat -> row_of (nv_arr k m) (nv_wp m) = Ok (base_row k n g) ->
  right (nav_feed_kind_log mx k word svn b m).
Proof.
  intros Hwp Hrow. unfold nav_feed_kind_log. rewrite Hrow. destruct (base_row_ok HS n g k Hhas) as (Hok & Hlen).
  apply says_lbind; [apply says_quiet|]. intros r Er. rewrite plain_quiet in Er. injection Er as <-.
  apply says_lbind; [apply says_quiet|]. intros i Ei. rewrite plain_quiet in Ei.
  destruct (max_by_key (slot_key svn) (base_row k n g)) as [i'|] eqn:Em; [|discriminate]. injection Ei as ->.
  apply says_lbind; [apply says_quiet|]. intros e1 Ee. rewrite plain_quiet in Ee. apply index_ok in Ee.
  pose proof (slot_spec k svn _ i e1 Hok Em Ee) as Hslot. pose proof (nth_error_In _ _ Ee) as Hin.
  apply says_lbind.
  { apply says_log. intros m0 Hm. injection Hm as <-. intros _. cbn [nav_claim].
    destruct (base_from n g k e1 Hhas Hin) as (e & He & Hc). exists e, e1. split; [exact He|]. split; [exact Hc|].
    split; [reflexivity|]. split; [reflexivity|]. destruct Hslot as [Hs|(Hn & Hs)]; [now left|]. right. split.
    - intros x (Hx & Hxs). destruct (carried_ex n g x) as (x1 & Hx1). apply (Hn x1).
      + exact (base_to n g k x x1 Hhas Hx Hx1).
      + rewrite (carried_svn n g x x1 Hx1). exact Hxs.
    - destruct Hs as [Hs|(Hf & Ho)]; [now left|]. right. split.
      + intros x Hx Hxs. destruct (carried_ex n g x) as (x1 & Hx1). apply (Hf x1).
        * exact (base_to n g k x x1 Hhas Hx Hx1).
        * rewrite (carried_svn n g x x1 Hx1). exact Hxs.
      + intros x x1 Hx Hc1. exact (Ho x1 (base_to n g k x x1 Hhas Hx Hc1)). }
  intros _ _.
  apply says_lbind; [|intros; says].
  assert (Hst : stored k n' 0 svn (entry_feed k word svn b e1)).
  { split; [|apply entry_feed_svn]. destruct Hhas as (hs & Hrep & _).
    destruct (feed_stored HS hs n word svn g b n' Hrep Hfeed) as (R & _). rewrite R. unfold feed_row. rewrite Em, Ee.
    assert (Hi : (i < length (base_row k n g))%nat) by (apply nth_error_Some; congruence).
    unfold put. apply in_or_app. right. now left. }
  assert (Hage : forall m0 (e2 : entry), e2 = entry_feed k word svn b e1 ->
      (s <- unwrap (e_svn e2) ;; Ok (LgAge k s (e_age e2))) = Ok m0 -> line_ok m0).
  { intros m0 e2 -> Hm. rewrite entry_feed_svn in Hm. cbn [unwrap bind] in Hm. injection Hm as <-. intros _.
    cbn [nav_claim]. split; [reflexivity|]. exists (entry_feed k word svn b e1). auto. }
  destruct k; cbn [entry_feed_log]; unfold ced_feed_log, timing_feed_log, log_word; cbv zeta.
  - apply says_lbind; [repeat (says1; cbv beta); not_about|]. intros _ _.
    apply says_lbind; [|intros; apply says_done]. unfold log_age. apply says_log. intros m0. apply Hage. reflexivity.
  - apply says_lbind; [repeat (says1; cbv beta); not_about|]. intros e2 E2.
    apply says_lbind; [|intros; apply says_done]. unfold log_age. apply says_log. intros m0. apply Hage.
    pose proof (entry_feed_plain mx Timing word svn b e1) as Hp. cbn [entry_feed_log] in Hp. unfold timing_feed_log in Hp.
    cbv zeta in Hp. rewrite plain_lbind in Hp. unfold log_word in Hp. rewrite E2 in Hp. cbn [bind] in Hp.
    rewrite plain_lbind in Hp. destruct (plain (log_age mx Timing e2)); [|discriminate]. cbn [bind] in Hp. injection Hp as Hp. exact Hp.
Qed.

Lemma contents_right k l wp : begins_subframe ws g ->
  (forall r e1, row_of l wp = Ok r -> In e1 r -> exists e, In e (stored_row k n 0) /\ one_older e e1) ->
  right (log_contents mx k l wp).
Proof.
  intros Hb Hr. unfold log_contents. apply says_lbind.
  { apply says_log. intros m Hm. injection Hm as <-. intros _. exact Hb. }
  intros _ _. apply says_lbind; [apply says_quiet|]. intros r Er. rewrite plain_quiet in Er.
  apply (says_fold _ (fun _ => True)); [exact I| |intros; exact I]. intros s e1 Hin _.
  apply says_log. intros m Hm. injection Hm as <-. intros _. cbn [nav_claim]. split; [exact Hb|].
  destruct (Hr r e1 Er Hin) as (e & He & Ho). exists k, e, e1. repeat (split; [eassumption || reflexivity|]). reflexivity.
Qed.

Lemma adjust_right : right (nav_adjust_log mx n (gst_subframe g)).
Proof.
  destruct Hhas as (hs & Hrep & _). pose proof Hrep as (H1 & H2 & H3 & H4 & _). destruct (nv_sizes HS) as (Hs & Hd & _).
  assert (Hwp : (nv_wp n < nav_depth)%nat) by (rewrite H4; apply Nat.mod_upper_bound; lia).
  assert (Ewp : ((nav_depth + nv_wp n - 0) mod nav_depth = nv_wp n)%nat).
  { rewrite Nat.sub_0_r, Nat.add_comm. replace (nv_wp n + nav_depth)%nat with (nv_wp n + 1 * nav_depth)%nat by lia.
    rewrite Nat.mod_add by lia. now apply Nat.mod_small. }
  unfold nav_adjust_log. apply says_lbind; [apply says_quiet|]. intros cur Ec. rewrite plain_quiet in Ec. apply index_ok in Ec.
  apply says_lbind; [|intros; says]. destruct cur as [g0|]; [|apply says_done].
  destruct (gst_eqb g0 (gst_subframe g)) eqn:Eg; cbn [negb]; [apply says_done|].
  assert (Hg0 : stored_gst n 0 = Some g0).
  { unfold stored_gst. rewrite Ewp. now apply nth_error_nth. }
  assert (Hne : g0 <> subframe_of g) by (rewrite subframe_of_eq; intros ->; rewrite gst_eqb_refl in Eg; discriminate).
  assert (Hb : begins_subframe ws g) by (exists g0; auto).
  apply says_lbind.
  { apply says_log. intros m Hm. injection Hm as <-. intros _. cbn [nav_claim]. rewrite <- subframe_of_eq. auto. }
  intros _ _. cbv zeta.
  assert (Hto : ((nv_wp n + 1) mod nav_depth < nav_depth)%nat) by (apply Nat.mod_upper_bound; lia).
  assert (Hrows : forall k l, copy_and_age (nv_arr k n) (nv_wp n) ((nv_wp n + 1) mod nav_depth) = Ok l ->
    forall r e1, row_of l ((nv_wp n + 1) mod nav_depth) = Ok r -> In e1 r -> exists e, In e (stored_row k n 0) /\ one_older e e1).
  { intros k l El r e1 Er Hin.
    assert (Hl : length (nv_arr k n) = (num_sats * nav_depth)%nat) by (destruct k; auto).
    destruct (copy_and_age_spec (nv_arr k n) (nv_wp n) ((nv_wp n + 1) mod nav_depth) Hl Hwp Hto) as (l' & E' & Hl' & Hr').
    rewrite El in E'. injection E' as <-. unfold row_of in Er. rewrite (row_slice _ nav_depth) in Er by auto. injection Er as <-.
    rewrite (Hr' _ Hto), Nat.eqb_refl in Hin. apply in_map_iff in Hin. destruct Hin as (e & <- & Hin).
    exists e. rewrite stored_row_row, Ewp. split; [exact Hin|]. apply age_one_older. }
  apply says_lbind; [apply says_quiet|]. intros lc Elc. rewrite plain_quiet in Elc.
  apply says_lbind; [apply says_quiet|]. intros lt Elt. rewrite plain_quiet in Elt.
  apply says_lbind; [|intros; apply says_done]. destruct (enabled mx LDebug); [|apply says_done].
  apply says_lbind.
  { apply says_log. intros m Hm. injection Hm as <-. intros _. cbn [nav_claim]. rewrite <- subframe_of_eq. auto. }
  intros _ _. apply says_lbind.
  - apply contents_right; [exact Hb|]. exact (Hrows Ced lc Elc).
  - intros _ _. apply contents_right; [exact Hb|]. exact (Hrows Timing lt Elt).
Qed.

(** The contents that are shown. *)
Lemma fold_log_lines {A} (f : A -> message) r : enabled mx LDebug = true ->
  fold_logging (fun _ e => log mx LDebug (Ok (f e))) r tt = Ok (map (fun e => (LDebug, f e)) r, tt).
Proof.
  intros Hen. induction r as [|e r IH]; [reflexivity|]. cbn [fold_logging map].
  assert (El : log mx LDebug (Ok (f e)) = Ok ([(LDebug, f e)], tt)) by (unfold log; rewrite Hen; reflexivity).
  rewrite El. unfold lbind. rewrite IH. reflexivity.
Qed.

Lemma contents_lines k l wp r : enabled mx LDebug = true -> row_of l wp = Ok r ->
  log_contents mx k l wp
  = Ok ((LDebug, LgContents k) :: map (fun e => (LDebug, LgEntry (e_svn e) (e_age e) (e_authbits e))) r, tt).
Proof.
  intros Hen Hr. unfold log_contents.
  assert (El : log mx LDebug (Ok (LgContents k)) = Ok ([(LDebug, LgContents k)], tt)) by (unfold log; rewrite Hen; reflexivity).
  rewrite El, Hr. unfold quiet, lbind. cbn [bind]. cbv beta iota.
  rewrite (fold_log_lines (fun e => LgEntry (e_svn e) (e_age e) (e_authbits e)) r Hen). reflexivity.
Qed.

Notation hidden := (says (fun m => shows_contents m = false)).
Lemma kind_hidden k m : hidden (nav_feed_kind_log mx k word svn b m).
Proof.
  unfold nav_feed_kind_log, entry_feed_log, ced_feed_log, timing_feed_log, log_word, log_age.
  repeat (says1; cbv beta); match goal with
  | H : Ok _ = Ok ?m |- _ => injection H as <-; reflexivity
  | H : bind _ _ = Ok ?m |- _ => repeat bind_inv H; injection H as <-; reflexivity
  end.
Qed.

Notation shown ls := (filter shows_contents (map snd ls)).
Lemma hidden_lines {A} (x : logging A) ls a : hidden x -> x = Ok (ls, a) -> shown ls = [].
Proof.
  intros H E. specialize (H ls a E). clear E. induction ls as [|(l, m) ls IH]; [reflexivity|]. cbn [map snd filter].
  rewrite (H l m) by now left. apply IH. intros l' m' Hin. apply (H l' m'). now right.
Qed.

Lemma shown_app (l1 l2 : lines) : shown (l1 ++ l2) = shown l1 ++ shown l2.
Proof. now rewrite map_app, filter_app. Qed.

Lemma shown_contents k (r : list entry) :
  shown ((LDebug, LgContents k) :: map (fun e => (LDebug, LgEntry (e_svn e) (e_age e) (e_authbits e))) (map age_entry r))
  = LgContents k :: map (fun e => LgEntry (e_svn e) (map (fun a => Z.min 255 (a + 1)) (e_age e)) (e_authbits e)) r.
Proof.
  cbn [map snd filter shows_contents]. f_equal. induction r as [|e r IH]; [reflexivity|]. cbn [map snd filter shows_contents].
  now rewrite IH.
Qed.

Lemma adjust_shows g0 ls a : stored_gst n 0 = Some g0 -> g0 <> subframe_of g -> enabled mx LDebug = true ->
  nav_adjust_log mx n (gst_subframe g) = Ok (ls, a) -> shown ls = contents_shown Ced n ++ contents_shown Timing n.
Proof.
  intros Hg0 Hne Hen. destruct Hhas as (hs & Hrep & _). pose proof Hrep as (H1 & H2 & H3 & H4 & _). destruct (nv_sizes HS) as (Hs & Hd & _).
  assert (Hwp : (nv_wp n < nav_depth)%nat) by (rewrite H4; apply Nat.mod_upper_bound; lia).
  assert (Ewp : ((nav_depth + nv_wp n - 0) mod nav_depth = nv_wp n)%nat).
  { rewrite Nat.sub_0_r, Nat.add_comm. replace (nv_wp n + nav_depth)%nat with (nv_wp n + 1 * nav_depth)%nat by lia.
    rewrite Nat.mod_add by lia. now apply Nat.mod_small. }
  assert (Hto : ((nv_wp n + 1) mod nav_depth < nav_depth)%nat) by (apply Nat.mod_upper_bound; lia).
  assert (Hrows : forall k, exists l, copy_and_age (nv_arr k n) (nv_wp n) ((nv_wp n + 1) mod nav_depth) = Ok l /\
    row_of l ((nv_wp n + 1) mod nav_depth) = Ok (map age_entry (stored_row k n 0))).
  { intros k. assert (Hl : length (nv_arr k n) = (num_sats * nav_depth)%nat) by (destruct k; auto).
    destruct (copy_and_age_spec (nv_arr k n) (nv_wp n) ((nv_wp n + 1) mod nav_depth) Hl Hwp Hto) as (l' & E' & Hl' & Hr').
    exists l'. split; [exact E'|]. unfold row_of. rewrite (row_slice _ nav_depth) by auto.
    rewrite (Hr' _ Hto), Nat.eqb_refl, stored_row_row, Ewp. reflexivity. }
  destruct (Hrows Ced) as (lc & Ec & Rc). destruct (Hrows Timing) as (lt & Et & Rt). cbn [nv_arr] in Ec, Et.
  unfold nav_adjust_log. intros E. apply lbind_ok in E. destruct E as (l1 & cur & l2 & E1 & E2 & ->).
  apply quiet_ok in E1. destruct E1 as (-> & E1). apply index_ok in E1.
  assert (cur = Some g0) as ->.
  { unfold stored_gst in Hg0. rewrite Ewp in Hg0. rewrite (nth_error_nth _ _ None E1) in Hg0. exact Hg0. }
  apply lbind_ok in E2. destruct E2 as (l3 & n1 & l4 & E2 & E3 & ->).
  apply lbind_ok in E3. destruct E3 as (l5 & gs & l6 & E3 & E4 & ->). apply quiet_ok in E3. destruct E3 as (-> & _).
  apply done_ok in E4. destruct E4 as (-> & _). rewrite !app_nil_r, app_nil_l.
  assert (Eg : gst_eqb g0 (gst_subframe g) = false).
  { destruct (gst_eqb g0 (gst_subframe g)) eqn:Eg; [|reflexivity]. apply gst_eqb_eq in Eg. rewrite <- subframe_of_eq in Eg. now destruct Hne. }
  rewrite Eg in E2. cbn [negb] in E2. cbv zeta in E2.
  apply lbind_ok in E2. destruct E2 as (k1 & u1 & k2 & F1 & F2 & ->).
  apply lbind_ok in F2. destruct F2 as (k3 & ced & k4 & F2 & F3 & ->). apply quiet_ok in F2. destruct F2 as (-> & F2).
  apply lbind_ok in F3. destruct F3 as (k5 & tim & k6 & F3 & F4 & ->). apply quiet_ok in F3. destruct F3 as (-> & F3).
  rewrite Ec in F2. injection F2 as <-. rewrite Et in F3. injection F3 as <-.
  apply lbind_ok in F4. destruct F4 as (k7 & u2 & k8 & F4 & F5 & ->). apply done_ok in F5. destruct F5 as (-> & _).
  rewrite Hen in F4. apply lbind_ok in F4. destruct F4 as (m1 & u3 & m2 & G1 & G2 & ->).
  apply lbind_ok in G2. destruct G2 as (m3 & u4 & m4 & G2 & G3 & ->).
  rewrite (contents_lines Ced lc _ _ Hen Rc) in G2. rewrite (contents_lines Timing lt _ _ Hen Rt) in G3.
  assert (Hok : forall A (x y : A), Ok x = Ok y -> x = y) by (intros A x y X; now injection X).
  apply Hok in G2, G3. apply pair_equal_spec in G2, G3. destruct G2 as (<- & _), G3 as (<- & _).
  rewrite !app_nil_r, !app_nil_l, !shown_app.
  rewrite (hidden_lines (log mx LTrace (Ok (LgNavNewGst (gst_subframe g) g0))) k1 u1); [|says1; injection H as <-; reflexivity|exact F1].
  rewrite (hidden_lines (log mx LDebug (Ok (LgAdvanced (gst_subframe g)))) m1 u3); [|says1; injection H as <-; reflexivity|exact G1].
  rewrite !shown_contents. reflexivity.
Qed.

Lemma nav_feed_shows g0 ls a : stored_gst n 0 = Some g0 -> g0 <> subframe_of g -> enabled mx LDebug = true ->
  nav_feed_log mx n word svn g b = Ok (ls, a) -> shown ls = contents_shown Ced n ++ contents_shown Timing n.
Proof.
  intros Hg0 Hne Hen E. unfold nav_feed_log in E. apply lbind_ok in E. destruct E as (l1 & u & l2 & E1 & E2 & ->). cbv zeta in E2.
  apply lbind_ok in E2. destruct E2 as (l3 & n1 & l4 & E2 & E3 & ->).
  apply lbind_ok in E3. destruct E3 as (l5 & n2 & l6 & E3 & E4 & ->). rewrite !shown_app.
  rewrite (hidden_lines (log mx LTrace (Ok (LgFeedInav word svn g))) l1 u); [|says1; injection H as <-; reflexivity|exact E1].
  rewrite (adjust_shows g0 l3 n1 Hg0 Hne Hen E2), (hidden_lines _ _ _ (kind_hidden _ _) E3), (hidden_lines _ _ _ (kind_hidden _ _) E4).
  cbn [app]. now rewrite !app_nil_r.
Qed.

Lemma nav_feed_right : right (nav_feed_log mx n word svn g b).
Proof.
  unfold nav_feed_log. apply says_lbind; [repeat (says1; cbv beta); not_about|]. intros _ _. cbv zeta.
  apply says_lbind; [apply adjust_right|]. intros n1 E1. rewrite nav_adjust_plain in E1.
  destruct Hhas as (hs & Hrep & _). destruct (adjusted_row hs n g n1 Hrep E1) as (Hwp & Hrow).
  apply says_lbind; [now apply kind_right|]. intros n2 E2. rewrite nav_feed_kind_plain in E2. apply kind_right.
  - unfold nav_feed_kind in E2. repeat bind_inv E2. injection E2 as <-. exact Hwp.
  - unfold nav_feed_kind in E2. repeat bind_inv E2. injection E2 as <-. exact (Hrow Timing).
Qed.

End Storage.

(** ** Functions that log nothing about the navigation data storage *)
Section Crypto.
Context {C : crypto} {B : build} {S : storage}.
Hypothesis HC : crypto_ok C.
Hypothesis HS : storage_ok S.
Variable mx : option level.

Notation others := (says (fun m => about_nav_storage m = false)).
Ltac other_line :=
  match goal with
  | H : Ok _ = Ok ?m |- _ => injection H as <-; reflexivity
  | H : bind _ _ = Ok ?m |- _ => repeat bind_inv H; injection H as <-; reflexivity
  end.
Ltac others := repeat (says1; cbv beta); try other_line.

Lemma subframe_feed_others st data svn g : others (subframe_feed_log mx st data svn g).
Proof. unfold subframe_feed_log. others. Qed.
Lemma one_tag_others k key tag adkd cop g1 g2 prnd prnds prna j s n : others (process_one_tag_log mx k key tag adkd cop g1 g2 prnd prnds prna j s n).
Proof. unfold process_one_tag_log, nav_validate_dummy_tag_log, nav_validate_tag_log. others. Qed.
Lemma process_mack_others n m key prna g s : others (process_mack_log mx n m key prna g s).
Proof.
  unfold process_mack_log, process_mack_tag_log.
  repeat (first [apply one_tag_others|says1]; cbv beta); try other_line.
Qed.
Lemma process_slow_others n m key prna g s : others (process_mack_slowmac_log mx n m key prna g s).
Proof.
  unfold process_mack_slowmac_log, process_slowmac_tag_log.
  repeat (first [apply one_tag_others|says1]; cbv beta); try other_line.
Qed.
Lemma process_tags_others o key : others (process_tags_log mx o key).
Proof.
  unfold process_tags_log, process_tags_fast_log, process_tags_slow_log, validate_mack_log.
  repeat (first [apply process_mack_others|apply process_slow_others|says1]; cbv beta); try other_line.
Qed.
Lemma validate_key_others o mk g : others (osnma_validate_key_log mx o mk g).
Proof. unfold osnma_validate_key_log. repeat (first [apply process_tags_others|says1]; cbv beta); try other_line. Qed.
Lemma nma_header_others o hd id : others (process_nma_header_log mx o hd id).
Proof. unfold process_nma_header_log, keys_revoke_log, pubs_revoke_log, alert_message_received_log. others. Qed.
Lemma process_dsm_others o d hd g : others (process_dsm_log mx o d hd g).
Proof.
  unfold process_dsm_log, process_dsm_kroot_log, process_dsm_pkr_log, process_dsm_pkr_npk_log, process_dsm_pkr_alert_message_log,
    applicable_pubkey_log, store_kroot_log, store_new_pubkey_log, alert_message_received_log.
  repeat (first [apply nma_header_others|says1]; cbv beta); try other_line.
Qed.

Lemma feed_osnma_others o data svn g : others (feed_osnma_log mx o data svn g).
Proof.
  unfold feed_osnma_log. destruct (forallb _ data); [apply says_done|].
  apply says_lbind; [apply subframe_feed_others|]. intros (sf & r) _. destruct r as [((hk & mk) & gs)|]; [|apply says_done].
  cbv zeta. unfold process_subframe_log, mack_store_log, mack_adjust_log, dsm_feed_log, store_block_log, done_and_size_log,
    dsm_number_of_blocks_log.
  repeat (first [apply process_dsm_others|apply validate_key_others|says1]; cbv beta); try other_line.
Qed.

(** ** The current subframe of the storage *)
Variables (root : option (list Z)) (user : option public_key) (slow : bool).
Notation new := (osnma_new root user slow).

Lemma stored_last h : Forall op_ok h -> forall o g0, run new h = Ok o -> stored_gst (o_nav o) 0 = Some g0 ->
  last_word_in (inav_words h) g0.
Proof.
  induction h as [|x h IH] using rev_ind; intros Hok o g0 Hr Hg.
  - cbn in Hr. injection Hr as <-. exfalso. change (o_nav new) with nav_new in Hg.
    destruct (stored_current_fresh HS nav_new (represents_nav_new HS)) as (_ & R). congruence.
  - apply Forall_app in Hok. destruct Hok as (Hok & Hx). rewrite run_snoc in Hr.
    destruct (run new h) as [o1|] eqn:E1; [|discriminate]. cbn [bind] in Hr. rewrite inav_words_app.
    destruct x as [w svn g b|data svn g]; cbn [step] in Hr.
    + unfold feed_inav in Hr. bind_inv Hr. injection Hr as <-. cbn [set_nav o_nav] in Hg.
      destruct (reach_has HC HS root user slow h o1 Hok E1) as (hs & Hrep & _).
      destruct (feed_stored HS hs _ w svn g b _ Hrep E) as (_ & R). rewrite R in Hg.
      exists (inav_words h), (mkNWord w svn g b). split; [reflexivity|]. cbn [nw_gst]. congruence.
    + cbn [inav_words flat_map app]. rewrite app_nil_r. apply feed_osnma_grown in Hr.
      apply (IH Hok o1); [reflexivity|]. rewrite <- Hg. symmetry. now apply grown_gst.
Qed.

Lemma none_stored h : Forall op_ok h -> forall o, run new h = Ok o -> stored_gst (o_nav o) 0 = None -> inav_words h = [].
Proof.
  induction h as [|x h IH] using rev_ind; intros Hok o Hr Hg; [reflexivity|].
  apply Forall_app in Hok. destruct Hok as (Hok & Hx). rewrite run_snoc in Hr.
  destruct (run new h) as [o1|] eqn:E1; [|discriminate]. cbn [bind] in Hr. rewrite inav_words_app.
  destruct x as [w svn g b|data svn g]; cbn [step] in Hr.
  - exfalso. unfold feed_inav in Hr. bind_inv Hr. injection Hr as <-. cbn [set_nav o_nav] in Hg.
    destruct (reach_has HC HS root user slow h o1 Hok E1) as (hs & Hrep & _).
    destruct (feed_stored HS hs _ w svn g b _ Hrep E) as (_ & R). congruence.
  - cbn [inav_words flat_map app]. rewrite app_nil_r. apply feed_osnma_grown in Hr.
    apply (IH Hok o1); [reflexivity|]. rewrite <- Hg. symmetry. now apply grown_gst.
Qed.

Theorem contents_are_shown h o word svn g b ls o' : Forall op_ok (h ++ [FeedInav word svn g b]) -> run new h = Ok o ->
  step_log mx o (FeedInav word svn g b) = Ok (ls, o') -> begins_subframe (inav_words h) g -> enabled mx LDebug = true ->
  filter shows_contents (map snd ls) = contents_shown Ced (o_nav o) ++ contents_shown Timing (o_nav o).
Proof.
  intros Hok Hr Hs (cur & Hcur & Hne) Hen. apply Forall_app in Hok. destruct Hok as (Hok & _). cbn [step_log] in Hs.
  unfold feed_inav_log in Hs. apply lbind_ok in Hs. destruct Hs as (l1 & a & l2 & H1 & H2 & ->). apply done_ok in H2.
  destruct H2 as (-> & _). rewrite app_nil_r. destruct Hcur as (ws & w & Ews & Ew).
  destruct (stored_gst (o_nav o) 0) as [g0|] eqn:Eg.
  - destruct (stored_last h Hok o g0 Hr Eg) as (ws' & w' & Ews' & Ew'). rewrite Ews in Ews'. apply app_inj_tail in Ews'.
    destruct Ews' as (_ & <-).
    assert (Hp : nav_feed (o_nav o) word svn g b = Ok a) by (rewrite <- (nav_feed_plain mx), H1; reflexivity).
    apply (nav_feed_shows HS mx (inav_words h) (o_nav o) a word svn g b (reach_has HC HS root user slow h o Hok Hr)
      (fun g0 => stored_last h Hok o g0 Hr) Hp g0 l1 a Eg); [congruence|exact Hen|exact H1].
  - exfalso. rewrite (none_stored h Hok o Hr Eg) in Ews. now destruct ws.
Qed.

Theorem nav_lines h o x ls o' l m : Forall op_ok (h ++ [x]) -> run new h = Ok o -> step_log mx o x = Ok (ls, o') ->
  In (l, m) ls -> about_nav_storage m = true ->
  exists word svn g b, x = FeedInav word svn g b /\ nav_claim (inav_words h) (o_nav o) (o_nav o') svn g m.
Proof.
  intros Hok Hr Hs Hin Hm. apply Forall_app in Hok. destruct Hok as (Hok & Hx). apply Forall_cons_iff in Hx. destruct Hx as (Hx & _).
  destruct x as [word svn g b|data svn g]; cbn [step_log] in Hs.
  - exists word, svn, g, b. split; [reflexivity|].
    assert (Hp : feed_inav o word svn g b = Ok o') by (rewrite <- (feed_inav_plain mx), Hs; reflexivity).
    unfold feed_inav in Hp. bind_inv Hp. injection Hp as <-. cbn [set_nav o_nav].
    unfold feed_inav_log in Hs. apply lbind_ok in Hs. destruct Hs as (l1 & a & l2 & H1 & H2 & ->). apply done_ok in H2.
    destruct H2 as (-> & _). rewrite app_nil_r in Hin. destruct Hx as (Hw & Hsvn & _).
    exact (nav_feed_right HS mx (inav_words h) (o_nav o) _ word svn g b (reach_has HC HS root user slow h o Hok Hr)
      (fun g0 => stored_last h Hok o g0 Hr) E l1 a H1 l m Hin Hm).
  - exfalso. pose proof (feed_osnma_others o data svn g ls o' Hs l m Hin) as X. cbv beta in X. congruence.
Qed.

End Crypto.

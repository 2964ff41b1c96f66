(** What the log says is true. *)
From Coq Require Import ZArith List Bool Lia ZifyBool ZifyNat.
From Verif Require Import Model.Prelude Model.Params Model.Gst Model.Svn Model.Bitfields
  Model.Maclt Model.Tesla Model.Merkle Model.Subframe Model.Dsm Model.MackStore Model.Nav Model.Osnma
  Model.Logging
  Spec.TimeSpec Spec.CollectSpec Spec.StoreSpec Spec.NavSpec Spec.TeslaSpec Spec.KrootSpec
  Spec.MerkleSpec Spec.MacltSpec Spec.KeySpec Spec.SystemSpec Spec.StoredSpec Spec.CompleteSpec Spec.PanicSpec
  Spec.LogSpec
  Proofs.Base Proofs.Ring Proofs.Rows Proofs.GstProofs Proofs.LayoutProofs Proofs.SubframeProofs Proofs.DsmProofs
  Proofs.MackProofs Proofs.NavProofs Proofs.EntryProofs Proofs.NavInv Proofs.TeslaProofs
  Proofs.KrootProofs Proofs.MackValidProofs Proofs.MerkleProofs Proofs.TagProofs Proofs.NavHistory
  Proofs.SystemProofs Proofs.AlertProofs Proofs.GetterProofs Proofs.KeyStoreProofs Proofs.StepProofs Proofs.AuthProofs Proofs.PanicProofs
  Proofs.TotalProofs Proofs.LoggingProofs Proofs.LogRunProofs Spec.FieldSpec Proofs.FieldProofs
  Spec.ErrorSpec Proofs.AnchorProofs.
From Verif Require Proofs.ErrorProofs.
Import ListNotations.
Open Scope Z_scope.
Ltac Zify.zify_post_hook ::= Z.div_mod_to_equations.

(** ** All lines satisfy a predicate *)

Section Says.
Context {C : crypto} {B : build} {S : storage}.
Variable mx : option level.
Variable P : message -> Prop.

Definition says {A} (x : logging A) : Prop :=
  forall ls a, x = Ok (ls, a) -> forall l m, In (l, m) ls -> P m.

Lemma says_done {A} (a : A) : says (done a).
Proof. intros ls b H l m Hin. injection H as <- _. destruct Hin. Qed.
Lemma says_quiet {A} (x : outcome A) : says (quiet x).
Proof. intros ls b H l m Hin. unfold quiet in H. destruct x; [|discriminate]. injection H as <- _. destruct Hin. Qed.
Lemma says_log l x : (forall m, x = Ok m -> P m) -> says (log mx l x).
Proof.
  intros Hp ls b H l' m Hin. unfold log in H. destruct (enabled mx l); [|injection H as <- _; destruct Hin].
  destruct x as [m'|]; [|discriminate]. injection H as <- _. destruct Hin as [Hin|[]]. injection Hin as _ <-. now apply Hp.
Qed.
Lemma says_lbind {A D} (x : logging A) (f : A -> logging D) : says x -> (forall a, plain x = Ok a -> says (f a)) ->
  says (lbind x f).
Proof.
  intros Hx Hf ls b H l m Hin. unfold lbind in H. destruct x as [(l1, a)|] eqn:E; [|discriminate].
  destruct (f a) as [(l2, b')|] eqn:E2; [|discriminate]. injection H as <- <-. apply in_app_or in Hin.
  destruct Hin as [Hin|Hin]; [exact (Hx _ _ eq_refl _ _ Hin)|]. exact (Hf a eq_refl _ _ E2 _ _ Hin).
Qed.
Lemma says_fold {A St} (I : St -> Prop) (f : St -> A -> logging St) l s :
  I s -> (forall s x, In x l -> I s -> says (f s x)) -> (forall s x s', In x l -> I s -> plain (f s x) = Ok s' -> I s') ->
  says (fold_logging f l s).
Proof.
  revert s. induction l as [|x l IH]; intros s Hs H1 H2; [apply says_done|]. cbn [fold_logging].
  apply says_lbind; [apply H1; [now left|exact Hs]|]. intros s' E. apply IH.
  - eapply H2; [now left|exact Hs|exact E].
  - intros; apply H1; [now right|assumption].
  - intros s1 y s2 Hy. apply H2. now right.
Qed.
End Says.

Ltac says1 :=
  match goal with
  | |- says _ (lbind _ _) => apply says_lbind; [|intros ? ?]
  | |- says _ (done _) => apply says_done
  | |- says _ (quiet _) => apply says_quiet
  | |- says _ (log _ _ _) => apply says_log; let H := fresh in intros ? H
  | |- says _ (match ?c with _ => _ end) => destruct c eqn:?
  | |- says _ (fold_logging _ _ _) => apply (says_fold _ (fun _ => True)); [exact I|intros ? ? _ _|intros; exact I]
  end.
(** For log lines about which nothing is claimed. *)
Ltac trivial_line :=
  match goal with
  | H : Ok _ = Ok ?m |- _ => injection H as <-; exact I
  | H : bind _ _ = Ok ?m |- _ => repeat bind_inv H; injection H as <-; exact I
  end.
Ltac says := repeat (says1; cbv beta); try trivial_line.

Section Crypto.
Context {C : crypto} {B : build} {S : storage}.
Hypothesis HC : crypto_ok C.
Hypothesis HS : storage_ok S.
Variable mx : option level.
Variables (root : option (list Z)) (user : option public_key) (slow : bool).
Notation new := (osnma_new root user slow).
Variable h : list op.
Notation true_lines := (says (claim root user h)).

Lemma mack_store_says st m svn g hk s : subframe_received h svn g hk m -> true_lines (mack_store_log mx st m svn g s).
Proof.
  intros Hsf. unfold mack_store_log, mack_adjust_log. says;
    match goal with H : Ok _ = Ok _ |- _ => injection H as <- end; exists hk; exact Hsf.
Qed.

Lemma feed_inav_says h0 o w svn g b : h = h0 ++ [FeedInav w svn g b] -> true_lines (feed_inav_log mx o w svn g b).
Proof.
  intros Eh. unfold feed_inav_log, nav_feed_log. apply says_lbind; [|intros; apply says_done].
  apply says_lbind.
  { apply says_log. intros m Hm. injection Hm as <-. cbn [claim]. exists h0, b. exact Eh. }
  intros _ _. unfold nav_adjust_log, nav_feed_kind_log, entry_feed_log, ced_feed_log, timing_feed_log,
    log_contents, log_word, log_age. says.
Qed.

(** ** Subframes and DSM messages *)

Lemma lbind_ok {A D} (x : logging A) (f : A -> logging D) ls b : lbind x f = Ok (ls, b) ->
  exists l1 a l2, x = Ok (l1, a) /\ f a = Ok (l2, b) /\ ls = l1 ++ l2.
Proof.
  unfold lbind. destruct x as [(l1, a)|]; [|discriminate]. destruct (f a) as [(l2, b')|] eqn:E; [|discriminate].
  intros H. injection H as <- <-. exists l1, a, l2. auto.
Qed.
Lemma quiet_ok {A} (x : outcome A) ls a : quiet x = Ok (ls, a) -> ls = [] /\ x = Ok a.
Proof. unfold quiet. destruct x; [|discriminate]. intros H. injection H as <- <-. auto. Qed.
Lemma done_ok {A} (x : A) ls a : done x = Ok (ls, a) -> ls = [] /\ x = a.
Proof. unfold done. intros H. injection H as <- <-. auto. Qed.
Lemma log_ok l x ls u : log mx l x = Ok (ls, u) -> ls = [] \/ exists m, x = Ok m /\ ls = [(l, m)].
Proof.
  unfold log. destruct (enabled mx l); [|intros H; injection H as <- _; auto].
  destruct x as [m|]; [|discriminate]. intros H. injection H as <- _. eauto.
Qed.

Lemma index_set {A} (l l' : list A) i x : set_index l i x = Ok l' -> index l' i = Ok x.
Proof.
  unfold set_index, index. destruct (Nat.ltb_spec i (length l)); [|discriminate]. intros E. injection E as <-.
  unfold put. rewrite nth_error_app2 by (rewrite firstn_length; lia). rewrite firstn_length.
  replace (i - Nat.min i (length l))%nat with 0%nat by lia. reflexivity.
Qed.


Definition not_completed (m : message) : Prop :=
  match m with LgSubframeCompleted _ _ _ _ | LgDsmCompleted _ _ => False | _ => True end.
Lemma silent {A} (x : logging A) ls a l m : says not_completed x -> x = Ok (ls, a) -> In (l, m) ls -> not_completed m.
Proof. intros H E. exact (H _ _ E l m). Qed.

Lemma subframe_feed_line st d svn g ls sf r l s g0 hk mk : subframe_feed_log mx st d svn g = Ok (ls, (sf, r)) ->
  In (l, LgSubframeCompleted s g0 hk mk) ls -> s = svn /\ g0 = g /\ exists g', r = Some (hk, mk, g').
Proof.
  unfold subframe_feed_log. intros H Hin.
  apply lbind_ok in H. destruct H as (l1 & u & l2 & E1 & H & ->). apply in_app_or in Hin.
  destruct Hin as [Hin|Hin].
  { exfalso. refine (silent _ _ _ _ _ _ E1 Hin). says. }
  clear l1 E1. apply lbind_ok in H. destruct H as (l1 & st1 & l3 & E1 & H & ->). apply in_app_or in Hin.
  destruct Hin as [Hin|Hin].
  { exfalso. refine (silent _ _ _ _ _ _ E1 Hin). says. }
  clear l1 E1 st. rename st1 into st.
  apply lbind_ok in H. destruct H as (l1 & nv & l2 & E1 & H & ->). apply quiet_ok in E1. destruct E1 as (-> & E1). cbn [app] in Hin.
  destruct (negb _).
  { exfalso. refine (silent _ _ _ _ _ _ H Hin). says. }
  repeat (match type of H with lbind (quiet _) _ = _ =>
    let E := fresh "E" in
    apply lbind_ok in H; destruct H as (? & ? & ? & E & H & ->); apply quiet_ok in E; destruct E as (-> & E); cbn [app] in Hin
  end).
  destruct (_ =? words_per_subframe).
  2: { apply done_ok in H. destruct H as (-> & _). destruct Hin. }
  apply lbind_ok in H. destruct H as (l4 & ? & l5 & El & H & ->).
  apply lbind_ok in H. destruct H as (l6 & g' & l7 & Eg & H & ->). apply quiet_ok in Eg. destruct Eg as (-> & Eg).
  apply done_ok in H. destruct H as (-> & H). cbn [app] in Hin. rewrite app_nil_r in Hin.
  apply log_ok in El. destruct El as [->|(m & Em & ->)]; [destruct Hin|]. destruct Hin as [Hin|[]].
  cbn [sf_hkroot sf_mack] in Em.
  repeat match goal with HH : set_index _ _ _ = Ok _ |- _ => apply index_set in HH end.
  match type of Em with bind (index ?a ?i) (fun _ => bind (index ?b ?i) _) = _ =>
    match goal with H1 : index a i = Ok _, H2 : index b i = Ok _ |- _ => rewrite H1, H2 in Em end end.
  cbn [bind] in Em. split; [congruence|]. split; [congruence|]. exists g'. congruence.
Qed.

Lemma dsm_feed_line st hd b ls cd r l id size : dsm_feed_log mx st hd b = Ok (ls, (cd, r)) ->
  In (l, LgDsmCompleted id size) ls -> exists m, r = Some m /\ dm_id m = id /\ length (dm_data m) = size.
Proof.
  unfold dsm_feed_log. intros H Hin.
  apply lbind_ok in H. destruct H as (l1 & u & l2 & E1 & H & ->). apply in_app_or in Hin.
  destruct Hin as [Hin|Hin].
  { exfalso. refine (silent _ _ _ _ _ _ E1 Hin). says. }
  clear l1 E1. apply lbind_ok in H. destruct H as (l1 & st1 & l3 & E1 & H & ->). apply in_app_or in Hin.
  destruct Hin as [Hin|Hin].
  { exfalso. refine (silent _ _ _ _ _ _ E1 Hin). says. }
  clear l1 E1 st. rename st1 into st.
  apply lbind_ok in H. destruct H as (l1 & t & l2 & E1 & H & ->). apply quiet_ok in E1. destruct E1 as (-> & E1). cbn [app] in Hin.
  destruct (cd_done st).
  { exfalso. refine (silent _ _ _ _ _ _ H Hin). says. }
  apply lbind_ok in H. destruct H as (l1 & st1 & l3 & E2 & H & ->). apply in_app_or in Hin.
  destruct Hin as [Hin|Hin].
  { exfalso. refine (silent _ _ _ _ _ _ E2 Hin). unfold store_block_log. says. }
  apply lbind_ok in H. destruct H as (l4 & sz & l5 & E3 & H & ->). apply in_app_or in Hin.
  destruct Hin as [Hin|Hin].
  { exfalso. refine (silent _ _ _ _ _ _ E3 Hin). unfold done_and_size_log, dsm_number_of_blocks_log. says. }
  destruct sz as [sz|]; [|apply done_ok in H; destruct H as (-> & _); destruct Hin].
  apply lbind_ok in H. destruct H as (l6 & ? & l7 & El & H & ->).
  apply lbind_ok in H. destruct H as (l8 & data & l9 & Eg & H & ->). apply quiet_ok in Eg. destruct Eg as (-> & Eg).
  apply lbind_ok in H. destruct H as (l10 & ? & l11 & El2 & H & ->). apply done_ok in H. destruct H as (-> & H).
  rewrite app_nil_r in Hin. cbn [app] in Hin. apply in_app_or in Hin. destruct Hin as [Hin|Hin].
  2: { exfalso. refine (silent _ _ _ _ _ _ El2 Hin). says. }
  apply log_ok in El. destruct El as [->|(m & Em & ->)]; [destruct Hin|]. destruct Hin as [Hin|[]].
  exists (mkDsm (cd_id st1) t data). split; [congruence|]. cbn [dm_id dm_data].
  assert (Hsz : size = sz) by congruence. subst size. split; [congruence|].
  apply slice_ok in Eg. destruct Eg as (? & ? & ->). rewrite length_sub by lia. lia.
Qed.

(** The collector after the test whether this is the DSM being collected. *)
Lemma dsm_start bl st b : Forall block_ok (dsm_run bl) -> block_ok b -> represents_dsm (dsm_run bl) st ->
  let st1 := if negb (b_dsm b =? cd_id st) || match cd_type st with None => true | Some _ => false end
             then mkCollectDsm (cd_dsm st) (repeat false max_dsm_blocks) false
                    (Some (if 12 <=? b_dsm b then DsmPkr else DsmKroot)) (b_dsm b)
             else st in
  exists before, (forall x, In x before -> In x (dsm_run bl) /\ b_dsm x = b_dsm b) /\
    length (cd_dsm st1) = 208%nat /\ length (cd_block_valid st1) = 16%nat /\
    cd_type st1 = Some (if 12 <=? b_dsm b then DsmPkr else DsmKroot) /\
    (cd_done st1 = false -> holds_run before st1).
Proof.
  intros Hok Hb Hrep st1. destruct Hrep as (Hl1 & Hl2 & Hrep).
  assert (Hreset : st1 = mkCollectDsm (cd_dsm st) (repeat false 16) false
                         (Some (if 12 <=? b_dsm b then DsmPkr else DsmKroot)) (b_dsm b) ->
    exists before, (forall x, In x before -> In x (dsm_run bl) /\ b_dsm x = b_dsm b) /\
      length (cd_dsm st1) = 208%nat /\ length (cd_block_valid st1) = 16%nat /\
      cd_type st1 = Some (if 12 <=? b_dsm b then DsmPkr else DsmKroot) /\
      (cd_done st1 = false -> holds_run before st1)).
  { intros ->. exists []. cbn [cd_dsm cd_block_valid cd_done cd_type cd_id]. split; [intros x []|]. split; [exact Hl1|].
    split; [apply repeat_length|]. split; [reflexivity|]. intros _ n Hn. cbn [cd_block_valid first_copy find is_some cd_dsm].
    rewrite nth_error_repeat by lia. split; [reflexivity|discriminate]. }
  destruct (dsm_run bl) as [|r run] eqn:Erun.
  - apply Hreset. unfold st1. rewrite Hrep, orb_true_r. reflexivity.
  - destruct Hrep as (Hid & Ht & Hd & Hh).
    assert (Est : st1 = if negb (b_dsm b =? b_dsm r)
      then mkCollectDsm (cd_dsm st) (repeat false 16) false
             (Some (if 12 <=? b_dsm b then DsmPkr else DsmKroot)) (b_dsm b) else st)
      by (unfold st1; rewrite Hid, Ht, orb_false_r; reflexivity).
    clearbody st1. destruct (b_dsm b =? b_dsm r) eqn:E; cbn [negb] in Est; [|now apply Hreset].
    subst st1. exists (r :: run). assert (E' : b_dsm b = b_dsm r) by lia. split.
    + intros x Hx. split; [exact Hx|]. rewrite E'. now apply (dsm_run_same bl r run Erun).
    + rewrite E'. auto.
Qed.

Lemma reserved_nb t nb : dsm_number_of_blocks t nb = None ->
  match t with DsmKroot => reserved nb_dk_table nb | DsmPkr => reserved nb_dp_table nb end.
Proof.
  intros H. destruct t; intros x Hx; cbn [In nb_dk_table nb_dp_table] in Hx; unfold nb_dk_table, nb_dp_table in Hx; cbn [In] in Hx;
    repeat match type of Hx with _ \/ _ => destruct Hx as [Hx|Hx] | False => contradiction end;
    apply pair_equal_spec in Hx; destruct Hx as (<- & _); discriminate H.
Qed.

Lemma dsm_feed_says bl st svn g hk mk : Forall op_ok h -> represents_dsm (dsm_run bl) st -> Forall (block_received h) bl ->
  subframe_received h svn g hk mk ->
  says (fun m => match m with LgDsmCompleted _ _ => True | _ => claim root user h m end)
    (dsm_feed_log mx st (nth 1 hk 0) (skipn 2 hk)).
Proof.
  intros Hok Hrep Hbl Hsf. destruct (subframe_received_bytes _ _ _ _ _ Hok Hsf) as ((Hlen & Hhk) & _).
  assert (Hb1 : is_byte (nth 1 hk 0)) by (rewrite Forall_forall in Hhk; apply Hhk, nth_In; lia).
  set (b := mkBlock (nth 1 hk 0) (skipn 2 hk)).
  assert (Hbok : block_ok b) by (split; [exact Hb1|cbn [b b_data]; rewrite skipn_length; lia]).
  assert (Hbr : block_received h b) by (split; [exact Hbok|]; exists svn, g, hk, mk; auto).
  assert (Hrok : Forall block_ok (dsm_run bl)).
  { apply Forall_dsm_run. apply Forall_impl with (2 := Hbl). intros x Hx. exact (proj1 Hx). }
  assert (Hrr : forall x, In x (dsm_run bl) -> block_received h x).
  { apply Forall_forall. now apply Forall_dsm_run. }
  destruct (dsm_start bl st b Hrok Hbok Hrep) as (before & Hin & L1 & L2 & Ht & Hh). cbv zeta in L1, L2, Ht, Hh.
  unfold dsm_feed_log. unfold dsm_type. rewrite dsm_id_div, dsm_block_id_mod by exact Hb1.
  change (nth 1 hk 0 / 16) with (b_dsm b). change (nth 1 hk 0 mod 16) with (b_num b). change (skipn 2 hk) with (b_data b).
  assert (Hnum : Z.of_nat (Z.to_nat (b_num b)) = nth 1 hk 0 mod 16) by (unfold b_num; cbn [b b_header]; lia).
  apply says_lbind.
  { apply says_log. intros m Hm. injection Hm as <-. cbn [claim]. exists svn, g, hk, mk. auto. }
  intros _ _. apply says_lbind.
  { destruct (negb (b_dsm b =? cd_id st) || _); [|apply says_done]. apply says_lbind; [|intros; apply says_done].
    apply says_log. intros m Hm. injection Hm as <-. cbn [claim]. exists svn, g, hk, mk. auto. }
  intros st1 Est.
  assert (Est1 : st1 = if negb (b_dsm b =? cd_id st) || match cd_type st with None => true | Some _ => false end
             then mkCollectDsm (cd_dsm st) (repeat false max_dsm_blocks) false
                    (Some (if 12 <=? b_dsm b then DsmPkr else DsmKroot)) (b_dsm b)
             else st).
  { destruct (negb (b_dsm b =? cd_id st) || _).
    - rewrite plain_lbind, plain_log in Est. cbn [bind] in Est. rewrite plain_done in Est. congruence.
    - rewrite plain_done in Est. congruence. }
  clear Est. rewrite <- Est1 in L1, L2, Ht, Hh. clear Est1 Hrep st. rename st1 into st.
  apply says_lbind; [apply says_quiet|]. intros t Et. rewrite plain_quiet, Ht in Et. cbn [unwrap] in Et.
  assert (t = if 12 <=? b_dsm b then DsmPkr else DsmKroot) by congruence. subst t. clear Et.
  destruct (cd_done st) eqn:Ed; [says|]. specialize (Hh eq_refl).
  assert (Hn : 0 <= b_num b < 16) by (unfold b_num; lia).
  destruct (store_block_spec before st b L1 L2 Hh Hbok) as (st2 & E2 & G1 & G2 & _ & _ & _ & G6).
  apply says_lbind.
  - unfold store_block_log. cbv zeta. unfold dsm_block_bytes. set (n := Z.to_nat (b_num b)). assert (Hn' : (n < 16)%nat) by lia.
    destruct (Hh n Hn') as (Hv & Hd).
    apply says_lbind; [apply says_quiet|]. intros sec Es. rewrite plain_quiet, slice_in in Es by lia.
    apply says_lbind; [apply says_quiet|]. intros v Ev. rewrite plain_quiet in Ev. unfold index in Ev. rewrite Hv in Ev. cbn [unwrap] in Ev.
    assert (Hst : forall m, m = LgBlockAlreadyStored n \/ m = LgBlockStored n -> claim root user h m).
    { intros m [-> | ->]; cbn [claim]; exists svn, g, hk, mk; (split; [exact Hsf|exact Hnum]). }
    destruct v.
    2:{ repeat (says1; cbv beta). match goal with H : Ok _ = Ok _ |- _ => injection H as <- end. apply Hst. now right. }
    destruct (bytes_eqb sec (b_data b)) eqn:Eb; cbn [negb].
    { repeat (says1; cbv beta). match goal with H : Ok _ = Ok _ |- _ => injection H as <- end. apply Hst. now left. }
    apply says_lbind; [|intros; apply says_done]. apply says_log. intros m Hm. injection Hm as <-. cbn [claim].
    destruct (first_copy n before) as [c|] eqn:Ec; [|discriminate Ev]. specialize (Hd c eq_refl).
    apply first_copy_in in Ec. destruct Ec as (Ec & En). destruct (Hin c Ec) as (Hc & Hcid).
    destruct (Hrr c Hc) as (_ & svn0 & g0 & hk0 & mk0 & S1 & S2 & S3).
    exists svn0, g0, hk0, mk0, svn, g, hk, mk. split; [exact S1|]. split; [exact Hsf|].
    assert (Hsec : sec = b_data c).
    { rewrite <- Hd. replace (13 * n)%nat with (n * 13)%nat by lia. congruence. }
    split; [rewrite S2; unfold b_dsm, b_num in *; cbn [b b_header] in *; lia|].
    split; [rewrite S2; exact En|]. split; [congruence|]. split; [reflexivity|].
    intros Hx. change (sec = b_data b) in Hx. rewrite (proj2 (bytes_eqb_eq sec (b_data b)) Hx) in Eb. discriminate Eb.
  - intros st2' E2'. rewrite store_block_plain, E2 in E2'. assert (st2' = st2) by congruence. subst st2'. clear E2'.
    apply says_lbind.
    + unfold done_and_size_log. destruct (G6 0%nat ltac:(lia)) as (Hv0 & Hd0).
      apply says_lbind; [apply says_quiet|]. intros v0 Ev. rewrite plain_quiet in Ev. unfold index in Ev. rewrite Hv0 in Ev. cbn [unwrap] in Ev.
      destruct v0; cbn [negb]; [|says].
      destruct (first_copy 0 (before ++ [b])) as [c|] eqn:Ec; [|discriminate Ev]. specialize (Hd0 c eq_refl).
      apply first_copy_in in Ec. destruct Ec as (Ec & En).
      assert (Hc : block_received h c /\ b_dsm c = b_dsm b).
      { apply in_app_or in Ec. destruct Ec as [Ec|[<-|[]]]; [|now split]. destruct (Hin c Ec) as (H1 & H2). split; [now apply Hrr|exact H2]. }
      destruct Hc as ((_ & svn0 & g0 & hk0 & mk0 & S1 & S2 & S3) & Hcid).
      destruct (subframe_received_bytes _ _ _ _ _ Hok S1) as ((Hlen0 & Hhk0) & _).
      apply says_lbind; [apply says_quiet|]. intros b0 Eb0. rewrite plain_quiet in Eb0. cbv zeta.
      assert (Hb0 : b0 = nth 2 hk0 0).
      { apply index_ok in Eb0. apply (nth_error_nth _ _ 0) in Eb0. rewrite <- Eb0.
        transitivity (nth 0 (b_data c) 0); [|rewrite <- S3; destruct hk0 as [|? [|? [|? ?]]]; reflexivity].
        rewrite <- Hd0. cbn [Nat.mul Nat.add]. unfold sub. cbn [skipn Nat.sub].
        destruct (cd_dsm st2) as [|z l]; [discriminate G1|]. reflexivity. }
      apply says_lbind; [|intros n En'; says].
      unfold dsm_number_of_blocks_log. destruct (dsm_number_of_blocks _ _) as [n|] eqn:Enb; cbn [is_none]; [says|].
      apply says_lbind; [|intros; apply says_done]. apply says_log. intros m Hm. injection Hm as <-. cbn [claim].
      exists svn0, g0, hk0, mk0. split; [exact S1|]. split; [rewrite S2; exact En|].
      split; [rewrite Hb0, Z.shiftr_div_pow2 by lia; reflexivity|].
      apply reserved_nb in Enb. unfold b_dsm in *. cbn [b b_header] in *. rewrite S2, Hcid.
      destruct (12 <=? nth 1 hk 0 / 16) eqn:E12; (split; [lia|exact Enb]).
    + intros size _. destruct size as [size|]; [|apply says_done].
      apply says_lbind; [says|]. intros _ _. says.
Qed.

(** ** DSM messages *)

Lemma pkr_shown_layout d f p : pkr_size_ok d -> pkr_layout d f -> pkr_debug d = Ok p -> pkr_is_shown p f.
Proof.
  intros (Hl & Hnb) HL H. unfold pkr_debug in H.
  rewrite (pkr_number_of_blocks_layout d f HL), (pkr_message_id_layout d f HL) in H. cbn [bind] in H.
  rewrite !(pkr_node_layout d f HL) in H by lia. cbn [bind] in H.
  rewrite (pkr_type_layout d f HL), (pkr_id_layout d f HL), (pkr_key_layout d f HL) in H. cbn [bind] in H.
  unfold pkr_padding in H. rewrite (pkr_key_size_layout d f HL), (pkr_number_of_blocks_layout d f HL) in H. cbn [bind] in H.
  destruct (pl_nibbles _ _ HL) as (Hn1 & Hn2 & _).
  assert (Hn0 : nth 0 d 0 = 16 * pf_nb f + pf_mid f) by (rewrite (pl_bytes _ _ HL); reflexivity).
  assert (Hr : 7 <= pf_nb f <= 10) by (unfold nibble in *; lia).
  assert (Hlen : Z.of_nat (length d) = 13 * (pf_nb f + 6)) by (unfold nibble in *; lia). clear Hl Hnb Hn0 Hn1 Hn2.
  replace ((7 <=? pf_nb f) && (pf_nb f <=? 10)) with true in H by lia. cbn [bind] in H. bind_inv H.
  match goal with E : bind _ _ = Ok _ |- _ => bind_inv E; rename E into Ep end.
  match goal with E : slice _ _ _ = Ok _ |- _ => apply slice_ok in E; destruct E as (Ha & Hb & ->) end.
  assert (Ep2 : sub (130 + length (pf_key f)) ((Z.to_nat (pf_nb f) + 6) * 104 / 8) d = pf_pad f).
  { pose proof (pkr_as_leaf d f HL) as Hd. pose proof (pkr_nodes_length d f HL) as Hnl.
    assert (Hd2 : d = ((16 * pf_nb f + pf_mid f :: concat (pf_nodes f)) ++ [16 * pf_npkt f + pf_npkid f] ++ pf_key f) ++ pf_pad f ++ []).
    { rewrite Hd at 1. rewrite app_nil_r, <- !app_assoc. reflexivity. }
    assert (Hl2 : length d = (130 + length (pf_key f) + length (pf_pad f))%nat).
    { rewrite Hd2 at 1. rewrite app_nil_r, !app_length. cbn [length]. lia. }
    rewrite Hd2 at 1. apply sub_middle.
    - rewrite !app_length. cbn [length]. lia.
    - rewrite !app_length. cbn [length].
      assert (Z.of_nat ((Z.to_nat (pf_nb f) + 6) * 104 / 8) = 13 * (pf_nb f + 6)) by (rewrite Nat2Z.inj_div; lia). lia. }
  rewrite Ep2 in Ep.
  assert (Hp : x = Some (pf_pad f)) by congruence. subst x.
  assert (E : p = mkPkrShown (Some (Z.to_nat (pf_nb f) + 6)%nat) (pf_mid f)
    [nth 0 (pf_nodes f) []; nth 1 (pf_nodes f) []; nth 2 (pf_nodes f) []; nth 3 (pf_nodes f) []] (npkt_of (pf_npkt f))
    (pf_npkid f) (Some (pf_key f)) (Some (pf_pad f))) by congruence.
  rewrite E. unfold pkr_is_shown. cbn [sh_number_of_blocks sh_message_id sh_nodes sh_id sh_key sh_padding].
  split; [reflexivity|]. split; [reflexivity|]. split; [|auto].
  destruct (pl_nodes _ _ HL) as (Hn & Hf).
  destruct (four_nodes _ Hn Hf) as (n0 & n1 & n2 & n3 & -> & _). reflexivity.
Qed.

Lemma store_new_pubkey_says ps pk f : (forall p, held_pub ps p -> trusted_pubkey root user h p) ->
  pkr_was_verified root h f -> pf_npkid f = pk_id pk ->
  true_lines (store_new_pubkey_log mx ps pk).
Proof.
  intros Ht Hv Hid. unfold store_new_pubkey_log. apply says_lbind; [apply says_quiet|]. intros _ _. cbv zeta.
  destruct (ps_current ps) as [c|] eqn:Ec; [|apply says_done].
  assert (Hc : exists q, trusted_pubkey root user h q /\ pk_id q = pk_id c) by (exists c; split; [apply Ht; now left|reflexivity]).
  assert (Hf : exists f0, pkr_was_verified root h f0 /\ pf_npkid f0 = pk_id pk) by (exists f; now split).
  destruct (pk_id pk <? pk_id c) eqn:E1.
  { apply says_lbind; [|intros; apply says_done]. apply says_log. intros m Hm. injection Hm as <-. cbn [claim].
    split; [exact Hf|]. split; [exact Hc|lia]. }
  destruct (pk_id pk =? pk_id c) eqn:E2; [apply says_done|].
  destruct (ps_next ps) as [n|] eqn:En; [|apply says_done].
  assert (Hn : exists q, trusted_pubkey root user h q /\ pk_id q = pk_id n) by (exists n; split; [apply Ht; now right|reflexivity]).
  destruct (Z.compare_spec (pk_id pk) (pk_id n)) as [E3|E3|E3]; [apply says_done| |];
    (apply says_lbind; [|intros; apply says_done]; apply says_log; intros m Hm; injection Hm as <-; cbn [claim];
     split; [exact Hf|]; split; [exact Hn|lia]).
Qed.

Lemma no_tree o : anchored root user (option_map pk_id user) h o -> o_merkle o = None -> root = None \/ alerted root user h.
Proof. intros [H|(H & _)] E; [now right|left; congruence]. Qed.

Lemma process_dsm_pkr_says o d id : Forall op_ok h -> rest_inv root user slow h o ->
  anchored root user (option_map pk_id user) h o -> 12 <= id -> dsm_received h id d ->
  true_lines (process_dsm_pkr_log mx o d).
Proof.
  intros Hok Hinv Hanc Hid Hd. pose proof (dsm_received_bytes _ _ _ Hok Hd) as Hb.
  pose proof (dsm_received_size _ _ _ Hok Hd) as Hsz. replace (id <? 12) with false in Hsz by lia.
  assert (Hv : forall r f, o_merkle o = Some r -> pkr_layout d f -> sha256 (path_input f 4) = r -> pkr_was_verified root h f).
  { intros r f Er HL Hr. exists r, id, d. split; [destruct (ri_merkle _ _ _ _ _ Hinv); congruence|]. auto. }
  assert (Hrt : forall r, o_merkle o = Some r -> root = Some r).
  { intros r Er. destruct (ri_merkle _ _ _ _ _ Hinv); congruence. }
  pose proof (no_tree o Hanc) as Hno. clear Hanc.
  unfold process_dsm_pkr_log. apply says_lbind; [apply says_quiet|]. intros t Et. rewrite plain_quiet in Et.
  destruct (ErrorProofs.pkr_type_code d t Hb Et) as (_ & Ht). symmetry in Ht.
  pose proof (ErrorProofs.npkt_of_inv _ _ Ht) as Hc. destruct t as [fn| |].
  - assert (H13 : nth 129 d 0 / 16 = 1 \/ nth 129 d 0 / 16 = 3) by (destruct fn; auto). clear Hc Ht Et.
    unfold process_dsm_pkr_npk_log. destruct (o_merkle o) as [r|] eqn:Er.
    2:{ apply says_lbind; [|intros; apply says_done]. apply says_log. intros m Hm. injection Hm as <-. cbn [claim].
        split; [exists id, d; auto|now apply Hno]. }
    apply says_lbind; [apply says_quiet|]. intros [pk|e] E; rewrite plain_quiet in E.
    2:{ apply says_lbind; [|intros; apply says_done]. apply says_log. intros m Hm. injection Hm as <-. cbn [claim].
        exists r, id, d. split; [now apply Hrt|]. split; [exact Hid|]. split; [exact Hd|]. split; [exact H13|].
        exact (proj2 (ErrorProofs.validate_pkr_says r d e Hb E)). }
    destruct (validate_pkr_sound r d pk Hb E) as (f & HL & Hr & Hnid & Hk).
    apply says_lbind.
    + apply says_log. intros m Hm. bind_inv Hm. injection Hm as <-. cbn [claim]. exists f. split; [exact (Hv r f eq_refl HL Hr)|].
      split; [destruct (pk_key pk); tauto|]. exact (pkr_shown_layout d f x Hsz HL E0).
    + intros _ _. apply says_lbind; [|intros; apply says_done].
      apply (store_new_pubkey_says _ _ f); [exact (ri_pub _ _ _ _ _ Hinv)|exact (Hv r f eq_refl HL Hr)|now symmetry].
  - clear Ht Et. unfold process_dsm_pkr_alert_message_log. destruct (o_merkle o) as [r|] eqn:Er.
    2:{ apply says_lbind; [|intros; apply says_done]. apply says_log. intros m Hm. injection Hm as <-. cbn [claim].
        split; [exists id, d; auto|now apply Hno]. }
    apply says_lbind; [apply says_quiet|]. intros [u|e] E; rewrite plain_quiet in E.
    2:{ apply says_lbind; [|intros; apply says_done]. apply says_log. intros m Hm. injection Hm as <-. cbn [claim].
        exists r, id, d. split; [now apply Hrt|]. split; [exact Hid|]. split; [exact Hd|]. split; [exact Hc|].
        pose proof (ErrorProofs.validate_alert_says r d e Hb E) as He. destruct e; try exact (proj2 He). contradiction. }
    destruct (validate_alert_sound r d u Hb E) as (f & HL & Hr & Hk).
    apply says_lbind.
    + apply says_log. intros m Hm. bind_inv Hm. injection Hm as <-. cbn [claim]. exists f. split; [exact (Hv r f eq_refl HL Hr)|].
      split; [exact Hk|]. exact (pkr_shown_layout d f x Hsz HL E0).
    + intros _ _. unfold alert_message_received_log. apply says_lbind; [|intros; apply says_done].
      apply says_log. intros m Hm. injection Hm as <-. cbn [claim]. left. exists f. split; [exact (Hv r f eq_refl HL Hr)|exact Hk].
  - apply says_lbind; [|intros; apply says_done]. apply says_log. intros m Hm. bind_inv Hm. injection Hm as <-. cbn [claim].
    exists id, d. split; [exact Hid|]. split; [exact Hd|]. now apply ErrorProofs.npkt_reserved.
Qed.

Lemma keys_revoke_says ks cid : (forall k, ks_k0 ks = Some k \/ ks_k1 ks = Some k -> ch_id (k_chain k) = cid ->
    claim root user h (LgRevokingKey k)) ->
  true_lines (keys_revoke_log mx ks cid).
Proof.
  intros H. unfold keys_revoke_log. apply says_lbind.
  { destruct (ks_k0 ks) as [k|]; [|apply says_done]. destruct (ch_id (k_chain k) =? cid) eqn:E; [|apply says_done].
    apply says_lbind; [|intros; apply says_done]. apply says_log. intros m Hm. injection Hm as <-. apply H; [auto|lia]. }
  intros k0 _. apply says_lbind; [|intros; apply says_done].
  destruct (ks_k1 ks) as [k|]; [|apply says_done]. destruct (ch_id (k_chain k) =? cid) eqn:E; [|apply says_done].
  apply says_lbind; [|intros; apply says_done]. apply says_log. intros m Hm. injection Hm as <-. apply H; [auto|lia].
Qed.

(** The key with the id of the DSM-KROOT is in use: nothing is revoked. *)
Lemma pubs_revoke_says ps pk : pubs_ok ps -> ps_current ps = Some pk -> true_lines (pubs_revoke_log mx ps (pk_id pk)).
Proof.
  intros Hok Hc. unfold pubs_revoke_log. rewrite Hc, Z.ltb_irrefl. apply says_lbind; [apply says_done|].
  intros ps' E. injection E as <-. destruct (ps_next ps) as [n|] eqn:En; [|apply says_done].
  destruct (Hok n En) as (c & Ec & Hlt). assert (c = pk) by congruence. subst.
  rewrite (proj2 (Z.ltb_ge _ _)) by lia. apply says_done.
Qed.

Lemma process_nma_header_says o hd pk : is_byte hd -> pubs_ok (o_pub o) -> ps_current (o_pub o) = Some pk ->
  (forall k, ks_k0 (o_keys o) = Some k \/ ks_k1 (o_keys o) = Some k -> trusted_key root user h k) ->
  (exists f kr, kroot_was_verified root user h hd f kr) ->
  true_lines (process_nma_header_log mx o hd (pk_id pk)).
Proof.
  intros Hb Hps Hcur Hk (f & kr & Hv). destruct (header_fields hd Hb) as (Hs & Hc & Hp).
  destruct (headers_means hd Hb) as (Ms & _ & Mp & _).
  assert (Hst : forall l, true_lines (log mx l (Ok (LgNmaStatus (nma_status hd))))).
  { intros l. apply says_log. intros m Hm. injection Hm as <-. cbn [claim]. exists hd, f, kr. split; [exact Hv|exact Ms]. }
  assert (Hcp : forall l, true_lines (log mx l (Ok (LgCpks (nma_cpks hd))))).
  { intros l. apply says_log. intros m Hm. injection Hm as <-. cbn [claim]. exists hd, f, kr. split; [exact Hv|exact Mp]. }
  assert (Hrv : forall l, true_lines (log mx l (Ok (LgRevoked (nma_cpks hd)
    (match nma_status hd with NmaOperational | NmaTest => false | _ => true end))))).
  { intros l. apply says_log. intros m Hm. injection Hm as <-. cbn [claim]. exists hd, f, kr. split; [exact Hv|]. split; [exact Mp|].
    clear - Ms. unfold nmas_table in Ms. cbn [In] in Ms.
    repeat match type of Ms with _ \/ _ => destruct Ms as [Ms|Ms] | False => contradiction end;
      apply pair_equal_spec in Ms; destruct Ms as (<- & <-); split; intros H; try discriminate H; try lia; try reflexivity. }
  assert (Hrev : nma_status hd = NmaDontUse -> nma_cpks hd = CpksChainRevoked \/ nma_cpks hd = CpksPublicKeyRevoked ->
    true_lines (keys_revoke_log mx (o_keys o) (nma_chain_id hd))).
  { intros E1 E2. apply keys_revoke_says. intros k Hin Ek. cbn [claim]. split; [exact (Hk k Hin)|].
    exists hd, f, kr. split; [exact Hv|]. split; [unfold chain_of; congruence|].
    rewrite <- Hs, <- Hp, E1. split; [reflexivity|]. destruct E2 as [->| ->]; auto. }
  unfold process_nma_header_log. apply says_lbind.
  - clear Hrv Hcp. destruct (nma_status hd) eqn:E1; try apply says_done;
      (apply says_lbind; [apply Hst|]; intros _ _); try apply says_done.
    destruct (nma_cpks hd) eqn:E2; try apply says_done.
    + apply says_lbind; [apply Hrev; auto|intros; apply says_done].
    + apply says_lbind; [now apply pubs_revoke_says|]. intros ps _.
      apply says_lbind; [apply Hrev; auto|intros; apply says_done].
  - intros o2 _. clear Hst Hrev. cbv zeta. destruct (nma_cpks hd) eqn:E2; try apply says_done;
      (apply says_lbind; [first [apply Hcp|apply Hrv]|]; intros _ _); try apply says_done.
    unfold alert_message_received_log. apply says_lbind; [|intros; apply says_done].
    apply says_log. intros m Hm. injection Hm as <-. cbn [claim]. right. exists hd, f, kr. split; [exact Hv|].
    rewrite <- Hp. reflexivity.
Qed.

Lemma byte_low x : is_byte x -> load_be (sub 4 8 (bits_of_byte x)) = x mod 16.
Proof.
  intros H. apply Z.eqb_eq. revert x H. apply (byte_cases (fun x => load_be (sub 4 8 (bits_of_byte x)) =? x mod 16)).
  vm_compute. reflexivity.
Qed.

Lemma kroot_pkid_code d v : Forall is_byte d -> kroot_public_key_id d = Ok v -> v = nth 0 d 0 mod 16.
Proof.
  intros Hd H. destruct (Nat.lt_ge_cases 0 (length d)) as [Hl|Hl].
  - unfold kroot_public_key_id in H.
    rewrite (ErrorProofs.bits_at_one d 0 4 8 4 8 (fun x => x mod 16)) in H by (auto using byte_low; lia). congruence.
  - destruct d; [discriminate H|cbn [length] in Hl; lia].
Qed.

(** Choosing the public key. *)
Lemma applicable_pubkey_says o pkid : rest_inv root user slow h o -> anchored root user (option_map pk_id user) h o ->
  (exists id d, id < 12 /\ dsm_received h id d /\ pkid = nth 0 d 0 mod 16) ->
  true_lines (applicable_pubkey_log mx (o_pub o) pkid).
Proof.
  intros Hinv Hanc Hd. unfold applicable_pubkey_log. apply says_lbind; [apply says_quiet|]. intros _ _.
  destruct (has_pkid (ps_current (o_pub o)) pkid) eqn:E1; [apply says_done|].
  destruct (has_pkid (ps_next (o_pub o)) pkid) eqn:E2.
  - apply says_lbind; [|intros; apply says_done]. apply says_log. intros m Hm. injection Hm as <-. cbn [claim].
    destruct (ps_next (o_pub o)) as [n|] eqn:En; [|discriminate E2]. unfold has_pkid in E2.
    destruct Hd as (id & d & H1 & H2 & H3). exists id, d, n. split; [exact H1|]. split; [exact H2|].
    split; [apply (ri_pub _ _ _ _ _ Hinv); now right|]. lia.
  - destruct (ps_current (o_pub o)) as [c|] eqn:Ec; (apply says_lbind; [|intros; apply says_done]); apply says_log;
      intros m Hm; injection Hm as <-; cbn [claim].
    + split; [exact Hd|]. destruct Hanc as [Ha|(_ & Hb)]; [now left|]. right. intros pk Hu Hid.
      rewrite Hu in Hb. cbn [option_map] in Hb. destruct (Hb _ eq_refl) as (c' & Hc' & Hle). rewrite Ec in Hc'.
      assert (c' = c) by congruence. subst c'. exists c. split; [apply (ri_pub _ _ _ _ _ Hinv); now left|].
      unfold has_pkid in E1. lia.
    + split; [destruct Hd as (id & d & H1 & H2 & _); exists id, d; now split|].
      destruct Hanc as [Ha|(_ & Hb)]; [now right|]. left. destruct user as [pk|]; [|reflexivity].
      destruct (Hb _ eq_refl) as (c' & Hc' & _). rewrite Ec in Hc'. discriminate Hc'.
Qed.

Lemma process_dsm_kroot_says o d id svn g hk mk : Forall op_ok h -> rest_inv root user slow h o -> stores_ok o ->
  anchored root user (option_map pk_id user) h o -> id < 12 ->
  dsm_received h id d -> subframe_received h svn g hk mk ->
  true_lines (process_dsm_kroot_log mx o d (nth 0 hk 0) g).
Proof.
  intros Hok Hinv Hsto Hanc Hid Hd Hsf.
  destruct (subframe_received_bytes _ _ _ _ _ Hok Hsf) as ((Hlen & Hhk) & _).
  assert (Hb0 : is_byte (nth 0 hk 0)).
  { rewrite Forall_forall in Hhk. apply Hhk. apply nth_In. lia. }
  unfold process_dsm_kroot_log. apply says_lbind; [apply says_quiet|]. intros pkid Epk. rewrite plain_quiet in Epk.
  pose proof (kroot_pkid_code d pkid (dsm_received_bytes _ _ _ Hok Hd) Epk) as Hcode.
  apply says_lbind; [apply applicable_pubkey_says; [exact Hinv|exact Hanc|exists id, d; auto]|]. intros [pk|] Eap; [|apply says_done].
  rewrite applicable_pubkey_plain in Eap. destruct (applicable_pubkey_in _ _ _ Eap) as (Hpk & Hpkid).
  apply says_lbind; [apply says_quiet|]. intros [key|e] Ek; rewrite plain_quiet in Ek.
  2:{ apply says_lbind; [|intros; apply says_done]. apply says_log. intros m Hm. injection Hm as <-. cbn [claim].
      exists id, d, pk, svn, g, hk, mk. split; [exact Hid|]. split; [exact Hd|]. split; [exact Hsf|].
      split; [exact (ri_pub _ _ _ _ _ Hinv pk Hpk)|]. split; [congruence|]. intros Hf.
      exact (ErrorProofs.key_from_dsm_kroot_says HC _ _ _ _ Hb0 (dsm_received_bytes _ _ _ Hok Hd) Hf Ek). }
  destruct (key_from_dsm_kroot_sound HC _ _ _ _ Hb0 (dsm_received_bytes _ _ _ Hok Hd) Ek)
    as (f & HL & Hver & Hkk & Hkok).
  rewrite (kroot_pkid_layout _ _ HL) in Epk. assert (Hpf : kf_pkid f = pkid) by congruence. clear Epk.
  assert (Hv : kroot_was_verified root user h (nth 0 hk 0) f key).
  { exists id, d, pk, svn, g, hk, mk. split; [exact Hid|]. split; [exact Hd|]. split; [exact HL|]. split; [exact Hsf|].
    split; [reflexivity|]. split; [exact (ri_pub _ _ _ _ _ Hinv pk Hpk)|]. split; [congruence|]. split; auto. }
  apply says_lbind; [|intros _ _].
  { apply says_log. intros m Hm. injection Hm as <-. cbn [claim]. exists (nth 0 hk 0), f, key. split; [exact Hv|exact Hpf]. }
  apply says_lbind; [|intros _ _].
  { apply says_log. intros m Hm. injection Hm as <-. cbn [claim]. exists (nth 0 hk 0), f, key. split; [exact Hv|].
    destruct (headers_means _ Hb0) as (M1 & M2 & M3 & _). auto. }
  apply says_lbind; [apply says_quiet|]. intros ps Eps. rewrite plain_quiet in Eps.
  destruct (make_current_spec _ pk (proj1 Hsto) Hpk) as (ps' & Eps' & Hpok & Hcur & _).
  rewrite Hpkid, Eps in Eps'. injection Eps' as <-. rewrite <- Hpkid.
  cbn [set_pub o_keys]. apply says_lbind.
  - unfold store_kroot_log. apply says_lbind; [|intros (? & ?) _; apply says_done].
    repeat (says1; cbv beta); match goal with H : Ok _ = Ok _ |- _ => injection H as <- end; cbn [claim]; exists (nth 0 hk 0), f; exact Hv.
  - intros ks Eks. rewrite store_kroot_plain in Eks. injection Eks as <-.
    apply process_nma_header_says; [exact Hb0|exact Hpok|exact Hcur| |exists f, key; exact Hv].
    cbn [set_keys o_keys]. intros k Hin. apply store_kroot_in in Hin. destruct Hin as [->|Hin].
    + exists key, 0%nat. split; [|now apply key_after_refl].
      exists id, d, f, pk, svn, g, hk, mk. split; [exact Hid|]. split; [exact Hd|]. split; [exact HL|].
      split; [exact Hsf|]. split; [exact (ri_pub _ _ _ _ _ Hinv pk Hpk)|]. split; [congruence|]. split; auto.
    + exact (proj2 (ri_keys _ _ _ _ _ Hinv k Hin)).
Qed.

Lemma process_dsm_says o m svn g hk mk : Forall op_ok h -> rest_inv root user slow h o -> stores_ok o ->
  anchored root user (option_map pk_id user) h o ->
  subframe_received h svn g hk mk -> dsm_received h (dm_id m) (dm_data m) ->
  dm_type m = (if dm_id m <? 12 then DsmKroot else DsmPkr) ->
  true_lines (process_dsm_log mx o m (nth 0 hk 0) g).
Proof.
  intros Hok Hinv Hsto Hanc Hsf Hd Ht. unfold process_dsm_log. rewrite Ht. destruct (dm_id m <? 12) eqn:E.
  - eapply process_dsm_kroot_says; eauto. lia.
  - eapply process_dsm_pkr_says; eauto. lia.
Qed.

(** ** Tags *)

Lemma tag_check key tag gm prnd prna j s bits ctr r :
  key_ok key -> gst_ok gm -> is_byte prnd -> is_byte prna -> (length tag <= 128)%nat -> (length bits <= 550)%nat ->
  tag_ctr j = Ok ctr ->
  match j with
  | O => validate_tag0 key tag gm prna s bits
  | _ => validate_tag key tag gm prnd prna ctr s bits
  end = Ok r ->
  (r = true <-> tag_matches (k_chain key) (key_bytes key) prna (time_of gm) s prnd bits tag j).
Proof.
  intros Hk Hg Hp Ha Ht Hm E E0.
  unfold tag_ctr in E. destruct (Z.of_nat j + 1 <? 256) eqn:Ej; [|discriminate]. injection E as <-.
  assert (Hu : mac_usable key).
  { destruct j; unfold validate_tag0, validate_tag in E0; bind_inv E0;
      eapply mac_digest_ok_iff; eauto. }
  destruct j as [|j]; cbn [tag_matches].
  - destruct (validate_tag0_spec HC key tag gm prna s bits) as (r' & Er & Hr); auto.
    rewrite E0 in Er. injection Er as <-. exact Hr.
  - destruct (validate_tag_spec HC key tag gm prnd prna (Z.of_nat (Datatypes.S j) + 1) s bits)
      as (r' & Er & Hr); auto. unfold is_byte; lia.
    rewrite E0 in Er. injection Er as <-. exact Hr.
Qed.

Definition nav_any (n : nav) : Prop := exists hs, represents_nav hs n /\ nav_ok hs /\
  nav_inv (fun _ _ _ _ => True) (nav_stretches (inav_words h)) hs.

Lemma process_one_tag_any k key tag cop gm gn prnd svn prna j s n n' : nav_any n ->
  key_ok key -> gst_ok gm -> is_byte prnd -> is_byte prna -> (length tag <= 128)%nat -> 0 <= cop < 16 ->
  process_one_tag k key tag cop gm gn prnd svn prna j s n = Ok n' -> nav_any n'.
Proof.
  intros (hs & Hr & Hok & Hi) Hk Hg Hp Ha Ht Hc H.
  destruct (process_one_tag_steps HC HS k key tag cop gm gn prnd svn prna j s n n' hs Hr Hok Hk Hg Hp Ha Ht Hc H)
    as (hs' & H1 & H2 & H3).
  exists hs'. split; [exact H1|]. split; [exact H2|]. destruct H3 as [->|(_ & _ & bits & Hs & _)]; [exact Hi|].
  eapply tag_step_inv; [exact I|exact Hi|exact Hs].
Qed.

Lemma process_one_tag_says k key tag adkd cop gm gn prnd prna j s n : nav_any n ->
  key_ok key -> gst_ok gm -> is_byte prnd -> is_byte prna -> (length tag <= 128)%nat -> 0 <= cop < 16 ->
  seconds_after gn gm 30 -> tag_received root user h prnd adkd gm j prna key k s cop tag ->
  true_lines (process_one_tag_log mx k key tag adkd cop gm gn prnd prnd prna j s n).
Proof.
  intros (hs & Hr & Hok & Hi) Hk Hg Hp Ha Ht Hc Hgn Hrec. unfold process_one_tag_log.
  destruct (cop =? 0) eqn:Ec.
  - assert (cop = 0) by lia. subst cop. apply says_lbind; [|intros; apply says_done].
    unfold nav_validate_dummy_tag_log. apply says_lbind; [apply says_quiet|]. intros ctr Ectr. rewrite plain_quiet in Ectr.
    apply says_lbind; [apply says_quiet|]. intros r Er. rewrite plain_quiet in Er.
    rewrite validate_tag0_dummy_eq, validate_tag_dummy_eq in Er by apply kind_bits_bound.
    apply tag_check in Er; auto; [|rewrite repeat_length; apply kind_bits_bound].
    replace (kind_bits k) with (data_length k) in Er by (destruct k; reflexivity).
    apply says_lbind; [|intros; apply says_done]. destruct r.
    + apply says_log. intros m Hm. injection Hm as <-. cbn [claim]. exists key, k, s, tag. split; [exact Hrec|]. now apply Er.
    + apply says_log. intros m Hm. injection Hm as <-. cbn [claim]. exists key, k, s, tag. split; [exact Hrec|].
      intros Hm. apply Er in Hm. discriminate.
  - apply says_lbind; [apply says_quiet|]. intros [e|] E; [|apply says_done]. rewrite plain_quiet in E.
    destruct (sat_add_u8 (max_age e) 1 <=? cop) eqn:Eage; [|apply says_done].
    assert (Hsub : is_subframe gn = true).
    { pose proof E as E'. unfold find_entry, find_gst in E'. bind_inv E'.
      match goal with H : bind _ _ = Ok _ |- _ => bind_inv H end.
      match goal with H : assert_ _ = Ok _ |- _ => now apply assert_ok' in H end. }
    destruct (find_entry_spec HS k hs n prnd gn Hr Hsub) as (r & Er & Hf).
    rewrite Er in E. injection E as ->.
    destruct Hf as (a & sn & Hn & Hsg & Hlen & Hfind).
    assert (Hrow : row_ok k (s_row k sn)).
    { apply nth_error_In in Hn. unfold nav_ok in Hok. rewrite Forall_forall in Hok. now apply Hok. }
    apply (find_svn_some k) in Hfind; auto. destruct Hfind as (Hin & Hsvn).
    pose proof (row_ok_in _ _ _ Hrow Hin) as Heok.
    pose proof (max_age_range _ _ Heok) as Hmax.
    assert (Hage : max_age e < cop < 16) by (unfold sat_add_u8 in Eage; lia).
    assert (Hdata : data_received h k prnd cop gm (message_bits k e)).
    { split; [lia|]. exists gn. split; [exact Hgn|].
      apply (tag_step_seen _ _ hs (map_snaps k (bump k prnd (message_bits k e) tag) hs) k prnd cop gn (message_bits k e) tag Hok Hi).
      exists a, sn, e. split; [exact Hn|]. split; [exact Hsg|]. split; [exact Hlen|]. split; [exact Hin|].
      split; [exact Hsvn|]. split; [reflexivity|]. split; [exact Hage|reflexivity]. }
    apply says_lbind; [|intros (? & ?) _; apply says_done].
    unfold nav_validate_tag_log. apply says_lbind; [apply says_quiet|]. intros ctr Ectr. rewrite plain_quiet in Ectr.
    apply says_lbind; [apply says_quiet|]. intros r Er2. rewrite plain_quiet in Er2.
    apply tag_check in Er2; auto; [|rewrite message_bits_length by auto; apply kind_bits_bound].
    destruct r; (apply says_lbind; [|intros; apply says_done]).
    + apply says_log. intros m Hm. injection Hm as <-. cbn [claim]. exists key, k, s, cop, tag, (message_bits k e).
      split; [exact Hrec|]. split; [exact Hdata|]. now apply Er2.
    + apply says_log. intros m Hm. injection Hm as <-. cbn [claim]. exists key, k, s, cop, tag, (message_bits k e).
      split; [exact Hrec|]. split; [exact Hdata|]. intros Hm. apply Er2 in Hm. discriminate.
Qed.

Section Mack.
Variables (data : list Z) (key : tkey) (prna : Z) (gm : gst) (hk : list Z).
Notation s := (status_of hk).
Hypothesis Hok : Forall op_ok h.
Hypothesis Hsf : subframe_received h prna gm hk data.
Hypothesis Hkey : key_ok key.
Hypothesis Htrust : trusted_key root user h key.
Hypothesis Hdisc : key_disclosed h key.
Hypothesis Hchecked : mack_checked root user h key prna gm data.
Notation ks := (ch_key_bytes (k_chain key) * 8)%nat.
Notation ts := (ch_tag_bits (k_chain key)).
Notation m := (mack_of_chain data key).

Lemma mack_facts : length data = 60%nat /\ gst_ok gm /\ 1 <= prna <= 36.
Proof. destruct (subframe_received_bytes _ _ _ _ _ Hok Hsf) as (_ & (H1 & _) & H2 & _ & H3). auto. Qed.

Lemma other_tag_placed k t v delay prnd svn j :
  (1 <= j < mack_num_tags m)%nat -> mack_tag_and_info m j = Ok t -> kind_of_adkd t k v delay ->
  prnd_to_u8 (tag_prnd t) = Some prnd -> svn_try_from prnd = Some svn ->
  svn = prnd /\ is_byte prnd /\ 0 <= tag_cop t < 16 /\ (length (tag_tag t) <= 128)%nat /\
  adkd_number (tag_adkd t) = Some v /\ adkd_means v k delay /\
  tag_placed (k_chain key) prna data prnd v (tag_cop t) (tag_tag t) j.
Proof.
  intros Hj Et Hkind Hprnd Hsvn. destruct mack_facts as (Hlen60 & _ & _).
  assert (Hsz : sizes_ok ks ts) by (apply announced_sizes_ok; apply Hkey).
  destruct (tag_at_spec data ks ts Hlen60 Hsz j Hj) as (t' & Et' & Hlen & Hinfo & Htag).
  unfold mack_of_chain in Et. rewrite Et in Et'. injection Et' as <-.
  destruct (info_fields data ks ts Hlen60 Hsz j) as (pr & ad & cop & Hpr & Had & Hcop & Hf).
  { unfold mack_of_chain in Hj. lia. }
  rewrite Hf in Hinfo.
  destruct (info_values data ks ts Hlen60 t pr ad cop) as (V1 & V2 & V3); auto. lia.
  rewrite (prnd_of_value t pr V1) in Hprnd.
  assert (Hsv : prnd = pr /\ svn = pr /\ 1 <= pr <= 36).
  { destruct ((1 <=? pr) && (pr <=? 36)) eqn:E1; cbn [prnd_to_u8] in Hprnd.
    - injection Hprnd as <-. unfold svn_try_from, num_svns in Hsvn.
      destruct ((1 <=? pr) && (pr <=? Z.of_nat 36)) eqn:E2; [|discriminate]. injection Hsvn as <-.
      repeat split; lia.
    - destruct (pr =? 255) eqn:E3; cbn [prnd_to_u8] in Hprnd; [|discriminate]. injection Hprnd as <-.
      unfold svn_try_from, num_svns in Hsvn. cbn in Hsvn. discriminate. }
  destruct Hsv as (-> & -> & Hpr2).
  assert (ad = v /\ adkd_means v k delay /\ adkd_number (tag_adkd t) = Some v) as (-> & Hm & Hn).
  { unfold kind_of_adkd in Hkind. rewrite (adkd_of_value t ad V2) in Hkind |- *. unfold adkd_means.
    destruct (ad =? 0) eqn:A0; destruct (ad =? 4) eqn:A4; destruct (ad =? 12) eqn:A12;
    destruct Hkind as [(A & -> & -> & ->)|[(A & -> & -> & ->)|(A & -> & -> & ->)]]; try discriminate A;
      (split; [lia|split; [tauto|reflexivity]]). }
  rewrite V3. split; [reflexivity|]. split; [unfold is_byte; lia|]. split; [lia|].
  assert (Hl : (length (tag_tag t) <= 128)%nat).
  { pose proof Hsz as (_ & Hts). unfold tag_tag. rewrite length_sub; lia. }
  split; [exact Hl|]. split; [exact Hn|]. split; [exact Hm|].
  split; [exact (num_tags_fit data key Hlen60 Hkey j (proj2 Hj))|]. split; [exact Htag|].
  destruct j as [|j]; [lia|]. exact Hf.
Qed.

Lemma tag_read j t : (1 <= j < mack_num_tags m)%nat -> mack_tag_and_info m j = Ok t ->
  exists v a, prnd_means v (tag_prnd t) /\ adkd_read a (tag_adkd t) /\
    forall delay, seconds_after gm (k_gst key) delay -> tag_seen root user h prna gm j delay v a (tag_cop t) (tag_tag t).
Proof.
  intros Hj Et. destruct mack_facts as (Hlen60 & _ & _).
  assert (Hsz : sizes_ok ks ts) by (apply announced_sizes_ok; apply Hkey).
  destruct (tag_at_spec data ks ts Hlen60 Hsz j Hj) as (t' & Et' & Hlen & Hinfo & Htag).
  unfold mack_of_chain in Et. rewrite Et in Et'. injection Et' as <-.
  destruct (info_fields data ks ts Hlen60 Hsz j) as (pr & ad & cop & Hpr & Had & Hcop & Hf).
  { unfold mack_of_chain in Hj. lia. }
  rewrite Hf in Hinfo.
  destruct (info_values data ks ts Hlen60 t pr ad cop) as (V1 & V2 & V3); auto. lia.
  exists pr, ad. split; [|split].
  - rewrite (prnd_of_value t pr V1). unfold prnd_means.
    destruct ((1 <=? pr) && (pr <=? 36)) eqn:E1; [lia|]. destruct (pr =? 255) eqn:E2; lia.
  - rewrite (adkd_of_value t ad V2). unfold adkd_read.
    destruct (ad =? 0) eqn:A0; [cbn; lia|]. destruct (ad =? 4) eqn:A4; [cbn; lia|]. destruct (ad =? 12) eqn:A12; cbn; lia.
  - intros delay Hd. rewrite V3. split; [exact Hpr|]. split; [exact Had|]. split; [exact Hcop|].
    exists hk, data, key. split; [exact Hsf|]. split.
    + split; [exact (num_tags_fit data key Hlen60 Hkey j (proj2 Hj))|]. split; [exact Htag|].
      destruct j as [|j]; [lia|]. exact Hf.
    + auto.
Qed.

(** What a tag says of a satellite that is not one. *)
Lemma not_a_satellite v p x : prnd_means v p -> prnd_to_u8 p = Some x -> svn_try_from x = None -> v = 255 /\ p = PrndConstellation.
Proof.
  intros Hm Hp Hs. destruct p as [n| |]; cbn [prnd_means prnd_to_u8] in *; [|now split|discriminate Hp].
  assert (n = x) by congruence. subst x. unfold svn_try_from, num_svns in Hs.
  destruct ((1 <=? n) && (n <=? Z.of_nat 36)) eqn:E; [discriminate Hs|lia].
Qed.

Lemma tag0_placed cop tag0 : mack_cop m = Ok cop -> mack_tag0 m = Ok tag0 ->
  0 <= cop < 16 /\ (length tag0 <= 128)%nat /\ tag_placed (k_chain key) prna data prna 0 cop tag0 0.
Proof.
  intros Ec Et. destruct mack_facts as (Hlen60 & _ & _).
  assert (Hsz : sizes_ok ks ts) by (apply announced_sizes_ok; apply Hkey). pose proof Hsz as (Hks & Hts).
  unfold mack_cop, mack_tag0, mack_of_chain, mack_new in Ec, Et. cbn [mk_data mk_tag_size] in Ec, Et.
  pose proof (length_bits_of_bytes data) as Hlb. rewrite Hlen60 in Hlb.
  rewrite slice_in in Et by lia. injection Et as <-.
  rewrite slice_in in Ec by lia. cbn [bind] in Ec. injection Ec as <-.
  set (cop := load_be (sub (ts + 12) (ts + 12 + 4) (bits_of_bytes data))) in *.
  assert (Hcl : length (sub (ts + 12) (ts + 12 + 4) (bits_of_bytes data)) = 4%nat) by (rewrite length_sub; lia).
  assert (Hcop : 0 <= cop < 16).
  { pose proof (load_be_lt (sub (ts + 12) (ts + 12 + 4) (bits_of_bytes data))) as R.
    rewrite Hcl in R. unfold cop. lia. }
  split; [exact Hcop|]. split; [rewrite length_sub; lia|].
  split; [exact (num_tags_fit data key Hlen60 Hkey 0 (num_tags_pos data key Hlen60 Hkey))|].
  split. { replace ((ts + 16) * 0)%nat with 0%nat by lia. reflexivity. }
  split; [reflexivity|]. split; [reflexivity|].
  exists (load_be (sub ts (ts + 12) (bits_of_bytes data))).
  unfold info_at. replace ((ts + 16) * 0 + ts)%nat with ts by lia.
  replace ((ts + 16) * (0 + 1))%nat with (ts + 12 + 4)%nat by lia.
  rewrite (sub_join ts (ts + 12)) by lia. f_equal.
  - symmetry. apply be_load_sub; lia.
  - unfold cop. symmetry. apply be_load_sub; lia.
Qed.

Lemma process_mack_tag_any gn n n' j : nav_any n -> (1 <= j < mack_num_tags m)%nat ->
  process_mack_tag m key prna gm gn s n j = Ok n' -> nav_any n'.
Proof.
  intros Hn Hj H. destruct mack_facts as (_ & Hgm & Hprna). unfold process_mack_tag in H. bind_inv H. rename x into t.
  assert (Hnone : Ok n = Ok n' -> nav_any n') by (intros Hx; injection Hx as <-; exact Hn).
  destruct (prnd_to_u8 (tag_prnd t)) as [prnd|] eqn:Ep; [|auto].
  destruct (tag_adkd t) eqn:Ea; [| |auto|auto];
    (destruct (svn_try_from prnd) as [svn|] eqn:Es; [|auto]).
  - destruct (other_tag_placed Ced t 0 30 prnd svn j Hj E ltac:(unfold kind_of_adkd; tauto) Ep Es) as (A1 & A2 & A3 & A4 & _).
    eapply process_one_tag_any; [exact Hn| | | | | | |exact H]; auto. unfold is_byte; lia.
  - destruct (other_tag_placed Timing t 4 30 prnd svn j Hj E ltac:(unfold kind_of_adkd; tauto) Ep Es) as (A1 & A2 & A3 & A4 & _).
    eapply process_one_tag_any; [exact Hn| | | | | | |exact H]; auto. unfold is_byte; lia.
Qed.

Lemma process_slowmac_tag_any gn n n' j : nav_any n -> (1 <= j < mack_num_tags m)%nat ->
  process_slowmac_tag m key prna gm gn s n j = Ok n' -> nav_any n'.
Proof.
  intros Hn Hj H. destruct mack_facts as (_ & Hgm & Hprna). unfold process_slowmac_tag in H. bind_inv H. rename x into t.
  assert (Hnone : Ok n = Ok n' -> nav_any n') by (intros Hx; injection Hx as <-; exact Hn).
  destruct (tag_adkd t) eqn:Ea; cbn [adkd_eqb negb] in H; [auto|auto| |auto].
  destruct (prnd_to_u8 (tag_prnd t)) as [prnd|] eqn:Ep; [|auto].
  destruct (svn_try_from prnd) as [svn|] eqn:Es; [|auto].
  destruct (other_tag_placed Ced t 12 330 prnd svn j Hj E ltac:(unfold kind_of_adkd; tauto) Ep Es) as (A1 & A2 & A3 & A4 & _).
  eapply process_one_tag_any; [exact Hn| | | | | | |exact H]; auto. unfold is_byte; lia.
Qed.

Lemma process_mack_tag_says gn n j : nav_any n -> (1 <= j < mack_num_tags m)%nat -> seconds_after gn gm 30 ->
  seconds_after gm (k_gst key) 30 -> true_lines (process_mack_tag_log mx m key prna gm gn s n j).
Proof.
  intros Hn Hj Hgn Hd. destruct mack_facts as (_ & Hgm & Hprna). unfold process_mack_tag_log.
  apply says_lbind; [apply says_quiet|]. intros t Et. rewrite plain_quiet in Et.
  destruct (tag_read j t Hj Et) as (v & a & Hv & Ha & Hseen). specialize (Hseen 30 Hd).
  apply says_lbind; [|intros _ _].
  { apply says_log. intros l Hl. injection Hl as <-. cbn [claim]. exists v, a, (tag_tag t). auto. }
  destruct (prnd_to_u8 (tag_prnd t)) as [prnd|] eqn:Ep.
  2:{ apply says_lbind; [|intros; apply says_done]. apply says_log. intros l Hl. injection Hl as <-. cbn [claim tag_debug sh_tag sh_prnd sh_adkd].
      destruct (tag_prnd t); try discriminate Ep. exists prna, gm, j, 30, v, a, (tag_cop t). auto. }
  assert (Hinv : forall adkd, svn_try_from prnd = None -> tag_adkd t = adkd -> a = 0 \/ a = 4 ->
    claim root user h (LgInvalidPrnd (tag_prnd t) adkd)).
  { intros adkd Es Ea H04. destruct (not_a_satellite v _ prnd Hv Ep Es) as (Hv1 & Hp). rewrite Hv1 in Hseen. cbn [claim].
    exists prna, gm, j, a, (tag_cop t), (tag_tag t). rewrite <- Ea. auto. }
  destruct (tag_adkd t) eqn:Ea; [| |says|].
  3:{ apply says_lbind; [|intros; apply says_done]. apply says_log. intros l Hl. injection Hl as <-. cbn [claim tag_debug sh_tag sh_prnd sh_adkd].
      exists prna, gm, j, v, a, (tag_cop t). auto. }
  1,2: destruct (svn_try_from prnd) as [svn|] eqn:Es;
    [|apply says_lbind; [|intros; apply says_done]; apply says_log; intros l Hl; injection Hl as <-; apply Hinv; auto].
  - destruct (other_tag_placed Ced t 0 30 prnd svn j Hj Et ltac:(unfold kind_of_adkd; tauto) Ep Es) as (A1 & A2 & A3 & A4 & A5 & A6 & A7).
    subst svn. rewrite Ea in A5. apply process_one_tag_says; auto; [unfold is_byte; lia|].
    exists hk, data, 0, 30. split; [exact Hsf|]. split; [reflexivity|]. split; [exact A5|]. split; [exact A6|]. split; [exact A7|].
    split; [exact Hchecked|]. split; [exact Htrust|]. split; [exact Hdisc|exact Hd].
  - destruct (other_tag_placed Timing t 4 30 prnd svn j Hj Et ltac:(unfold kind_of_adkd; tauto) Ep Es) as (A1 & A2 & A3 & A4 & A5 & A6 & A7).
    subst svn. rewrite Ea in A5. apply process_one_tag_says; auto; [unfold is_byte; lia|].
    exists hk, data, 4, 30. split; [exact Hsf|]. split; [reflexivity|]. split; [exact A5|]. split; [exact A6|]. split; [exact A7|].
    split; [exact Hchecked|]. split; [exact Htrust|]. split; [exact Hdisc|exact Hd].
Qed.

Lemma process_slowmac_tag_says gn n j : nav_any n -> (1 <= j < mack_num_tags m)%nat -> seconds_after gn gm 30 ->
  seconds_after gm (k_gst key) 330 -> true_lines (process_slowmac_tag_log mx m key prna gm gn s n j).
Proof.
  intros Hn Hj Hgn Hd. destruct mack_facts as (_ & Hgm & Hprna). unfold process_slowmac_tag_log.
  apply says_lbind; [apply says_quiet|]. intros t Et. rewrite plain_quiet in Et.
  destruct (tag_read j t Hj Et) as (v & a & Hv & Ha & Hseen). specialize (Hseen 330 Hd).
  destruct (tag_adkd t) eqn:Ea; cbn [adkd_eqb negb]; [says|says| |says].
  cbn [adkd_read adkd_number] in Ha.
  destruct (prnd_to_u8 (tag_prnd t)) as [prnd|] eqn:Ep.
  2:{ apply says_lbind; [|intros; apply says_done]. apply says_log. intros l Hl. injection Hl as <-. cbn [claim tag_debug sh_tag sh_prnd sh_adkd].
      destruct (tag_prnd t); try discriminate Ep. rewrite Ea. exists prna, gm, j, 330, v, a, (tag_cop t). auto. }
  destruct (svn_try_from prnd) as [svn|] eqn:Es.
  2:{ apply says_lbind; [|intros; apply says_done]. apply says_log. intros l Hl. injection Hl as <-. cbn [claim tag_debug sh_tag sh_prnd sh_adkd].
      destruct (not_a_satellite v _ prnd Hv Ep Es) as (Hv1 & Hp). rewrite Hv1, Ha in Hseen.
      exists prna, gm, j, (tag_cop t). auto. }
  destruct (other_tag_placed Ced t 12 330 prnd svn j Hj Et ltac:(unfold kind_of_adkd; tauto) Ep Es) as (A1 & A2 & A3 & A4 & A5 & A6 & A7).
  subst svn. rewrite Ea in A5. apply process_one_tag_says; auto; [unfold is_byte; lia|].
  exists hk, data, 12, 330. split; [exact Hsf|]. split; [reflexivity|]. split; [exact A5|]. split; [exact A6|]. split; [exact A7|].
  split; [exact Hchecked|]. split; [exact Htrust|]. split; [exact Hdisc|exact Hd].
Qed.

Lemma process_mack_says n : nav_any n -> seconds_after gm (k_gst key) 30 ->
  true_lines (process_mack_log mx n m key prna gm s).
Proof.
  intros Hn Hd. destruct mack_facts as (Hlen60 & Hgm & Hprna). unfold process_mack_log.
  apply says_lbind; [|intros _ _].
  { apply says_log. intros l Hl. bind_inv Hl. injection Hl as <-. cbn [claim].
    destruct (mack_tag0 m) as [tag0|] eqn:Et0.
    2:{ exfalso. assert (Hsz : sizes_ok ks ts) by (apply announced_sizes_ok; apply Hkey). pose proof Hsz as (Hks & Hts).
        unfold mack_tag0, mack_of_chain, mack_new in Et0. cbn [mk_data mk_tag_size] in Et0.
        pose proof (length_bits_of_bytes data) as Hlb. rewrite slice_in in Et0 by lia. discriminate Et0. }
    destruct (tag0_placed x tag0 E Et0) as (A1 & A2 & A3). exists tag0.
    split; [lia|]. split; [lia|]. split; [exact A1|]. exists hk, data, key. auto 10. }
  apply says_lbind; [apply says_quiet|]. intros gn Egn. rewrite plain_quiet in Egn.
  pose proof (seconds_before data key Hlen60 gm gn Hgm Egn) as Hgn.
  apply says_lbind; [apply says_quiet|]. intros cop Ec. rewrite plain_quiet in Ec.
  apply says_lbind; [apply says_quiet|]. intros tag0 Et. rewrite plain_quiet in Et.
  destruct (tag0_placed cop tag0 Ec Et) as (A1 & A2 & A3).
  assert (Hb : is_byte prna) by (unfold is_byte; lia).
  apply says_lbind.
  { apply process_one_tag_says; auto.
    exists hk, data, 0, 30. split; [exact Hsf|]. split; [reflexivity|]. split; [reflexivity|].
    split; [left; auto|]. split; [exact A3|].
    split; [exact Hchecked|]. split; [exact Htrust|]. split; [exact Hdisc|exact Hd]. }
  intros n1 E1. rewrite process_one_tag_plain in E1.
  assert (Hn1 : nav_any n1) by (eapply process_one_tag_any; [exact Hn| | | | | | |exact E1]; auto).
  apply (says_fold _ nav_any); [exact Hn1| |].
  - intros n2 j Hj Hn2. apply (in_tag_numbers data key Hlen60) in Hj. now apply process_mack_tag_says.
  - intros n2 j n3 Hj Hn2 E. apply (in_tag_numbers data key Hlen60) in Hj. rewrite process_mack_tag_plain in E.
    eapply process_mack_tag_any; eauto.
Qed.

Lemma process_mack_slowmac_says n : nav_any n -> seconds_after gm (k_gst key) 330 ->
  true_lines (process_mack_slowmac_log mx n m key prna gm s).
Proof.
  intros Hn Hd. destruct mack_facts as (Hlen60 & Hgm & Hprna). unfold process_mack_slowmac_log.
  apply says_lbind; [apply says_quiet|]. intros gn Egn. rewrite plain_quiet in Egn.
  pose proof (seconds_before data key Hlen60 gm gn Hgm Egn) as Hgn.
  apply (says_fold _ nav_any); [exact Hn| |].
  - intros n2 j Hj Hn2. apply (in_tag_numbers data key Hlen60) in Hj. now apply process_slowmac_tag_says.
  - intros n2 j n3 Hj Hn2 E. apply (in_tag_numbers data key Hlen60) in Hj. rewrite process_slowmac_tag_plain in E.
    eapply process_slowmac_tag_any; eauto.
Qed.
End Mack.

Lemma steps_any Q hs hs' n' : nav_ok hs -> nav_inv (fun _ _ _ _ => True) (nav_stretches (inav_words h)) hs ->
  represents_nav hs' n' -> tag_steps Q hs hs' -> nav_any n'.
Proof.
  intros H1 H2 H3 H4. destruct (tag_steps_inv (fun _ _ _ _ => True) (fun _ _ _ _ => True) Q (inav_words h) hs hs') as (A1 & A2); auto.
  exists hs'. auto.
Qed.

Section Tags.
Variable key : tkey.
Hypothesis Hok : Forall op_ok h.
Hypothesis Hkey : key_ok key.
Hypothesis Htrust : trusted_key root user h key.
Hypothesis Hdisc : key_disclosed h key.
Variables (its : list item) (st : mack_storage).
Hypothesis Hms : represents_ms (stretches its) st.
Hypothesis Hits : Forall (item_received h) its.

(** The key [k] with which the MACK message of the subframe [g] is validated. *)
Definition mack_key_facts (g : gst) (k held : tkey) (nd : nat) : Prop :=
  key_ok k /\ seconds_after g (k_gst k) 30 /\ trusted_key root user h held /\ k_chain k = k_chain held /\
  time_of (k_gst held) = time_of (k_gst k) + 30 * Z.of_nat nd /\
  key_before (k_chain held) nd (key_bytes held) (time_of (k_gst held)) (key_bytes k).

Lemma validate_mack_says message hk mkey held nd prna g : subframe_received h prna g hk message ->
  mack_key_facts g mkey held nd ->
  true_lines (validate_mack_log mx (mack_of_chain message key) mkey prna g).
Proof.
  intros Hsf (M1 & M2 & M3 & M4 & M5 & M6).
  destruct (subframe_received_bytes _ _ _ _ _ Hok Hsf) as (_ & (Hlen & _) & Hg & _ & Hprna).
  unfold validate_mack_log. apply says_lbind; [apply says_quiet|]. intros [m|e] E; [apply says_done|]. rewrite plain_quiet in E.
  apply says_lbind; [|intros; apply says_done]. apply says_log. intros m Hm. bind_inv Hm. injection Hm as <-. cbn [claim].
  exists hk, message, key, mkey, held, nd. split; [exact Hsf|]. split; [exact Htrust|]. split; [exact Hdisc|].
  split; [exact M3|]. split; [exact M4|]. split; [exact M5|]. split; [exact M6|]. split; [exact M2|].
  unfold mack_of_chain in E. rewrite (Nat.mul_comm 8).
  set (ks := (ch_key_bytes (k_chain key) * 8)%nat) in *. set (ts := ch_tag_bits (k_chain key)) in *.
  assert (Hsz : sizes_ok ks ts) by (apply announced_sizes_ok; apply Hkey).
  assert (Hp : is_byte prna) by (unfold is_byte; lia).
  assert (Hnp : ~ (~ mac_usable mkey \/ ~ flx_in_range message ks ts (k_chain mkey) g)).
  { intros Hc. apply (mack_validate_panic HC message ks ts Hlen Hsz mkey prna g M1 Hg Hp) in Hc. congruence. }
  destruct (mac_usable_dec mkey) as [Hu|Hu]; [|exfalso; apply Hnp; auto].
  destruct (flx_in_range_dec message ks ts (k_chain mkey) g) as [Hf|Hf]; [|exfalso; apply Hnp; auto].
  split; [|exact (ErrorProofs.mack_validate_says HC message ks ts Hlen Hsz mkey prna g e M1 Hu Hg Hp Hf E)].
  destruct (mack_validate_exact HC message ks ts Hlen Hsz mkey prna g M1 Hu Hg Hp Hf) as (r & Er & Hr1 & Hr2).
  rewrite Er in E. injection E as ->. intros Hv. apply Hr2 in Hv. destruct Hv as (m' & Hv). discriminate.
Qed.

Lemma checked_facts message hk mkey held nd prna g m : subframe_received h prna g hk message ->
  mack_key_facts g mkey held nd ->
  validate_mack (mack_of_chain message key) mkey prna g = Ok (Some m) ->
  m = mack_of_chain message key /\ mack_checked root user h key prna g message.
Proof.
  intros Hsf (M1 & M2 & M3 & M4 & M5 & M6) E.
  destruct (subframe_received_bytes _ _ _ _ _ Hok Hsf) as (_ & (Hlen & _) & Hg & _ & Hprna).
  destruct (validate_mack_sound HC _ _ _ _ _ _ Hlen Hkey M1 Hg Hprna E) as (-> & Hval).
  split; [reflexivity|]. exists mkey, held, nd. split; [exact M3|]. split; [exact M4|]. split; [exact M5|].
  split; [exact M6|]. split; [exact M2|exact Hval].
Qed.

Lemma fast_key_facts g : seconds_after g (k_gst key) 30 -> mack_key_facts g key key 0.
Proof.
  intros Hg. split; [exact Hkey|]. split; [exact Hg|]. split; [exact Htrust|]. split; [reflexivity|]. split; [lia|reflexivity].
Qed.

Lemma process_tags_fast_any only g svn n n' : seconds_after g (k_gst key) 30 -> nav_any n ->
  process_tags_fast st only key g svn n = Ok n' -> nav_any n'.
Proof.
  intros Hg Hn H. unfold process_tags_fast in H. destruct only; [injection H as <-; exact Hn|].
  bind_inv H. destruct x as [(message, s)|]; [|injection H as <-; exact Hn].
  destruct (item_found HS h _ _ _ _ _ _ Hms Hits E) as (hk & Hsf & ->).
  destruct (subframe_received_bytes _ _ _ _ _ Hok Hsf) as (_ & (Hlen & _) & Hgok & _ & Hsvn).
  bind_inv H. destruct x as [m|]; [|injection H as <-; exact Hn].
  destruct (checked_facts message hk key key 0 svn g m Hsf (fast_key_facts g Hg) E0) as (-> & _).
  destruct Hn as (hs & Hn1 & Hn2 & Hn3).
  destruct (process_mack_steps HC HS message key svn g (status_of hk) Hlen Hkey Hgok Hsvn n n' hs Hn1 Hn2 H)
    as (hs' & A1 & A2 & A3).
  exact (steps_any _ hs hs' n' Hn2 Hn3 A1 A3).
Qed.

Lemma process_tags_fast_says only g svn n : seconds_after g (k_gst key) 30 -> nav_any n ->
  true_lines (process_tags_fast_log mx st only key g svn n).
Proof.
  intros Hg Hn. unfold process_tags_fast_log. destruct only; [apply says_done|].
  apply says_lbind; [apply says_quiet|]. intros [(message, s)|] E; [|apply says_done]. rewrite plain_quiet in E.
  destruct (item_found HS h _ _ _ _ _ _ Hms Hits E) as (hk & Hsf & ->).
  destruct (subframe_received_bytes _ _ _ _ _ Hok Hsf) as (_ & (Hlen & _) & Hgok & _ & Hsvn).
  apply says_lbind; [exact (validate_mack_says message hk key key 0 svn g Hsf (fast_key_facts g Hg))|].
  intros [m|] E2; [|apply says_done]. rewrite validate_mack_plain in E2 by auto.
  destruct (checked_facts message hk key key 0 svn g m Hsf (fast_key_facts g Hg) E2) as (-> & Hch).
  exact (process_mack_says message key svn g hk Hok Hsf Hkey Htrust Hdisc Hch n Hn Hg).
Qed.

Lemma process_tags_slow_any mkey held nd g svn n n' : seconds_after g (k_gst key) 330 ->
  (forall k, mkey = Some k -> mack_key_facts g k held nd) -> nav_any n ->
  process_tags_slow st mkey key g svn n = Ok n' -> nav_any n'.
Proof.
  intros Hg Hmk Hn H. unfold process_tags_slow in H. destruct mkey as [mkey|]; [|injection H as <-; exact Hn].
  bind_inv H. destruct x as [(message, s)|]; [|injection H as <-; exact Hn].
  destruct (item_found HS h _ _ _ _ _ _ Hms Hits E) as (hk & Hsf & ->).
  destruct (subframe_received_bytes _ _ _ _ _ Hok Hsf) as (_ & (Hlen & _) & Hgok & _ & Hsvn).
  bind_inv H. destruct x as [m|]; [|injection H as <-; exact Hn].
  destruct (checked_facts message hk mkey held nd svn g m Hsf (Hmk mkey eq_refl) E0) as (-> & _).
  destruct Hn as (hs & Hn1 & Hn2 & Hn3).
  destruct (process_mack_slowmac_steps HC HS message key svn g (status_of hk) Hlen Hkey Hgok Hsvn n n' hs Hn1 Hn2 H)
    as (hs' & A1 & A2 & A3).
  exact (steps_any _ hs hs' n' Hn2 Hn3 A1 A3).
Qed.

Lemma process_tags_slow_says mkey held nd g svn n : seconds_after g (k_gst key) 330 ->
  (forall k, mkey = Some k -> mack_key_facts g k held nd) -> nav_any n ->
  true_lines (process_tags_slow_log mx st mkey key g svn n).
Proof.
  intros Hg Hmk Hn. unfold process_tags_slow_log. destruct mkey as [mkey|]; [|apply says_done].
  apply says_lbind; [apply says_quiet|]. intros [(message, s)|] E; [|apply says_done]. rewrite plain_quiet in E.
  destruct (item_found HS h _ _ _ _ _ _ Hms Hits E) as (hk & Hsf & ->).
  destruct (subframe_received_bytes _ _ _ _ _ Hok Hsf) as (_ & (Hlen & _) & Hgok & _ & Hsvn).
  apply says_lbind; [exact (validate_mack_says message hk mkey held nd svn g Hsf (Hmk mkey eq_refl))|].
  intros [m|] E2; [|apply says_done]. rewrite validate_mack_plain in E2 by auto.
  destruct (checked_facts message hk mkey held nd svn g m Hsf (Hmk mkey eq_refl) E2) as (-> & Hch).
  exact (process_mack_slowmac_says message key svn g hk Hok Hsf Hkey Htrust Hdisc Hch n Hn Hg).
Qed.

End Tags.

Lemma process_tags_says o key : Forall op_ok h -> rest_inv root user slow h o ->
  key_ok key -> trusted_key root user h key -> key_disclosed h key ->
  true_lines (process_tags_log mx o key).
Proof.
  intros Hok Hinv Hkok Htrust Hdisc. unfold process_tags_log.
  destruct (ri_mack _ _ _ _ _ Hinv) as (its & Hms & Hits).
  assert (Hnav : nav_any (o_nav o)).
  { destruct (ri_nav _ _ _ _ _ Hinv) as (hs & N1 & N2 & N3). exists hs. split; [exact N1|]. split; [exact N2|].
    eapply nav_inv_weaken; [|exact N3]. auto. }
  pose proof (ko_gst _ Hkok) as Hgok.
  apply says_lbind; [apply says_quiet|]. intros gm E. rewrite plain_quiet in E.
  apply says_lbind; [apply says_quiet|]. intros gs E0. rewrite plain_quiet in E0.
  apply says_lbind; [apply says_quiet|]. intros gk E1. rewrite plain_quiet in E1.
  apply says_lbind; [apply says_quiet|]. intros mkey E2. rewrite plain_quiet in E2.
  apply (seconds_before_n _ _ 30) in E; [|auto|lia].
  apply (seconds_before_n _ _ 300) in E0; [|apply E|lia].
  pose proof E1 as E1'. apply add_seconds_exact in E1'; [|auto|lia]. destruct E1' as (Hgk & Hgkt & _).
  apply (seconds_before_n _ _ 300) in E1; [|auto|lia].
  assert (Hsub : is_subframe gk = true).
  { apply is_subframe_start. pose proof (ko_sub _ Hkok) as Hks. apply is_subframe_start in Hks.
    destruct Hks as (nk & Hnk). rewrite Hgkt, Hnk.
    exists (nk - 10 - 65536 * 20160 * ((30 * nk + -300) / (65536 * 604800))).
    pose proof (Z.div_mod (30 * nk + -300) (65536 * 604800) ltac:(lia)). lia. }
  destruct (slowmac_key_facts HC root user h key _ _ _ (ri_keys _ _ _ _ _ Hinv) Hgk Hsub E2) as (held & nd & Hmk).
  assert (Hslow : seconds_after gs (k_gst key) 330).
  { apply (seconds_after_trans gs gm (k_gst key) 300 30); auto. }
  assert (Hslow30 : seconds_after gs gk 30).
  { destruct Hslow as (S1 & S2 & S3), E1 as (T1 & _ & T3). split; auto. split; auto.
    apply Z.mod_divide in S3; [|lia]. apply Z.mod_divide in T3; [|lia]. apply (proj2 (Z.mod_divide _ (65536 * 604800) ltac:(lia))).
    replace (time_of gs + 30 - time_of gk)
      with ((time_of gs + 330 - time_of (k_gst key)) - (time_of gk + 300 - time_of (k_gst key))) by lia.
    now apply Z.divide_sub_r. }
  assert (Hmk2 : forall k, mkey = Some k -> mack_key_facts gs k held nd).
  { intros k Ek. destruct (Hmk k Ek) as (M1 & M2 & M3 & M4 & M5 & M6). split; [exact M1|]. split; [rewrite M2; exact Hslow30|].
    split; [exact M3|]. split; [exact M4|]. split; [exact M5|exact M6]. }
  apply says_lbind; [|intros; apply says_done].
  apply (says_fold _ nav_any); [exact Hnav| |].
  - intros n svn _ Hn. apply says_lbind; [exact (process_tags_fast_says key Hok Hkok Htrust Hdisc its _ Hms Hits _ gm svn n E Hn)|].
    intros n1 E3. rewrite process_tags_fast_plain in E3;
      [|exact (rest_mack_good HS _ _ _ _ _ Hok Hinv)|exact Hkok].
    apply (process_tags_slow_says key Hok Hkok Htrust Hdisc its _ Hms Hits mkey held nd gs svn n1 Hslow Hmk2).
    exact (process_tags_fast_any key Hok Hkok Htrust its _ Hms Hits _ gm svn n n1 E Hn E3).
  - intros n svn n' _ Hn E3. rewrite plain_lbind in E3.
    rewrite process_tags_fast_plain in E3;
      [|exact (rest_mack_good HS _ _ _ _ _ Hok Hinv)|exact Hkok]. bind_inv E3.
    rewrite process_tags_slow_plain in E3;
      [|exact (rest_mack_good HS _ _ _ _ _ Hok Hinv)|exact Hkok].
    apply (process_tags_slow_any key Hok Hkok its _ Hms Hits mkey held nd gs svn x n' Hslow Hmk2); [|exact E3].
    exact (process_tags_fast_any key Hok Hkok Htrust its _ Hms Hits _ gm svn n x E Hn E4).
Qed.

(** ** The key of a subframe *)

Lemma disclosed_facts o svn g hk mk cur kb nk : Forall op_ok h -> rest_inv root user slow h o ->
  subframe_received h svn g hk mk -> current_key (o_keys o) = Some cur ->
  mack_key (mack_of_chain mk cur) = Ok kb -> key_from_bitslice kb g (k_chain cur) = Ok nk ->
  key_ok cur /\ trusted_key root user h cur /\ key_ok nk /\ k_gst nk = g /\ k_chain nk = k_chain cur /\ key_disclosed h nk.
Proof.
  intros Hok Hinv Hsf Ec Ekb Enk.
  destruct (subframe_received_bytes _ _ _ _ _ Hok Hsf) as (_ & (Hlen & _) & Hg & Hsub & Hsvn).
  destruct (ri_keys _ _ _ _ _ Hinv cur (current_key_in _ _ Ec)) as (Hcok & Hct).
  assert (Hsz : sizes_ok (ch_key_bytes (k_chain cur) * 8) (ch_tag_bits (k_chain cur))) by now apply key_sizes_ok.
  destruct (num_tags_bounds mk _ _ Hlen Hsz) as (_ & Hfit & _).
  unfold mack_of_chain in Ekb. rewrite mack_key_ok in Ekb by auto.
  set (nt := mack_num_tags (mack_new mk (ch_key_bytes (k_chain cur) * 8) (ch_tag_bits (k_chain cur)))) in *.
  destruct (key_from_bitslice_ok
    (sub ((ch_tag_bits (k_chain cur) + 16) * nt)
         ((ch_tag_bits (k_chain cur) + 16) * nt + ch_key_bytes (k_chain cur) * 8) (bits_of_bytes mk))
    g (k_chain cur) (ko_chain _ Hcok) Hg Hsub) as (new & En & Hnok & Hnch & Hng & Hnb).
  { rewrite length_sub by (rewrite length_bits_of_bytes; lia). lia. }
  assert (new = nk) as -> by congruence. clear Ekb En.
  split; [exact Hcok|]. split; [exact Hct|]. split; [exact Hnok|]. split; [exact Hng|]. split; [exact Hnch|].
  exists svn, hk, mk. split; [rewrite Hng; exact Hsf|].
  unfold key_in_mack. rewrite Hnch, Hnb. unfold nt, mack_num_tags, mack_new. cbn [mk_data mk_key_size mk_tag_size].
  rewrite (Nat.mul_comm 8 (ch_key_bytes (k_chain cur))). reflexivity.
Qed.

Lemma validate_key_says o svn g hk mk : Forall op_ok h -> rest_inv root user slow h o ->
  subframe_received h svn g hk mk -> true_lines (osnma_validate_key_log mx o mk g).
Proof.
  intros Hok Hinv Hsf. unfold osnma_validate_key_log.
  destruct (current_key (o_keys o)) as [cur|] eqn:Ec; [|says].
  apply says_lbind; [apply says_quiet|]. intros kb Ekb. rewrite plain_quiet in Ekb.
  apply says_lbind; [apply says_quiet|]. intros nk Enk. rewrite plain_quiet in Enk.
  destruct (disclosed_facts o svn g hk mk cur kb nk Hok Hinv Hsf Ec Ekb Enk) as (D1 & D2 & D3 & D4 & D5 & D6).
  rewrite gst_cmp_time by (apply ko_gst; assumption).
  destruct (Z.compare_spec (time_of (k_gst cur)) (time_of (k_gst nk))) as [Hlt|Hlt|Hlt]; [apply says_done| |].
  2: { apply says_lbind; [|intros; apply says_done]. apply says_log. intros m Hm. injection Hm as <-. cbn [claim].
       split; [exact D6|]. split; [exact D2|]. lia. }
  apply says_lbind; [apply says_quiet|]. intros [nv|e] Ev; rewrite plain_quiet in Ev.
  - destruct (accepted_facts HC root user slow h o svn g hk mk cur kb nk nv Hok Hinv Hsf Ec Ekb Enk Ev)
      as (-> & A2 & A3 & A4 & A5 & A6 & n & A7 & A8).
    apply says_lbind; [|intros _ _].
    { apply says_log. intros m Hm. injection Hm as <-. cbn [claim]. split; [exact D6|]. split; [exact D2|]. split; [exact A3|].
      exists n. split; [lia|]. split; [exact A5|]. split; [exact A7|exact A8]. }
    apply says_lbind; [apply says_quiet|]. intros ks Eks. rewrite plain_quiet in Eks.
    apply process_tags_says; auto.
    eapply rest_inv_set; [exact Hinv|reflexivity..|exact (ri_merkle _ _ _ _ _ Hinv)|exact (ri_pub _ _ _ _ _ Hinv)|].
    intros k Hk. cbn [set_keys o_keys] in Hk. eapply store_key_in in Hk; [|exact Eks].
    destruct Hk as [->|Hk]; [split; assumption|exact (ri_keys _ _ _ _ _ Hinv k Hk)].
  - apply says_lbind; [|intros; apply says_done]. apply says_log. intros m Hm. injection Hm as <-. cbn [claim].
    split; [exact D6|]. split; [exact D2|]. split; [exact Hlt|]. split.
    2:{ assert (Hch : k_chain nk = k_chain cur) by exact (proj1 (key_from_bitslice_fields _ _ _ _ Enk)).
        pose proof (ErrorProofs.validate_key_says HC cur nk e D1 D3 Ev) as He. destruct e; try exact (proj2 He). now symmetry in Hch. }
    intros n Hn (K1 & K2 & K3). destruct (validate_key_exact HC cur nk D1 D3) as (r & Er & _ & Hr).
    destruct (proj2 Hr) as (k & Hk).
    + split; [exact K1|]. exists n. split; [lia|]. split; [exact K2|exact K3].
    + congruence.
Qed.

Lemma process_subframe_says o svn g hk mk : Forall op_ok h -> rest_inv root user slow h o -> stores_ok o ->
  anchored root user (option_map pk_id user) h o ->
  subframe_received h svn g hk mk -> true_lines (process_subframe_log mx o hk mk svn g).
Proof.
  intros Hok Hinv Hsto Hanc Hsf. destruct (subframe_received_bytes _ _ _ _ _ Hok Hsf) as ((Hlen & Hhk) & _).
  unfold process_subframe_log.
  assert (E0 : index hk 0 = Ok (nth 0 hk 0)) by (apply index_ok, nth_error_nth'; lia).
  assert (E1 : index hk 1 = Ok (nth 1 hk 0)) by (apply index_ok, nth_error_nth'; lia).
  rewrite E0, E1. apply says_lbind; [apply says_quiet|]. intros hd Ehd. rewrite plain_quiet in Ehd. injection Ehd as <-.
  apply says_lbind; [exact (mack_store_says _ _ _ _ _ _ Hsf)|]. intros ms Em. rewrite mack_store_plain in Em.
  apply says_lbind; [apply says_quiet|]. intros hd Ehd. rewrite plain_quiet in Ehd. injection Ehd as <-.
  cbn [set_mack o_dsm].
  assert (Hst : forall cd d, dsm_feed (o_dsm o) (nth 1 hk 0) (skipn 2 hk) = Ok (cd, d) ->
    rest_inv root user slow h (set_dsm cd (set_mack ms o)) /\
    forall m, d = Some m -> dsm_received h (dm_id m) (dm_data m) /\ dm_type m = if dm_id m <? 12 then DsmKroot else DsmPkr).
  { intros cd d Ed. exact (subframe_stored HS _ _ _ _ _ _ _ _ _ _ _ _ Hok Hinv Hsf Em Ed). }
  apply says_lbind.
  - intros ls (cd & d) E l m Hin.
    assert (Ed : dsm_feed (o_dsm o) (nth 1 hk 0) (skipn 2 hk) = Ok (cd, d)).
    { rewrite <- (dsm_feed_plain mx). rewrite E. reflexivity. }
    destruct (Hst cd d Ed) as (_ & Hm).
    assert (Hs : says (fun m => match m with LgDsmCompleted _ _ => True | _ => claim root user h m end)
                   (dsm_feed_log mx (o_dsm o) (nth 1 hk 0) (skipn 2 hk))).
    { destruct (ri_dsm _ _ _ _ _ Hinv) as (bl & Hbl1 & Hbl2). exact (dsm_feed_says bl _ svn g hk mk Hok Hbl1 Hbl2 Hsf). }
    pose proof (Hs _ _ E l m Hin) as Hc. destruct m; try exact Hc. clear Hc Hs.
    destruct (dsm_feed_line _ _ _ _ _ _ _ _ _ E Hin) as (m & -> & H1 & H2). cbn [claim].
    exists (dm_data m). split; [rewrite <- H1; apply (Hm m eq_refl)|exact H2].
  - intros (cd & d) Ed. rewrite dsm_feed_plain in Ed. destruct (Hst cd d Ed) as (Hinv2 & Hm).
    destruct d as [m|].
    + destruct (Hm m eq_refl) as (Hdr & Ht).
      apply says_lbind; [exact (process_dsm_says _ m svn g hk mk Hok Hinv2 Hsto Hanc Hsf Hdr Ht)|].
      intros o2 E2. rewrite process_dsm_plain in E2.
      * apply (validate_key_says o2 svn g hk mk Hok); [|exact Hsf].
        exact (process_dsm_rest HC root user slow h _ m svn g hk mk o2 Hok Hinv2 Hsf Hdr Ht E2).
      * exact (dsm_received_bytes _ _ _ Hok Hdr).
      * intros Hp. pose proof (dsm_received_size _ _ _ Hok Hdr) as Hsz. rewrite Ht in Hp. destruct (dm_id m <? 12); [discriminate|exact Hsz].
    + apply says_lbind; [apply says_done|]. intros o2 E2. injection E2 as <-.
      exact (validate_key_says _ svn g hk mk Hok Hinv2 Hsf).
Qed.
End Crypto.

(** ** The whole run *)

Section Run.
Context {C : crypto} {B : build} {S : storage}.
Hypothesis HC : crypto_ok C.
Hypothesis HS : storage_ok S.
Variable mx : option level.
Variables (root : option (list Z)) (user : option public_key) (slow : bool).
Notation new := (osnma_new root user slow).

Lemma subframe_feed_says h o data svn g : Forall op_ok h -> op_ok (FeedOsnma data svn g) -> sub_inv h o ->
  says (fun m => match m with LgSubframeCompleted _ _ _ _ => True | _ => claim root user (h ++ [FeedOsnma data svn g]) m end)
    (subframe_feed_log mx (o_sub o) data svn g).
Proof.
  intros Hok Hx Hrep. set (w := mkWord data svn g).
  assert (Hlen : length data = 5%nat) by (destruct Hx as ((X1 & _) & _); exact X1).
  assert (Hsvn : 1 <= svn <= 36) by (destruct Hx as (_ & X2 & _); exact X2).
  assert (Hidx : (g_tow g / 2) mod 15 = w_index w) by (unfold w_index; cbn [w w_gst]; lia).
  destruct Hrep as (H1 & H2 & H3 & H4 & H5 & H6 & H7).
  unfold subframe_feed_log, words_per_subframe. cbv zeta. rewrite Hidx.
  apply says_lbind.
  { apply says_log. intros m Hm. injection Hm as <-. cbn [claim]. exists h, data. split; [reflexivity|].
    change (sub 1 5 data) with (firstn 4 (skipn 1 data)). split; [reflexivity|]. split; [|reflexivity].
    apply firstn_all2. rewrite skipn_length. lia. }
  intros _ _. apply says_lbind.
  { destruct (negb _ || negb _) eqn:E; [|apply says_done]. apply says_lbind.
    { apply says_log. intros m Hm. injection Hm as <-. cbn [claim]. exists h, data, svn, g. split; [reflexivity|].
      apply nth_ext with (d := 0) (d' := 0).
      - rewrite map_length, seq_length. exact H3.
      - intros i Hi. rewrite H3 in Hi. destruct (H7 (Z.of_nat i + 1) ltac:(lia)) as (X & _).
        replace (Z.to_nat (Z.of_nat i + 1 - 1)) with i in X by lia. rewrite (nth_error_nth _ _ 0 X). symmetry.
        apply nth_error_nth. rewrite nth_error_map, (nth_error_nth' _ 0%nat) by (rewrite seq_length; exact Hi).
        rewrite seq_nth by exact Hi. cbn [option_map]. do 4 f_equal. lia. }
    intros _ _. says.
    match goal with H : Ok _ = Ok _ |- _ => injection H as <- end. cbn [claim]. exists h, data, svn. split; [reflexivity|].
    intros ws w' Ew. destruct (H6 w') as (A1 & A2).
    { rewrite Ew. unfold current_run. rewrite fold_left_app. cbn [fold_left]. apply in_or_app. right. now left. }
    unfold same_subframe. rewrite A1, A2. lia. }
  intros st1 Est.
  assert (Hnv : nth_error (sf_num_valid st1) (Z.to_nat (svn - 1)) =
    Some (Z.of_nat (length (collected svn (run_for (current_run (osnma_words h)) w))))).
  { destruct (negb _ || negb _) eqn:E.
    - rewrite !plain_lbind, !plain_log in Est. cbn [bind] in Est. rewrite plain_done in Est.
      assert (Hst : st1 = mkSub (sf_hkroot (o_sub o)) (sf_mack (o_sub o)) (repeat 0 num_svns) (g_wn g) (g_tow g / 30)) by congruence.
      assert (Hrun : run_for (current_run (osnma_words h)) w = []).
      { unfold run_for. destruct (current_run (osnma_words h)) as [|r run']; [reflexivity|].
        destruct (H6 r (or_introl eq_refl)) as (Ha & Hb).
        unfold same_subframe. rewrite Ha, Hb. cbn [w w_gst]. destruct (_ && _) eqn:E2; [|reflexivity]. lia. }
      rewrite Hrun, Hst. cbn [sf_num_valid collected filter in_order length]. unfold num_svns.
      rewrite nth_error_repeat by lia. reflexivity.
    - rewrite plain_done in Est. assert (Hst : st1 = o_sub o) by congruence.
      assert (Hrun : run_for (current_run (osnma_words h)) w = current_run (osnma_words h)).
      { unfold run_for. destruct (current_run (osnma_words h)) as [|r run']; [reflexivity|].
        destruct (H6 r (or_introl eq_refl)) as (Ha & Hb).
        unfold same_subframe. rewrite Ha, Hb. cbn [w w_gst]. destruct (_ && _) eqn:E2; [reflexivity|]. lia. }
      rewrite Hrun, Hst. exact (proj1 (H7 svn Hsvn)). }
  clear H1 H2 H3 H4 H5 H6 H7 Est.
  apply says_lbind; [apply says_quiet|]. intros nv Env. rewrite plain_quiet in Env. unfold index in Env. rewrite Hnv in Env. cbn [unwrap] in Env.
  assert (nv = Z.of_nat (length (collected svn (run_for (current_run (osnma_words h)) w)))) by congruence. clear Env.
  destruct (w_index w =? nv) eqn:En; cbn [negb]; [says|].
  apply says_lbind; [|intros; apply says_done]. apply says_log. intros m Hm. unfold index in Hm. rewrite Hnv in Hm. cbn [unwrap bind] in Hm.
  injection Hm as <-. cbn [claim]. exists h, data. split; [reflexivity|]. split; [reflexivity|]. split; [reflexivity|]. fold w. lia.
Qed.

Lemma step_says h o x : Forall op_ok h -> op_ok x -> inv root user slow h o -> stores_ok o ->
  anchored root user (option_map pk_id user) h o ->
  says (claim root user (h ++ [x])) (step_log mx o x).
Proof.
  intros Hok Hx Hinv Hsto Hanc.
  assert (Hok2 : Forall op_ok (h ++ [x])).
  { apply Forall_app. split; [exact Hok|]. constructor; [exact Hx|constructor]. }
  destruct x as [word svn g b|data svn g]; cbn [step_log]; [exact (feed_inav_says mx root user _ h o word svn g b eq_refl)|].
  unfold feed_osnma_log. destruct (forallb (fun x => x =? 0) data) eqn:Ez; [apply says_done|].
  apply says_lbind.
  - intros ls (sf & r) E l m Hin.
    assert (Es : subframe_feed (o_sub o) data svn g = Ok (sf, r)).
    { rewrite <- (subframe_feed_plain mx). rewrite E. reflexivity. }
    destruct (subframe_fed root user slow h o data svn g sf r Hok Hx Hinv Ez Es) as (_ & Hrec).
    assert (Hs : says (fun m => match m with LgSubframeCompleted _ _ _ _ => True | _ => claim root user (h ++ [FeedOsnma data svn g]) m end)
                   (subframe_feed_log mx (o_sub o) data svn g)).
    { exact (subframe_feed_says h o data svn g Hok Hx (proj1 Hinv)). }
    pose proof (Hs _ _ E l m Hin) as Hc. destruct m; try exact Hc. clear Hc Hs.
    destruct (subframe_feed_line _ _ _ _ _ _ _ _ _ _ _ _ _ E Hin) as (-> & -> & g' & ->). cbn [claim].
    destruct (Hrec _ _ _ eq_refl) as (Hr & <-). exact Hr.
  - intros (sf & r) E. rewrite subframe_feed_plain in E.
    destruct (subframe_fed root user slow h o data svn g sf r Hok Hx Hinv Ez E) as (Hrest & Hrec).
    destruct r as [((hk & mk) & g')|]; [|apply says_done].
    exact (process_subframe_says HC HS mx root user slow _ _ svn g' hk mk Hok2 Hrest Hsto
      (anchored_mono _ _ _ _ _ _ Hanc) (proj1 (Hrec hk mk g' eq_refl))).
Qed.

Theorem run_says_at h ls o l m : Forall op_ok h -> run_log mx new h = Ok (ls, o) -> In (l, m) ls ->
  exists h1 x h2 ls1 o1 ls2 o2, h = h1 ++ x :: h2 /\ run_log mx new h1 = Ok (ls1, o1) /\
    step_log mx o1 x = Ok (ls2, o2) /\ In (l, m) ls2 /\ claim root user (h1 ++ [x]) m.
Proof.
  revert ls o. induction h as [|x h IH] using rev_ind; intros ls o Hok H Hin.
  { apply done_ok in H. destruct H as (-> & _). destruct Hin. }
  apply Forall_app in Hok. destruct Hok as (Hok & Hx). apply Forall_cons_iff in Hx. destruct Hx as (Hx & _).
  rewrite run_log_app in H. apply lbind_ok in H. destruct H as (l1 & o1 & l2 & E1 & E2 & ->).
  apply in_app_or in Hin. destruct Hin as [Hin|Hin].
  - destruct (IH l1 o1 Hok E1 Hin) as (h1 & y & h2 & ls1 & o2 & ls2 & o3 & -> & Hc). exists h1, y, (h2 ++ [x]), ls1, o2, ls2, o3.
    split; [now rewrite <- app_assoc|exact Hc].
  - rewrite run_log_one in E2. exists h, x, [], l1, o1, l2, o. split; [reflexivity|]. split; [exact E1|]. split; [exact E2|].
    split; [exact Hin|].
    assert (Ho : run new h = Ok o1).
    { rewrite <- (run_plain HC HS mx root user slow h Hok), E1. reflexivity. }
    exact (step_says h o1 x Hok Hx (run_inv HC HS root user slow h Hok _ Ho) (run_stores h new o1 (new_stores root user slow) Ho)
      (reachable_anchored HC HS root user slow h o1 Hok Ho) _ _ E2 _ _ Hin).
Qed.

Corollary run_says h ls o l m : Forall op_ok h -> run_log mx new h = Ok (ls, o) -> In (l, m) ls ->
  exists h1 h2, h = h1 ++ h2 /\ claim root user h1 m.
Proof.
  intros Hok H Hin. destruct (run_says_at h ls o l m Hok H Hin) as (h1 & x & h2 & _ & _ & _ & _ & E & _ & _ & _ & Hc).
  exists (h1 ++ [x]), h2. split; [now rewrite <- app_assoc|exact Hc].
Qed.
End Run.

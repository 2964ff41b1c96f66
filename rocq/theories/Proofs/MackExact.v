(** Which MACK messages are held after a history of calls. *)
From Coq Require Import ZArith List Bool Lia ZifyBool ZifyNat Sorted.
From Verif Require Import Model.Prelude Model.Params Model.Gst Model.Svn Model.Bitfields
  Model.Maclt Model.Tesla Model.Merkle Model.Subframe Model.Dsm Model.MackStore Model.Nav Model.Osnma
  Spec.TimeSpec Spec.CollectSpec Spec.StoreSpec Spec.NavSpec Spec.TeslaSpec Spec.KrootSpec
  Spec.MerkleSpec Spec.MacltSpec Spec.KeySpec Spec.SystemSpec Spec.StoredSpec Spec.CompleteSpec Spec.PanicSpec
  Proofs.Base Proofs.Ring Proofs.Rows Proofs.GstProofs Proofs.LayoutProofs Proofs.SubframeProofs Proofs.DsmProofs
  Proofs.MackProofs Proofs.NavProofs Proofs.EntryProofs Proofs.NavInv Proofs.TeslaProofs
  Proofs.KrootProofs Proofs.MackValidProofs Proofs.MerkleProofs Proofs.TagProofs Proofs.NavHistory
  Proofs.SystemProofs Proofs.GetterProofs Proofs.KeyStoreProofs Proofs.StepProofs Proofs.AlertProofs
  Proofs.StoredProofs Proofs.RecentProofs Proofs.AuthProofs Proofs.PanicProofs Proofs.TotalProofs.
Import ListNotations.
Open Scope Z_scope.
Ltac Zify.zify_post_hook ::= Z.div_mod_to_equations.

(** ** Stretches *)

Lemma stretches_concat its : concat (map snd (stretches its)) = its.
Proof.
  induction its as [|x its IH] using rev_ind; [reflexivity|]. rewrite stretches_snoc.
  destruct (stretches its) as [|(g & l) gs _] using rev_ind.
  - cbn in IH. subst its. reflexivity.
  - rewrite push_item_snoc. rewrite map_app, concat_app in IH. cbn [map concat snd] in IH. rewrite app_nil_r in IH.
    destruct (gst_eqb g (it_gst x)).
    + rewrite map_app, concat_app. cbn [map concat snd]. rewrite app_nil_r, app_assoc. now rewrite IH.
    + rewrite !map_app, !concat_app. cbn [map concat snd]. rewrite !app_nil_r. now rewrite IH.
Qed.

Lemma stretches_has its x : In x its -> exists a l, nth_error (stretches its) a = Some (it_gst x, l) /\ In x l.
Proof.
  intros Hx. rewrite <- (stretches_concat its) in Hx. apply in_concat in Hx. destruct Hx as (l & Hl & Hx).
  apply in_map_iff in Hl. destruct Hl as ((g & l') & El & Hin). cbn [snd] in El. subst l'.
  destruct (stretches_in its g l x Hin Hx) as (_ & ->). apply In_nth_error in Hin. destruct Hin as (a & Ha). exists a, l. auto.
Qed.

Lemma stretch_part its g l : In (g, l) (stretches its) -> exists a b, its = a ++ l ++ b.
Proof.
  intros H. apply in_split in H. destruct H as (g1 & g2 & E). pose proof (stretches_concat its) as Hc.
  rewrite E, map_app, concat_app in Hc. cbn [map concat snd] in Hc. eauto.
Qed.

(** ** The MACK messages of the subframes that the words complete *)

Definition push_mack (acc : list oword * list item) (w : oword) : list oword * list item :=
  (fst acc ++ [w],
   match expected_subframe (fst acc) w with
   | Some (hk, mk, g) => snd acc ++ [mkItem mk (w_svn w) g (nma_status (nth 0 hk 0))]
   | None => snd acc
   end).
Definition items_received (ws : list oword) : list item := snd (fold_left push_mack ws ([], [])).

Lemma push_mack_fst ws acc : fst (fold_left push_mack ws acc) = fst acc ++ ws.
Proof.
  revert acc. induction ws as [|w ws IH]; intros acc; cbn [fold_left]; [now rewrite app_nil_r|].
  rewrite IH. unfold push_mack. cbn [fst]. now rewrite <- app_assoc.
Qed.

Lemma items_received_snoc ws w : items_received (ws ++ [w]) =
  items_received ws ++ match expected_subframe ws w with
                       | Some (hk, mk, g) => [mkItem mk (w_svn w) g (nma_status (nth 0 hk 0))]
                       | None => []
                       end.
Proof.
  unfold items_received. rewrite fold_left_app. cbn [fold_left]. set (acc := fold_left push_mack ws ([], [])).
  unfold push_mack at 1. replace (fst acc) with ws by (unfold acc; now rewrite push_mack_fst). cbn [snd].
  destruct (expected_subframe ws w) as [((hk & mk) & g)|]; [reflexivity|now rewrite app_nil_r].
Qed.

Lemma items_received_app ws q : exists r, items_received (ws ++ q) = items_received ws ++ r.
Proof.
  induction q as [|w q (r & IH)] using rev_ind; [exists []; now rewrite !app_nil_r|].
  rewrite app_assoc, items_received_snoc, IH, <- app_assoc. eauto.
Qed.

Lemma items_split ws it : In it (items_received ws) -> exists w1 w w2 hk, ws = w1 ++ w :: w2 /\
  expected_subframe w1 w = Some (hk, it_message it, it_gst it) /\ it_svn it = w_svn w /\ it_status it = nma_status (nth 0 hk 0).
Proof.
  induction ws as [|w ws IH] using rev_ind; [intros []|]. rewrite items_received_snoc. intros H. apply in_app_or in H.
  destruct H as [H|H].
  - destruct (IH H) as (w1 & w' & w2 & hk & -> & R). exists w1, w', (w2 ++ [w]), hk. split; [now rewrite <- app_assoc|exact R].
  - destruct (expected_subframe ws w) as [((hk & mk) & g)|] eqn:Ex; [|contradiction H]. destruct H as [<-|[]].
    exists ws, w, [], hk. auto.
Qed.

Lemma expected_gst ws w hk mk g : expected_subframe ws w = Some (hk, mk, g) -> g = subframe_of (w_gst w).
Proof. unfold expected_subframe. destruct (_ && _); [|discriminate]. congruence. Qed.

(** ** In the order of the subframes *)

Definition wsub (w : oword) : Z := time_of (subframe_of (w_gst w)).
Definition words_in_order (ws : list oword) : Prop := StronglySorted (fun a b => wsub a <= wsub b) ws.

Lemma osnma_words_in x h w : In w (osnma_words (x :: h)) -> In w (osnma_words [x]) \/ In w (osnma_words h).
Proof. change (x :: h) with ([x] ++ h). rewrite osnma_words_app. apply in_app_or. Qed.

Lemma osnma_word_op h w : In w (osnma_words h) -> exists y, In y h /\ op_gst y = w_gst w.
Proof.
  unfold osnma_words. intros H. apply in_flat_map in H. destruct H as (y & Hy & Hw). exists y. split; [exact Hy|].
  destruct y as [a b c d|a b c]; [contradiction Hw|]. destruct (forallb (Z.eqb 0) a); [contradiction Hw|].
  destruct Hw as [<-|[]]. reflexivity.
Qed.

Lemma words_sorted h : in_subframe_order h -> words_in_order (osnma_words h).
Proof.
  induction h as [|x h IH] using rev_ind; intros Hord; [constructor|].
  assert (Hord' : in_subframe_order h).
  { intros i j a b Hij Ha Hb. apply (Hord i j a b Hij); (rewrite nth_error_app1; [assumption|]); apply nth_error_Some; congruence. }
  pose proof (IH Hord') as Hs. rewrite osnma_words_app. destruct x as [a b c d|a b c].
  - cbn [osnma_words flat_map]. now rewrite !app_nil_r.
  - cbn [osnma_words flat_map]. destruct (forallb (Z.eqb 0) a); cbn [app]; rewrite ?app_nil_r; [exact Hs|].
    apply sorted_snoc. split; [exact Hs|]. apply Forall_forall. intros w Hw.
    destruct (osnma_word_op h w Hw) as (y & Hy & Ey). unfold wsub. cbn [w_gst]. rewrite <- Ey.
    apply (last_time h (FeedOsnma a b c) Hord). apply in_or_app. now left.
Qed.

Lemma words_gst_ok h : Forall op_ok h -> Forall (fun w => gst_ok (w_gst w)) (osnma_words h).
Proof.
  intros Hok. apply Forall_forall. intros w Hw. destruct (osnma_word_op h w Hw) as (y & Hy & <-).
  apply op_gst_ok. rewrite Forall_forall in Hok. now apply Hok.
Qed.

Lemma same_sub a b : gst_ok a -> gst_ok b -> time_of (subframe_of a) = time_of (subframe_of b) -> same_subframe a b = true.
Proof.
  intros Ha Hb E. unfold same_subframe, subframe_of, time_of, gst_ok in *. cbn [g_wn g_tow] in *. lia.
Qed.

Definition item_key (i : item) : gst * Z := (it_gst i, it_svn i).

Lemma items_nodup ws : words_in_order ws -> Forall (fun w => gst_ok (w_gst w)) ws -> NoDup (map item_key (items_received ws)).
Proof.
  induction ws as [|w ws IH] using rev_ind; intros Hs Hok; [constructor|].
  apply sorted_snoc in Hs. destruct Hs as (Hs & Hlast). apply Forall_app in Hok. destruct Hok as (Hok & Hw).
  apply Forall_cons_iff in Hw. destruct Hw as (Hw & _). rewrite items_received_snoc.
  destruct (expected_subframe ws w) as [((hk & mk) & g)|] eqn:Ex; [|rewrite app_nil_r; now apply IH].
  rewrite map_app. change (map item_key [mkItem mk (w_svn w) g (nma_status (nth 0 hk 0))]) with [(g, w_svn w)].
  assert (Hnot : ~ In (g, w_svn w) (map item_key (items_received ws))).
  { intros Hin. apply in_map_iff in Hin. destruct Hin as (it & Ek & Hin). unfold item_key in Ek.
    assert (E1 : it_gst it = g) by congruence. assert (E2 : it_svn it = w_svn w) by congruence.
    destruct (items_split ws it Hin) as (w1 & w' & w2 & hk' & -> & Ex' & Es & _).
    pose proof (expected_gst _ _ _ _ _ Ex) as Eg. pose proof (expected_gst _ _ _ _ _ Ex') as Eg'.
    rewrite Forall_forall in Hlast, Hok.
    assert (Hw' : gst_ok (w_gst w')) by (apply Hok; apply in_or_app; right; now left).
    assert (Hww' : wsub w' = wsub w) by (unfold wsub; now rewrite <- Eg, <- Eg', E1).
    assert (Hnone : expected_subframe (w1 ++ w' :: w2) w = None).
    { apply expected_subframe_once.
      - congruence.
      - intros y Hy. apply same_sub; [apply Hok; apply in_or_app; right; now right|exact Hw|]. fold (wsub y) (wsub w).
        assert (Hy1 : wsub w' <= wsub y).
        { clear - Hs Hy. induction w1 as [|a w1 IH]; cbn [app] in Hs; apply StronglySorted_inv in Hs; destruct Hs as (Hs & Hf); [|auto].
          rewrite Forall_forall in Hf. now apply Hf. }
        assert (Hy2 : wsub y <= wsub w) by (apply Hlast; apply in_or_app; right; now right). lia.
      - apply same_sub; [exact Hw'|exact Hw|exact Hww'].
      - congruence. }
    congruence. }
  specialize (IH Hs Hok). revert IH Hnot. generalize (map item_key (items_received ws)) (g, w_svn w). clear. intros l k IH Hnot.
  induction l as [|a l IHl]; cbn [app].
  - constructor; [auto|constructor].
  - apply NoDup_cons_iff in IH. destruct IH as (Ha & Hl). constructor.
    + intros Hin. apply in_app_or in Hin. destruct Hin as [Hin|[->|[]]]; [now apply Ha|]. apply Hnot. now left.
    + apply IHl; [exact Hl|intros Hin; apply Hnot; now right].
Qed.

Lemma items_ordered ws : words_in_order ws -> Forall (fun w => gst_ok (w_gst w)) ws ->
  forall g, Forall (fun w => wsub w <= time_of g) ws -> ordered g (stretches (items_received ws)).
Proof.
  induction ws as [|w ws IH] using rev_ind; intros Hs Hok g Hg.
  - split; [constructor|]. split; constructor.
  - apply sorted_snoc in Hs. destruct Hs as (Hs & Hlast). apply Forall_app in Hok. destruct Hok as (Hok & Hw).
    apply Forall_cons_iff in Hw. destruct Hw as (Hw & _). apply Forall_app in Hg. destruct Hg as (Hg & Hgw).
    apply Forall_cons_iff in Hgw. destruct Hgw as (Hgw & _). rewrite items_received_snoc.
    destruct (expected_subframe ws w) as [((hk & mk) & g')|] eqn:Ex; [|rewrite app_nil_r; now apply IH].
    pose proof (expected_gst _ _ _ _ _ Ex) as Eg. rewrite stretches_snoc.
    destruct (subframe_of_ok (w_gst w) Hw) as (S1 & S2).
    assert (Hi : ordered g' (stretches (items_received ws))) by (rewrite Eg; apply (IH Hs Hok); exact Hlast).
    pose proof (push_ordered (stretches (items_received ws)) (mkItem mk (w_svn w) g' (nma_status (nth 0 hk 0)))) as Hp.
    cbn [it_gst] in Hp. rewrite Eg in Hp. rewrite Eg in Hi. specialize (Hp S1 S2 Hi). rewrite <- Eg in Hp.
    destruct Hp as (P1 & P2 & P3). split; [exact P1|]. split; [exact P2|]. eapply Forall_impl; [|exact P3].
    intros a Ha. cbn beta in Ha |- *. unfold wsub in Hgw. rewrite <- Eg in Hgw. lia.
Qed.

Lemma stretch_svns ws g l : words_in_order ws -> Forall (fun w => gst_ok (w_gst w)) ws ->
  In (g, l) (stretches (items_received ws)) -> NoDup (map it_svn l).
Proof.
  intros Hs Hok Hin. pose proof (items_nodup ws Hs Hok) as Hnd.
  destruct (stretch_part _ _ _ Hin) as (a & b & E). rewrite E, !map_app in Hnd.
  assert (Hl : NoDup (map item_key l)).
  { clear - Hnd. induction (map item_key a) as [|x m IH]; cbn [app] in Hnd; [|apply NoDup_cons_iff in Hnd; apply IH, Hnd].
    revert Hnd. generalize (map item_key l) (map item_key b). clear. intros l b.
    induction l as [|x l IH]; intros Hnd; [constructor|]. cbn [app] in Hnd. apply NoDup_cons_iff in Hnd. destruct Hnd as (H1 & H2).
    constructor; [|now apply IH]. intros Hx. apply H1. apply in_or_app. now left. }
  assert (Hg : forall x, In x l -> it_gst x = g) by (intros x Hx; apply (stretches_in _ _ _ _ Hin Hx)).
  clear - Hl Hg. induction l as [|x l IH]; [constructor|]. cbn [map] in *. apply NoDup_cons_iff in Hl. destruct Hl as (H1 & H2).
  constructor; [|apply IH; [exact H2|intros y Hy; apply Hg; now right]].
  intros Hin. apply H1. apply in_map_iff in Hin. destruct Hin as (y & Ey & Hy). apply in_map_iff. exists y. split; [|exact Hy].
  unfold item_key. rewrite (Hg y), (Hg x), Ey by (cbn; auto). reflexivity.
Qed.

Lemma nodup_range (l : list Z) n : NoDup l -> (forall x, In x l -> 1 <= x <= Z.of_nat n) -> (length l <= n)%nat.
Proof.
  intros Hnd Hr. rewrite <- (seq_length n 1), <- (map_length Z.of_nat). apply NoDup_incl_length; [exact Hnd|].
  intros x Hx. apply in_map_iff. exists (Z.to_nat x). specialize (Hr x Hx). split; [lia|]. apply in_seq. lia.
Qed.

Section Storage.
Context {S : storage}.
Hypothesis HS : storage_ok S.

Lemma find_item_unique l it : NoDup (map it_svn l) -> (length l <= num_sats)%nat -> In it l ->
  find_item (it_svn it) l = Some (it_message it, it_status it).
Proof.
  intros Hnd Hl Hin. unfold find_item. rewrite firstn_all2 by exact Hl.
  destruct (find (fun x => it_svn x =? it_svn it) l) as [y|] eqn:E.
  - apply find_some in E. destruct E as (Hy & Ey). assert (it_svn y = it_svn it) by lia.
    assert (y = it).
    { clear - Hnd Hin Hy H. induction l as [|a l IH]; [contradiction Hin|]. cbn [map] in Hnd. apply NoDup_cons_iff in Hnd.
      destruct Hnd as (N1 & N2). destruct Hin as [<-|Hin], Hy as [<-|Hy]; [reflexivity| | |auto].
      - elim N1. rewrite <- H. now apply in_map.
      - elim N1. rewrite H. now apply in_map. }
    subst y. reflexivity.
  - pose proof (find_none _ _ E it Hin) as Hf. cbn beta in Hf. lia.
Qed.

Section Crypto.
Context {C : crypto} {B : build}.
Hypothesis HC : crypto_ok C.
Variables (root : option (list Z)) (user : option public_key) (slow : bool).
Notation new := (osnma_new root user slow).

Definition exact_mack (h : list op) (o : osnma) : Prop :=
  represents_ms (stretches (items_received (osnma_words h))) (o_mack o).

Lemma step_exact_mack h o x o' : Forall op_ok (h ++ [x]) -> run new h = Ok o -> exact_mack h o ->
  step o x = Ok o' -> exact_mack (h ++ [x]) o'.
Proof.
  intros Hok Hrun Hm H. pose proof Hok as Hok'. apply Forall_app in Hok. destruct Hok as (Hok & Hx).
  pose proof (run_inv HC HS root user slow h Hok _ Hrun) as Hinv. destruct (run_exact_dsm HC HS root user slow h Hok o Hrun) as (Hd1 & Hd2).
  apply Forall_cons_iff in Hx. destruct Hx as (Hx & _). unfold exact_mack. rewrite osnma_words_app.
  destruct x as [word svn g b|data svn g]; cbn [step] in H.
  - cbn [osnma_words flat_map]. rewrite !app_nil_r. unfold feed_inav in H. bind_inv H. injection H as <-. exact Hm.
  - cbn [osnma_words flat_map]. destruct (forallb (Z.eqb 0) data) eqn:Ez.
    + rewrite !app_nil_r. unfold feed_osnma in H.
      replace (forallb (fun x => x =? 0) data) with (forallb (Z.eqb 0) data) in H.
      2: { clear. induction data as [|x l IH]; cbn [forallb]; [reflexivity|]. now rewrite IH, Z.eqb_sym. }
      rewrite Ez in H. injection H as <-. exact Hm.
    + rewrite app_nil_r. rewrite items_received_snoc.
      destruct (feed_osnma_unroll root user slow h o data svn g Hok Hx Hinv Ez) as (sf & S1 & S2 & S3). rewrite S3 in H.
      destruct (expected_subframe (osnma_words h) (mkWord data svn g)) as [((hk & mk) & g')|] eqn:Ex.
      * pose proof (completes_received h data svn g hk mk g' Ez Ex) as Hrec.
        destruct (subframe_unroll HS root user slow _ _ _ _ _ _ Hok' S2 Hrec (blocks_received (osnma_words h)) Hd1 Hd2)
          as (ms & cd & d & Em & _ & _ & _ & _ & Ep). rewrite Ep in H. bind_inv H.
        assert (Ems : o_mack x = ms).
        { destruct d as [m|]; [now apply process_dsm_mack in E|]. now injection E as <-. }
        rewrite (validate_key_mack _ _ _ _ H), Ems. cbn [w_svn]. rewrite stretches_snoc.
        destruct (store_item_spec HS _ _ (mkItem mk svn g' (nma_status (nth 0 hk 0))) Hm) as (st' & Est & Hrep).
        unfold store_item in Est. cbn [it_message it_svn it_gst it_status set_sub o_mack] in Est, Em. congruence.
      * injection H as <-. rewrite app_nil_r. exact Hm.
Qed.

Lemma run_exact_mack h : Forall op_ok h -> forall o, run new h = Ok o -> exact_mack h o.
Proof.
  induction h as [|x h IH] using rev_ind; intros Hok o H.
  - injection H as <-. apply (represents_ms_new HS).
  - rewrite run_snoc in H. bind_inv H. pose proof Hok as Hok'. apply Forall_app in Hok. destruct Hok as (Hok & _).
    eapply step_exact_mack; [exact Hok'|exact E|now apply IH|exact H].
Qed.

(** The MACK message of a complete subframe is held until [mack_depth] subframes later. *)
Theorem mack_held h o p data prna gk q hk mk gm : Forall op_ok h -> in_subframe_order h -> run new h = Ok o ->
  room_for (map op_svn h) ->
  h = p ++ FeedOsnma data prna gk :: q -> completes p (FeedOsnma data prna gk) hk mk gm ->
  (forall y, In y h -> time_of (subframe_of (op_gst y)) < time_of gm + 30 * Z.of_nat mack_depth) ->
  mack_get (o_mack o) prna gm = Ok (Some (mk, nma_status (nth 0 hk 0))).
Proof.
  intros Hok Hord Hrun (sats & Hsats & Hroom) Eh (d & s & gk' & Ex & Hz & Hexp) Hlast.
  assert (d = data /\ s = prna /\ gk' = gk) as (-> & -> & ->) by (repeat split; congruence). clear Ex.
  pose proof (words_sorted h Hord) as Hs. pose proof (words_gst_ok h Hok) as Hgok.
  set (it := mkItem mk prna gm (nma_status (nth 0 hk 0))).
  assert (Hit : In it (items_received (osnma_words h))).
  { rewrite Eh. replace (p ++ FeedOsnma data prna gk :: q) with ((p ++ [FeedOsnma data prna gk]) ++ q) by (now rewrite <- app_assoc).
    rewrite osnma_words_app. destruct (items_received_app (osnma_words (p ++ [FeedOsnma data prna gk])) (osnma_words q)) as (r & ->).
    apply in_or_app. left. rewrite osnma_words_app. cbn [osnma_words flat_map]. rewrite Hz. cbn [app].
    rewrite items_received_snoc, Hexp. apply in_or_app. right. left. reflexivity. }
  destruct (stretches_has _ _ Hit) as (a & l & Ha & Hl). cbn [it it_gst] in Ha.
  set (gl := mkGst (g_wn gm) (g_tow gm + 30 * (Z.of_nat mack_depth - 1))).
  assert (Htl : time_of gl = time_of gm + 30 * (Z.of_nat mack_depth - 1)) by (unfold gl, time_of; cbn [g_wn g_tow]; lia).
  pose proof (expected_gst _ _ _ _ _ Hexp) as Egm. cbn [w_gst] in Egm.
  assert (Hgmok : gst_ok gm /\ is_subframe gm = true).
  { rewrite Egm. apply subframe_of_ok. rewrite Forall_forall in Hok. apply (op_gst_ok (FeedOsnma data prna gk)). apply Hok.
    rewrite Eh. apply in_or_app. right. now left. }
  destruct (ms_sizes HS) as (_ & Hd & _).
  assert (Hord' : ordered gl (stretches (items_received (osnma_words h)))).
  { apply items_ordered; [exact Hs|exact Hgok|]. apply Forall_forall. intros w Hw.
    destruct (osnma_word_op h w Hw) as (y & Hy & Ey). pose proof (Hlast y Hy) as Hy'. unfold wsub. rewrite <- Ey.
    rewrite Htl. rewrite Forall_forall in Hok. pose proof (op_gst_ok y (Hok y Hy)) as Hyok.
    destruct (subframe_of_ok _ Hyok) as (Y1 & Y2). destruct Hgmok as (G1 & G2).
    unfold is_subframe, secs_per_subframe in Y2, G2. clear - Y2 G2 Hy'. unfold time_of in *. lia. }
  assert (Hnd : NoDup (map it_svn l)) by (apply (stretch_svns _ gm l Hs Hgok); eapply nth_error_In; exact Ha).
  assert (Hlen : (length l <= num_sats)%nat).
  { rewrite <- (map_length it_svn). apply Nat.le_trans with (length sats); [|exact Hsats]. apply NoDup_incl_length; [exact Hnd|].
    intros x Hx. apply in_map_iff in Hx. destruct Hx as (y & <- & Hy).
    destruct (stretches_in _ _ _ _ (nth_error_In _ _ Ha) Hy) as (Hy' & _).
    destruct (items_split _ _ Hy') as (w1 & w & w2 & hk' & Ew & _ & -> & _).
    assert (Hw : In w (osnma_words h)) by (rewrite Ew; apply in_or_app; right; now left).
    unfold osnma_words in Hw. apply in_flat_map in Hw. destruct Hw as (z & Hz' & Hw). pose proof (Hroom _ (in_map op_svn _ _ Hz')) as Hzok.
    destruct z as [z1 z2 z3 z4|z1 z2 z3]; [contradiction Hw|]. destruct (forallb (Z.eqb 0) z1); [contradiction Hw|].
    destruct Hw as [<-|[]]. exact Hzok. }
  rewrite (mack_get_unique HS _ _ prna gm a l (run_exact_mack h Hok o Hrun) Ha).
  - pose proof (find_item_unique l it Hnd Hlen Hl) as Hf. cbn [it it_svn it_message it_status] in Hf. now rewrite Hf.
  - destruct (Nat.le_gt_cases (length (stretches (items_received (osnma_words h)))) (a + mack_depth)) as [Hle|Hgt]; [exact Hle|exfalso].
    destruct (nth_error (stretches (items_received (osnma_words h))) (a + mack_depth)) as [(gz & lz)|] eqn:Ez;
      [|apply nth_error_None in Ez; lia].
    pose proof (ordered_step _ _ a (a + mack_depth) _ _ Hord' Ha Ez ltac:(lia)) as Hst. cbn [fst] in Hst.
    destruct Hord' as (_ & _ & Hall). rewrite Forall_forall in Hall. pose proof (Hall _ (nth_error_In _ _ Ez)) as Hz2. cbn [fst] in Hz2. lia.
  - intros b l' Hb. destruct Hord' as (Hss & _). destruct (Nat.lt_trichotomy a b) as [Hab|[Hab|Hab]]; [|auto|].
    + pose proof (sorted_nth _ _ Hss a b _ _ Hab Ha Hb) as Hx. unfold before in Hx. cbn [fst] in Hx. lia.
    + pose proof (sorted_nth _ _ Hss b a _ _ Hab Hb Ha) as Hx. unfold before in Hx. cbn [fst] in Hx. lia.
Qed.

End Crypto.
End Storage.

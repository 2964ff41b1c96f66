(** The data of a receiver of a transmission, whatever it has received before. *)
From Coq Require Import ZArith List Bool Lia ZifyBool ZifyNat.
From Verif Require Import Model.Prelude Model.Params Model.Gst Model.Svn Model.Bitfields
  Model.Maclt Model.Tesla Model.Merkle Model.Subframe Model.Dsm Model.MackStore Model.Nav Model.Osnma
  Spec.TimeSpec Spec.CollectSpec Spec.StoreSpec Spec.NavSpec Spec.TeslaSpec Spec.KrootSpec
  Spec.MerkleSpec Spec.MacltSpec Spec.KeySpec Spec.SystemSpec Spec.StoredSpec Spec.CompleteSpec Spec.PanicSpec
  Spec.HonestSpec Spec.RecoverSpec
  Proofs.Base Proofs.Ring Proofs.Rows Proofs.GstProofs Proofs.LayoutProofs Proofs.SubframeProofs Proofs.DsmProofs
  Proofs.MackProofs Proofs.NavProofs Proofs.EntryProofs Proofs.NavInv Proofs.TeslaProofs
  Proofs.KrootProofs Proofs.MackValidProofs Proofs.MerkleProofs Proofs.TagProofs Proofs.NavHistory
  Proofs.SystemProofs Proofs.GetterProofs Proofs.KeyStoreProofs Proofs.StepProofs Proofs.AlertProofs Proofs.AuthProofs
  Proofs.StoredProofs Proofs.PanicProofs Proofs.TotalProofs Proofs.MackExact Proofs.NavKeep Proofs.HonestKeys Proofs.HonestProofs
  Proofs.RecoverKeys.
Import ListNotations.
Open Scope Z_scope.
Ltac Zify.zify_post_hook ::= Z.div_mod_to_equations.

(** ** A DSM that is complete is not collected again *)

Lemma collected_again l b id d : dsm_run l <> [] -> (forall y, In y (dsm_run l) -> b_dsm y = id) -> complete_dsm id (dsm_run l) = Some d ->
  b_dsm b = id -> expected_dsm l b = None /\
  dsm_run (l ++ [b]) <> [] /\ (forall y, In y (dsm_run (l ++ [b])) -> b_dsm y = id) /\ complete_dsm id (dsm_run (l ++ [b])) = Some d.
Proof.
  intros Hne Hid Hd Hb.
  assert (E : dsm_run_for (dsm_run l) b = dsm_run l).
  { unfold dsm_run_for. destruct (dsm_run l) as [|y r] eqn:El; [reflexivity|]. rewrite (Hid y (or_introl eq_refl)), Hb, Z.eqb_refl. reflexivity. }
  assert (En : expected_dsm l b = None) by (unfold expected_dsm; rewrite E, Hb, Hd; reflexivity).
  split; [exact En|]. rewrite dsm_run_snoc, E. split; [destruct (dsm_run l); discriminate|]. split.
  - intros y Hy. apply in_app_or in Hy. destruct Hy as [Hy|[<-|[]]]; auto.
  - now apply complete_snoc.
Qed.

Lemma collected_done l b id pkr d : expected_dsm l b = Some (id, pkr, d) ->
  dsm_run (l ++ [b]) <> [] /\ (forall y, In y (dsm_run (l ++ [b])) -> b_dsm y = id) /\ complete_dsm id (dsm_run (l ++ [b])) = Some d.
Proof.
  unfold expected_dsm. rewrite dsm_run_snoc. intros H.
  destruct (complete_dsm (b_dsm b) (dsm_run_for (dsm_run l) b)); [discriminate|].
  destruct (complete_dsm (b_dsm b) (dsm_run_for (dsm_run l) b ++ [b])) as [d'|] eqn:E; [|discriminate].
  assert (b_dsm b = id /\ d' = d) as (<- & <-) by (split; congruence).
  split; [intros Hn; destruct (dsm_run_for (dsm_run l) b); discriminate|]. split; [|exact E].
  intros y Hy. apply in_app_or in Hy. destruct Hy as [Hy|[<-|[]]]; [|reflexivity]. apply (dsm_run_for_in l b y Hy).
Qed.

Lemma collected_stays l b id pkr d r : expected_dsm l b = Some (id, pkr, d) -> (forall y, In y r -> b_dsm y = id) ->
  dsm_run (l ++ b :: r) <> [] /\ (forall y, In y (dsm_run (l ++ b :: r)) -> b_dsm y = id) /\ complete_dsm id (dsm_run (l ++ b :: r)) = Some d.
Proof.
  intros H. induction r as [|y r IH] using rev_ind; intros Hr; [exact (collected_done l b id pkr d H)|].
  destruct IH as (H1 & H2 & H3); [intros z Hz; apply Hr; apply in_or_app; now left|].
  replace (l ++ b :: r ++ [y]) with ((l ++ b :: r) ++ [y]) by (now rewrite <- app_assoc).
  apply (collected_again _ y id d H1 H2 H3). apply Hr. apply in_or_app. right. now left.
Qed.

Section Crypto.
Context {C : crypto} {B : build} {S : storage}.
Hypothesis HC : crypto_ok C.
Hypothesis HS : storage_ok S.
Variables (root : option (list Z)) (user : option public_key) (slow : bool).
Notation new := (osnma_new root user slow).

(** The data is kept through the calls [q]. *)
Lemma kept_calls q : forall h o o' k svn bits gn j e, room_for (map op_svn (h ++ q)) -> Forall op_ok (h ++ q) -> in_subframe_order (h ++ q) ->
  run new h = Ok o -> run new (h ++ q) = Ok o' -> kept k svn bits gn (o_nav o) j e ->
  (forall y, In y q -> time_of gn < time_of (subframe_of (op_gst y)) < time_of gn + 30 * Z.of_nat nav_depth) ->
  exists j' e', kept k svn bits gn (o_nav o') j' e' /\ e_authbits e <= e_authbits e' /\
    (rows_same k svn bits (o_nav o) j -> repeats k svn bits (inav_words q) -> rows_same k svn bits (o_nav o') j').
Proof.
  induction q as [|x q IH] using rev_ind; intros h o o' k svn bits gn j e Hroom Hok Hord Hr Hr' Hk Hq.
  - rewrite app_nil_r in Hr'. assert (o' = o) by congruence. subst o'. exists j, e. split; [exact Hk|]. split; [lia|auto].
  - rewrite app_assoc in *. pose proof (proj1 (proj1 (Forall_app _ _ _) Hok)) as Hok1.
    destruct (run_last root user slow _ _ _ Hr') as (o1 & Hr1 & Hs).
    destruct (IH h o o1 k svn bits gn j e (room_calls _ _ Hroom) Hok1 (order_prefix _ _ Hord) Hr Hr1 Hk) as (j1 & e1 & Hk1 & Ha1 & Hs1).
    { intros y Hy. apply Hq. apply in_or_app. now left. }
    destruct (kept_step HS HC root user slow _ o1 x o' k svn bits gn j1 e1 Hroom Hok Hord Hr1 Hs Hk1) as (j2 & e2 & Hk2 & Ha2 & Hs2).
    { apply Hq. apply in_or_app. right. now left. }
    exists j2, e2. split; [exact Hk2|]. split; [lia|].
    intros Hsame Hrep. rewrite inav_words_snoc in Hrep. apply repeats_app in Hrep. apply Hs2; [apply Hs1|]; tauto.
Qed.

(** A receiver without a key does not get one while the blocks received are of the DSM that it has
    completed last. *)
Theorem same_dsm_no_key q : forall h0 o0 o b1 b b2 id pkr d,
  Forall op_ok (h0 ++ q) -> run new h0 = Ok o0 -> current_key (o_keys o0) = None ->
  blocks_received (osnma_words h0) = b1 ++ b :: b2 -> expected_dsm b1 b = Some (id, pkr, d) ->
  (forall c, In c (b2 ++ blocks_after h0 q) -> b_dsm c = id) ->
  run new (h0 ++ q) = Ok o -> o_keys o = o_keys o0.
Proof.
  induction q as [|x q IH] using rev_ind; intros h0 o0 o b1 b b2 id pkr d Hok Hr0 HK Eb Hx Hid Hr.
  - rewrite app_nil_r in Hr. congruence.
  - rewrite app_assoc in Hok, Hr. destruct (run_last root user slow _ _ _ Hr) as (o1 & Hr1 & Hs).
    pose proof (proj1 (proj1 (Forall_app _ _ _) Hok)) as Hok1.
    destruct (after_blocks_app h0 q [x]) as (bl & Ebl).
    assert (E1 : o_keys o1 = o_keys o0).
    { apply (IH h0 o0 o1 b1 b b2 id pkr d Hok1 Hr0 HK Eb Hx); [|exact Hr1].
      intros c Hc. apply Hid. rewrite Ebl. apply in_app_or in Hc. apply in_or_app. destruct Hc; [now left|right; apply in_or_app; now left]. }
    destruct (after_blocks_snoc h0 q x) as [(_ & Hn)|(hk & mk & g & Hc & Ebx)].
    { pose proof (step_not_completing HC HS root user slow (h0 ++ q) o1 x o Hok Hr1 Hn Hs) as (_ & _ & T3). congruence. }
    destruct (completed_as_model HC HS root user slow (h0 ++ q) o1 x hk mk g Hok Hr1 Hc)
      as (sf & svn & ms & cd & m & Hrec & Hrest & Ef & Hd & Hnone & Es).
    assert (Hno : completed_dsm (h0 ++ q) hk = None).
    { unfold completed_dsm. pose proof (after_blocks h0 q) as Eq. unfold received_blocks in Eq. rewrite Eq, Eb, <- app_assoc. cbn [app].
      destruct (collected_stays b1 b id pkr d (b2 ++ blocks_after h0 q) Hx) as (D1 & D2 & D3).
      { intros y Hy. apply Hid. rewrite Ebx. apply in_app_or in Hy. apply in_or_app. destruct Hy; [now left|right; apply in_or_app; now left]. }
      destruct (collected_again _ (block_of hk) id d D1 D2 D3) as (-> & _); [|reflexivity].
      apply Hid. rewrite Ebx. apply in_or_app. right. apply in_or_app. right. now left. }
    destruct m as [m|].
    { destruct (Hd m eq_refl) as (Hcm & _). congruence. }
    rewrite Es in Hs. cbn [bind] in Hs. apply validate_key_effect in Hs.
    destruct Hs as [->|cur key ks Hcur]; [exact E1|]. exfalso. cbn [set_dsm set_mack set_sub o_keys] in Hcur. congruence.
Qed.

Variables (pk : public_key) (t : transmission).
Hypothesis Ht : transmission_ok pk t.
Variables (h0 : list op) (o0 : osnma).
Hypothesis Hr0 : run new h0 = Ok o0.
Hypothesis Hok0 : Forall op_ok h0.

(** A call that brings the key up to [g] authenticates the data. *)
Lemma after_authenticates h o x o' k svn bits gn gm g delay adkd cop tag prna hk1 mk1 j e :
  Forall op_ok ((h0 ++ h) ++ [x]) -> in_subframe_order ((h0 ++ h) ++ [x]) -> prepared pk t root h0 o0 (h ++ [x]) ->
  run new (h0 ++ h) = Ok o -> step o x = Ok o' -> after_fired t (blocks_after h0 h) ->
  (forall c g0, ks_cif (o_keys o) = Some c -> cif_cid c = ch_id (tr_chain t) -> cif_start c = Some g0 -> gst_ok g0 /\ time_of g0 <= time_of gm) ->
  kept k svn bits gn (o_nav o) j e -> 1 <= svn <= 36 -> 1 <= prna <= 36 ->
  adkd_means adkd k delay -> (slow = true -> adkd = 12) -> 0 < cop < 16 -> (40 <= length tag)%nat ->
  gst_ok gm -> gst_ok g -> time_of gm = time_of gn + 30 -> time_of g = time_of gm + delay ->
  (delay < 30 * Z.of_nat mack_depth) -> (exists m, (1 <= m)%nat /\ time_of gm = tr_start t + 30 * Z.of_nat m) ->
  length mk1 = 60%nat -> mack_get (o_mack o) prna gm = Ok (Some (mk1, status_of hk1)) ->
  tag_transmitted t hk1 mk1 prna gm delay svn adkd cop bits tag ->
  (forall K, current_key (o_keys o) = Some K -> time_of (k_gst K) < time_of g) ->
  time_of (subframe_of (op_gst x)) <= time_of g ->
  forall K', current_key (o_keys o') = Some K' -> time_of g <= time_of (k_gst K') ->
  exists e', kept k svn bits gn (o_nav o') j e' /\ 40 <= e_authbits e'.
Proof.
  intros Hok Hord HP Hr Hs Hf Hsince Hk Hsvn Hprna Hadkd Hslow Hcop Htag Hgm Hg Egm Eg Hmd (m & Hm & Em) Hl1 Hget Htx Hbefore Hle K' HK' HgK'.
  pose proof (proj1 (proj1 (Forall_app _ _ _) Hok)) as Hok1.
  destruct (after_inv HC HS pk t Ht root user slow h0 o0 Hr0 Hok0 h Hok1 (prepared_app pk t root h0 o0 h [x] HP) o Hr) as (Hinv & _).
  destruct (after_step HC HS pk t Ht root user slow h0 o0 h o x o' Hok HP Hr Hinv Hs) as (_ & _ & _ & Hcase).
  pose proof (proj2 (proj2 (proj2 Hinv)) Hf) as Hfo. pose proof Hfo as (K & c & HK & Hci & Hcf & Hic).
  destruct Hcase as [(_ & Ek)|(hk & mk & g' & ks & Hc & Hkt & Hss & _ & _ & Hcur & HkK)].
  { rewrite Ek in HK'. specialize (Hbefore K' HK'). lia. }
  specialize (Hcur Hfo). rewrite HK in Hcur. destruct (HkK K Hcur Hci) as (R1 & R2).
  assert (Hg' : g' = subframe_of (op_gst x)).
  { destruct Hc as (data & s & gk & -> & _ & Hx). unfold expected_subframe in Hx.
    destruct (_ && _); [|discriminate]. cbn [w_gst op_gst] in *. congruence. }
  assert (Hxok : op_ok x) by (apply Forall_app in Hok; destruct Hok as (_ & Hx); now apply Forall_cons_iff in Hx).
  assert (Hdel : delay = 30 \/ delay = 330) by (destruct Hadkd as [(_ & _ & ?)|[(_ & _ & ?)|(_ & _ & ?)]]; auto).
  pose proof (Hbefore K HK) as HKlt.
  assert (Hlt : time_of (k_gst K) < time_of g' <= time_of (k_gst K) + 90000).
  { destruct (within_gap (time_of (k_gst K)) (time_of g')) as [|Hge]; [assumption|]. rewrite (R2 Hge), Hcur in HK'.
    assert (K' = K) by congruence. subst K'. lia. }
  destruct (R1 Hlt) as (Hdis & K1 & HK1 & EK1). assert (K1 = K') by congruence. subst K1.
  rewrite EK1 in HgK'. rewrite <- Hg' in Hle.
  assert (g' = g).
  { apply time_of_inj; [|exact Hg|lia]. rewrite Hg'. apply subframe_of_ok. now apply op_gst_ok. }
  clear Hg' R1 R2 EK1. subst g'.
  pose proof Hk as (Hj & Hgn & Hst & Hb & Hage).
  destruct Htx as (Hstat & Hvalid & Hintag).
  pose proof (pr_honest _ _ _ _ _ _ HP h x [] _ _ _ eq_refl Hc) as (_ & (n & Hn & En) & _).
  assert (Hkb : key_bytes (tr_tkey t g) = tr_key t (time_of g)) by (apply (tr_tkey_bytes pk t Ht g n Hn En)).
  assert (Hres : exists e', stored k (o_nav o') j svn e' /\ data_of k e' = data_of k e /\
            Z.min 65535 (e_authbits e + Z.of_nat (length tag)) <= e_authbits e').
  { destruct Hdel as [-> | ->].
    - assert (Hsl : slow = false).
      { destruct slow; [|reflexivity]. rewrite (Hslow eq_refl) in Hadkd.
        destruct Hadkd as [(? & _)|[(? & _)|(_ & _ & ?)]]; discriminate. }
      destruct (tag_authenticates HS HC root user slow (h0 ++ h) o x o' hk mk g ks K (tr_tkey t g) prna gm j gn e k svn adkd cop tag)
        as (Hres & _); auto; try lia.
      exists mk1, (status_of hk1). split; [exact Hprna|]. split; [exact Hl1|]. split; [exact Hget|]. split; [exact Hstat|].
      cbn [tr_tkey k_chain]. rewrite Hkb. rewrite Eg, Hb. auto.
    - assert (Hk12 : adkd = 12 /\ k = Ced) by (destruct Hadkd as [(_ & _ & ?)|[(_ & _ & ?)|(? & ? & _)]]; try discriminate; auto).
      destruct Hk12 as (-> & ->).
      destruct (slow_tag_authenticates HS HC root user slow (h0 ++ h) o x o' hk mk g ks K (tr_tkey t g) (tr_key t (time_of gm + 30)) prna gm j gn e svn cop tag)
        as (Hres & _); auto; try lia.
      + intros c' g0 Ec Es. destruct (Hss c Hcf Hic) as (c1 & Hc1 & _ & Hor). assert (c1 = c') by congruence. subst c1.
        destruct Hor as [Hor|Hor]; [|congruence]. destruct (Hsince c g0 Hcf Hic ltac:(congruence)) as (Q1 & Q2). split; [exact Q1|lia].
      + rewrite Hkb. cbn [tr_tkey k_chain]. pose proof (keys_lead_back pk t Ht (m + 1) 10) as Hlb.
        replace (time_of gm + 30) with (tr_start t + 30 * Z.of_nat (m + 1)) by lia.
        replace (time_of g) with (tr_start t + 30 * Z.of_nat (m + 1 + 10)) by lia. apply Hlb. lia.
      + exists mk1, (status_of hk1). split; [exact Hprna|]. split; [exact Hl1|]. split; [exact Hget|]. split; [exact Hstat|].
        cbn [tr_tkey k_chain]. rewrite Hkb, Eg, Hb. auto. }
  destruct Hres as (e' & He' & Hd' & Ha').
  assert (Hgrow : nav_grown (o_nav o) (o_nav o')).
  { destruct Hc as (data & s & gk & -> & _). cbn [step] in Hs. now apply feed_osnma_grown in Hs. }
  pose proof (stored_entry_ok HS HC root user slow (h0 ++ h) o k j svn e Hok1 Hr Hj Hst) as [_ _ _ Hab _ _].
  destruct (grown_kept k svn bits gn _ _ j e Hgrow Hk ltac:(lia)) as (e2 & Hk2 & _).
  assert (e2 = e').
  { pose proof Hk2 as (_ & _ & Hst2 & _).
    pose proof (reach_has HC HS root user slow _ _ Hok (run_step root user slow _ _ _ _ Hr Hs)) as Hnav.
    apply (nav_has_stored HS _ _ _ _ _ Hnav Hj) in Hst2, He'. congruence. }
  subst e2. exists e'. split; [exact Hk2|]. lia.
Qed.

(** Through the calls up to the subframe [g] of the key. *)
Lemma after_authenticates_run q : forall h k svn bits gn gm g delay adkd cop tag p0 data prna gk q0 hk1 mk1 o o' j e,
  room_for (map op_svn (h0 ++ h ++ q)) -> Forall op_ok (h0 ++ h ++ q) -> in_subframe_order (h0 ++ h ++ q) -> prepared pk t root h0 o0 (h ++ q) ->
  run new (h0 ++ h) = Ok o -> run new (h0 ++ h ++ q) = Ok o' -> after_fired t (blocks_after h0 h) ->
  (forall c g0, ks_cif (o_keys o) = Some c -> cif_cid c = ch_id (tr_chain t) -> cif_start c = Some g0 -> gst_ok g0 /\ time_of g0 <= time_of gm) ->
  kept k svn bits gn (o_nav o) j e -> 1 <= svn <= 36 ->
  adkd_means adkd k delay -> (slow = true -> adkd = 12) -> 0 < cop < 16 -> (40 <= length tag)%nat ->
  gst_ok g -> time_of gm = time_of gn + 30 -> time_of g = time_of gm + delay ->
  delay < 30 * Z.of_nat mack_depth -> delay + 30 < 30 * Z.of_nat nav_depth ->
  h = p0 ++ FeedOsnma data prna gk :: q0 -> completes (h0 ++ p0) (FeedOsnma data prna gk) hk1 mk1 gm ->
  tag_transmitted t hk1 mk1 prna gm delay svn adkd cop bits tag ->
  (forall y, In y (h0 ++ h) -> time_of (subframe_of (op_gst y)) <= time_of gm) ->
  (forall y, In y q -> time_of gm < time_of (subframe_of (op_gst y)) <= time_of g) ->
  exists j' e', kept k svn bits gn (o_nav o') j' e' /\
    (rows_same k svn bits (o_nav o) j -> repeats k svn bits (inav_words q) -> rows_same k svn bits (o_nav o') j') /\
    forall K, current_key (o_keys o') = Some K -> time_of g <= time_of (k_gst K) -> 40 <= e_authbits e'.
Proof.
  induction q as [|x q IH] using rev_ind;
    intros h k svn bits gn gm g delay adkd cop tag p0 data prna gk q0 hk1 mk1 o o' j e
      Hroom Hok Hord HP Hr Hr' Hf Hsince Hk Hsvn Hadkd Hslow Hcop Htag Hg Egm Eg Hmd Hnd Eh Hc1 Htx Hh1 Hq1.
  all: assert (Hdel : delay = 30 \/ delay = 330) by (destruct Hadkd as [(_ & _ & ?)|[(_ & _ & ?)|(_ & _ & ?)]]; auto).
  - rewrite app_nil_r in Hr'. assert (o' = o) by congruence. subst o'. exists j, e. split; [exact Hk|]. split; [auto|]. intros K HK HgK. exfalso.
    rewrite app_nil_r in HP, Hok.
    destruct (after_inv HC HS pk t Ht root user slow h0 o0 Hr0 Hok0 h Hok HP o Hr) as ((_ & _ & Hgood & Hfo) & _).
    destruct (Hfo Hf) as (K1 & c & HK1 & Hci & _). assert (K1 = K) by congruence. subst K1.
    destruct (Hgood K (current_key_in _ _ HK) Hci) as (_ & _ & [(K0 & (O1 & O2) & L0)|(y & Hy & L0)]).
    + destruct (pr_keys _ _ _ _ _ _ HP K0 O1 O2) as (_ & Hall).
      assert (Hin : In (FeedOsnma data prna gk) h) by (rewrite Eh; apply in_or_app; right; now left).
      specialize (Hall _ Hin). specialize (Hh1 _ ltac:(apply in_or_app; right; exact Hin)). lia.
    + specialize (Hh1 y ltac:(apply in_or_app; now right)). lia.
  - pose proof HP as HPx. rewrite (app_assoc h q [x]) in HP, Hok, Hord, Hroom, Hr'. rewrite app_assoc in Hok, Hord, Hroom, Hr'.
    pose proof (proj1 (proj1 (Forall_app _ _ _) Hok)) as Hok1.
    destruct (run_last root user slow _ _ _ Hr') as (o1 & Hr1 & Hs).
    pose proof (prepared_app pk t root h0 o0 _ [x] HP) as HP1.
    destruct (IH h k svn bits gn gm g delay adkd cop tag p0 data prna gk q0 hk1 mk1 o o1 j e) as (j1 & e1 & Hk1 & Hs1 & Ha1);
      auto; try (eapply order_prefix; eassumption); try (eapply room_calls; eassumption).
    { intros y Hy. apply Hq1. apply in_or_app. now left. }
    assert (Hxt : time_of gm < time_of (subframe_of (op_gst x)) <= time_of g) by (apply Hq1; apply in_or_app; right; now left).
    destruct (kept_step HS HC root user slow _ o1 x o' k svn bits gn j1 e1 Hroom Hok Hord Hr1 Hs Hk1) as (j2 & e2 & Hk2 & Ha2 & Hs2); [lia|].
    exists j2, e2. split; [exact Hk2|]. split.
    { intros Hsame Hrep. rewrite inav_words_snoc in Hrep. apply repeats_app in Hrep. apply Hs2; [apply Hs1|]; tauto. }
    intros K' HK' HgK'.
    destruct (after_inv HC HS pk t Ht root user slow h0 o0 Hr0 Hok0 (h ++ q) Hok1 HP1 o1 Hr1) as (Hinv & _).
    assert (Hf1 : after_fired t (blocks_after h0 (h ++ q))) by (apply after_fired_app; exact Hf).
    destruct (proj2 (proj2 (proj2 Hinv)) Hf1) as (K1 & c1 & HK1 & Hci1 & _).
    destruct (Z.le_gt_cases (time_of g) (time_of (k_gst K1))) as [Hle|Hgt].
    { specialize (Ha1 K1 HK1 Hle). lia. }
    assert (Hsub : exists m, (1 <= m <= tr_length t)%nat /\ time_of gm = tr_start t + 30 * Z.of_nat m).
    { apply (pr_honest _ _ _ _ _ _ HPx p0 (FeedOsnma data prna gk) (q0 ++ q ++ [x]) hk1 mk1 gm); [|exact Hc1].
      rewrite Eh, <- app_assoc. reflexivity. }
    destruct Hsub as (m & Hm & Em).
    assert (Hok1' : Forall op_ok ((h0 ++ p0) ++ [FeedOsnma data prna gk])).
    { apply Forall_app in Hok1. destruct Hok1 as (Hok00 & Hok1). rewrite Eh in Hok1. rewrite <- app_assoc. apply Forall_app. split; [exact Hok00|].
      replace ((p0 ++ FeedOsnma data prna gk :: q0) ++ q) with ((p0 ++ [FeedOsnma data prna gk]) ++ (q0 ++ q)) in Hok1 by (now rewrite <- !app_assoc).
      apply Forall_app in Hok1. apply Hok1. }
    assert (Hrp : exists op0, run new (h0 ++ p0) = Ok op0).
    { rewrite Eh, app_assoc, run_app in Hr. destruct (run new (h0 ++ p0)) as [op0|]; [eauto|discriminate Hr]. }
    destruct Hrp as (op0 & Hrp).
    destruct (completed_as_model HC HS root user slow (h0 ++ p0) op0 _ hk1 mk1 gm Hok1' Hrp Hc1) as (sf & svn0 & ms & cd & d0 & Hrec & _).
    destruct (subframe_received_bytes _ _ _ _ _ Hok1' Hrec) as (_ & (Hlen & _) & Hgmok & _).
    pose proof (hkroot_header_byte _ _ _ _ _ Hok1' Hrec) as Hhb. pose proof (status_of_eq hk1 _ Hhb eq_refl) as Est.
    assert (Hprna : 1 <= prna <= 36).
    { apply Forall_app in Hok1'. destruct Hok1' as (_ & Hx0). apply Forall_cons_iff in Hx0. destruct Hx0 as (Hx0 & _). cbn [op_ok] in Hx0. tauto. }
    assert (Hget : mack_get (o_mack o1) prna gm = Ok (Some (mk1, status_of hk1))).
    { rewrite Est. apply (mack_held HS HC root user slow (h0 ++ h ++ q) o1 (h0 ++ p0) data prna gk (q0 ++ q) hk1 mk1 gm); auto; try (eapply room_calls; eassumption).
      - eapply order_prefix; eauto.
      - rewrite Eh, <- !app_assoc. reflexivity.
      - intros y Hy. rewrite app_assoc in Hy. apply in_app_or in Hy. destruct Hy as [Hy|Hy]; [specialize (Hh1 y Hy); lia|].
        specialize (Hq1 y ltac:(apply in_or_app; now left)). lia. }
    assert (HK0 : exists K, current_key (o_keys o) = Some K).
    { assert (Hokh : Forall op_ok (h0 ++ h)) by (rewrite app_assoc in Hok1; apply Forall_app in Hok1; apply Hok1).
      destruct (after_inv HC HS pk t Ht root user slow h0 o0 Hr0 Hok0 h Hokh (prepared_app pk t root h0 o0 h q HP1) o Hr) as ((_ & _ & _ & Hfo0) & _).
      destruct (Hfo0 Hf) as (K0 & c0 & HK0 & _). eauto. }
    destruct HK0 as (K0 & HK0).
    destruct (after_kept HC HS pk t Ht root user slow h0 o0 Hr0 Hok0 q h o o1 K0 Hok1 HP1 Hr Hr1 Hf HK0) as (Hss & _).
    assert (Hsince1 : forall c g0, ks_cif (o_keys o1) = Some c -> cif_cid c = ch_id (tr_chain t) -> cif_start c = Some g0 -> gst_ok g0 /\ time_of g0 <= time_of gm).
    { intros c g0 Hcf Hic Hst0.
      assert (Hcif0 : exists c0, ks_cif (o_keys o) = Some c0 /\ cif_cid c0 = ch_id (tr_chain t)).
      { assert (Hokh : Forall op_ok (h0 ++ h)) by (rewrite app_assoc in Hok1; apply Forall_app in Hok1; apply Hok1).
        destruct (after_inv HC HS pk t Ht root user slow h0 o0 Hr0 Hok0 h Hokh (prepared_app pk t root h0 o0 h q HP1) o Hr) as ((_ & _ & _ & Hfo0) & _).
        destruct (Hfo0 Hf) as (K2 & c2 & _ & _ & Hcf2 & Hic2). eauto. }
      destruct Hcif0 as (c0 & Hcf0 & Hic0). destruct (Hss c0 Hcf0 Hic0) as (c' & Hcf' & _ & Hor). assert (c' = c) by congruence. subst c'.
      destruct Hor as [Hor|Hor]; [|congruence]. apply (Hsince c0 g0 Hcf0 Hic0). congruence. }
    destruct (after_authenticates (h ++ q) o1 x o' k svn bits gn gm g delay adkd cop tag prna hk1 mk1 j1 e1) with (K' := K')
      as (e3 & Hk3 & Ha3); auto; try lia.
    { exists m. split; [lia|exact Em]. }
    { intros K HK. assert (K = K1) by congruence. subst K. exact Hgt. }
    pose proof Hk2 as (Hj2 & Hg2 & Hst2 & _). pose proof Hk3 as (Hj3 & Hg3 & Hst3 & _).
    assert (j1 = j2) by (exact (stored_gst_unique HS HC root user slow _ o' j1 j2 gn Hok Hord Hr' Hj3 Hj2 Hg3 Hg2)). subst j2.
    assert (e3 = e2).
    { pose proof (reach_has HC HS root user slow _ _ Hok Hr') as Hnav.
      apply (nav_has_stored HS _ _ _ _ _ Hnav Hj2) in Hst2, Hst3. congruence. }
    subst e3. exact Ha3.
Qed.

Theorem after_data hA hN hM p x q o k svn bits gn gm g delay adkd cop tag prna hk1 mk1 hk2 mk2 :
  let h := h0 ++ (hA ++ hN ++ hM ++ p ++ [x]) ++ q in
  room_for (map op_svn h) -> delay < 30 * Z.of_nat mack_depth -> delay + 30 < 30 * Z.of_nat nav_depth ->
  Forall op_ok h -> in_subframe_order h -> (forall w, In w (inav_words h) -> 1 <= g_wn (nw_gst w)) ->
  run new h = Ok o -> prepared pk t root h0 o0 (hA ++ hN ++ hM ++ p ++ [x]) ->
  no_long_gap_after t h0 o0 (hA ++ hN ++ hM ++ p ++ [x]) -> kroot_received_after t h0 hA ->
  1 <= svn <= 36 -> adkd_means adkd k delay -> (slow = true -> adkd = 12) -> 0 < cop < 16 -> (40 <= length tag)%nat ->
  (forall y, In y hN -> subframe_of (op_gst y) = gn) -> icd_data k (words_of svn (inav_words hN)) = Some bits ->
  (forall y, In y hM -> subframe_of (op_gst y) = gm) -> time_of gm = time_of gn + 30 ->
  (exists m1 data gk m2, hM = m1 ++ FeedOsnma data prna gk :: m2 /\
     completes (h0 ++ hA ++ hN ++ m1) (FeedOsnma data prna gk) hk1 mk1 gm) ->
  tag_transmitted t hk1 mk1 prna gm delay svn adkd cop bits tag ->
  time_of g = time_of gm + delay -> completes (h0 ++ hA ++ hN ++ hM ++ p) x hk2 mk2 g ->
  (forall y, In y p -> time_of gm < time_of (subframe_of (op_gst y))) ->
  (forall y, In y q -> time_of (subframe_of (op_gst y)) < time_of gn + 30 * Z.of_nat nav_depth) ->
  exists d, getter k o svn = Ok (Some d) /\
    (repeats k svn bits (inav_words (hM ++ p ++ x :: q)) -> nd_data d = bits).
Proof.
  intros h Hroom Hmd Hnd Hok Hord Hwn Hr HP Hgap Hkr Hsvn Hadkd Hslow Hcop Htag HhN Hdata HhM Egm (m1 & data & gk & m2 & EM & Hc1) Htx Eg Hc2 Hp Hq.
  assert (Hdel : delay = 30 \/ delay = 330) by (destruct Hadkd as [(_ & _ & ?)|[(_ & _ & ?)|(_ & _ & ?)]]; auto).
  set (hA0 := h0 ++ hA). set (h1 := hA0 ++ hN). set (h2 := h1 ++ hM). set (h3 := h2 ++ (p ++ [x])).
  assert (E3 : h = h3 ++ q) by (unfold h, h3, h2, h1, hA0; rewrite <- !app_assoc; reflexivity).
  assert (Hg : g = subframe_of (op_gst x)).
  { destruct Hc2 as (d & s & gk' & -> & _ & Hx). unfold expected_subframe in Hx.
    destruct (_ && _); [|discriminate]. cbn [w_gst op_gst] in *. congruence. }
  rewrite E3 in Hok, Hord, Hroom, Hr, Hwn.
  pose proof (room_calls _ _ Hroom) as Hroom3. pose proof (room_calls _ _ Hroom3) as Hroom2. pose proof (room_calls _ _ Hroom2) as Hroom1.
  pose proof (proj1 (proj1 (Forall_app _ _ _) Hok)) as Hok3. pose proof (order_prefix _ _ Hord) as Hord3.
  pose proof (proj1 (proj1 (Forall_app _ _ _) Hok3)) as Hok2. pose proof (order_prefix _ _ Hord3) as Hord2.
  pose proof (proj1 (proj1 (Forall_app _ _ _) Hok2)) as Hok1. pose proof (order_prefix _ _ Hord2) as Hord1.
  pose proof (proj1 (proj1 (Forall_app _ _ _) Hok1)) as HokA. pose proof (order_prefix _ _ Hord1) as HordA.
  assert (Hpre : forall a b oz, run new (a ++ b) = Ok oz -> exists oa, run new a = Ok oa /\ run oa b = Ok oz).
  { intros a b oz Hz. rewrite run_app in Hz. destruct (run new a) as [oa|]; [|discriminate Hz]. exists oa. auto. }
  destruct (Hpre _ _ _ Hr) as (o3 & Hr3 & _). destruct (Hpre _ _ _ Hr3) as (o2 & Hr2 & _).
  destruct (Hpre _ _ _ Hr2) as (o1 & Hr1 & _). destruct (Hpre _ _ _ Hr1) as (oA & HrA & HN).
  assert (Hgok : gst_ok g).
  { rewrite Hg. apply subframe_of_ok. apply op_gst_ok. rewrite Forall_forall in Hok3. apply Hok3.
    apply in_or_app. right. apply in_or_app. right. now left. }
  assert (Hnw : forall w, In w (inav_words hN) -> subframe_of (nw_gst w) = gn).
  { intros w Hw. unfold inav_words in Hw. apply in_flat_map in Hw. destruct Hw as (y & Hy & Hw).
    destruct y as [word s gy b|]; [|contradiction]. destruct Hw as [<-|[]]. exact (HhN _ Hy). }
  destruct (subframe_data HC HS root user slow hA0 hN oA o1 k svn gn bits Hok1 HrA HN Hnw (or_introl (room_words _ Hroom1)) Hdata)
    as (e & He & Hb & Hgn & Hage & Huniq).
  assert (Hd : (0 < nav_depth)%nat) by apply (nv_sizes HS).
  assert (Hk1 : kept k svn bits gn (o_nav o1) 0 e) by (split; [exact Hd|]; split; [exact Hgn|]; split; [exact He|]; auto).
  assert (Hsame1 : rows_same k svn bits (o_nav o1) 0) by (intros i Hi; assert (i = 0)%nat as -> by lia; exists e; auto).
  destruct (kept_calls hM h1 o1 o2 k svn bits gn 0 e Hroom2 Hok2 Hord2 Hr1 Hr2 Hk1) as (j2 & e2 & Hk2 & Ha2 & Hs2).
  { intros y Hy. rewrite (HhM y Hy). lia. }
  assert (Hxin : In (FeedOsnma data prna gk) hM) by (rewrite EM; apply in_or_app; right; now left).
  assert (Hmax : forall y, In y h2 -> time_of (subframe_of (op_gst y)) <= time_of gm).
  { intros y Hy. unfold h2 in Hy. apply in_app_or in Hy. destruct Hy as [Hy|Hy]; [|rewrite (HhM y Hy); lia].
    rewrite <- (HhM _ Hxin). apply (proj2 (in_subframe_order_app _ _ Hord2)); assumption. }
  assert (Hpx : forall y, In y (p ++ [x]) -> time_of gm < time_of (subframe_of (op_gst y)) <= time_of g).
  { intros y Hy. split.
    - apply in_app_or in Hy. destruct Hy as [Hy|[<-|[]]]; [now apply Hp|]. rewrite <- Hg. lia.
    - rewrite Hg. apply (last_time (h2 ++ p) x); [unfold h3 in Hord3; rewrite app_assoc in Hord3; exact Hord3|].
      rewrite <- app_assoc. apply in_or_app. now right. }
  (* the DSM-KROOT has been received in [hA] *)
  set (hq := hA ++ hN ++ hM).
  assert (Ehq : hA ++ hN ++ hM ++ p ++ [x] = hq ++ p ++ [x]) by (unfold hq; rewrite <- !app_assoc; reflexivity).
  assert (E2 : h2 = h0 ++ hq) by (unfold h2, h1, hA0, hq; rewrite <- !app_assoc; reflexivity).
  rewrite Ehq in HP, Hgap.
  pose proof (prepared_app pk t root h0 o0 _ _ HP) as HPq.
  assert (HPA : prepared pk t root h0 o0 hA) by exact (prepared_app pk t root h0 o0 hA (hN ++ hM) HPq).
  pose proof (after_received pk t Ht h0 hA (pr_honest _ _ _ _ _ _ HPA) Hkr) as HfA.
  destruct (after_inv HC HS pk t Ht root user slow h0 o0 Hr0 Hok0 hA HokA HPA oA HrA) as (HinvA & [HstA|HstA]); [|elim (HstA HfA)].
  destruct (proj2 (proj2 (proj2 HinvA)) HfA) as (KA & cA & HKA & _ & HcfA & HicA).
  assert (Hokq : Forall op_ok (h0 ++ hA ++ hN ++ hM)) by (rewrite E2 in Hok2; exact Hok2).
  assert (Hrq : run new (h0 ++ hA ++ hN ++ hM) = Ok o2) by (rewrite E2 in Hr2; exact Hr2).
  destruct (after_kept HC HS pk t Ht root user slow h0 o0 Hr0 Hok0 (hN ++ hM) hA oA o2 KA Hokq HPq HrA Hrq HfA HKA) as (Hss & _).
  assert (Hsince : forall c g0, ks_cif (o_keys o2) = Some c -> cif_cid c = ch_id (tr_chain t) -> cif_start c = Some g0 -> gst_ok g0 /\ time_of g0 <= time_of gm).
  { intros c g0 Hcf Hic Hst0. destruct (Hss cA HcfA HicA) as (c' & Hcf' & _ & Hor). assert (c' = c) by congruence. subst c'.
    destruct Hor as [Hor|Hor]; [|congruence]. destruct (HstA cA g0 HcfA HicA ltac:(congruence)) as (G1 & y & Hy & G2). split; [exact G1|].
    assert (Hyin : In y h2) by (rewrite E2; apply in_or_app; right; apply in_or_app; now left). specialize (Hmax y Hyin). lia. }
  assert (Hfq : after_fired t (blocks_after h0 hq)) by (apply after_fired_app; exact HfA).
  assert (E3' : h3 = h0 ++ hq ++ p ++ [x]) by (unfold h3; rewrite E2, <- app_assoc; reflexivity).
  pose proof Hroom3 as Hroom3'. pose proof Hok3 as Hok3'. pose proof Hord3 as Hord3'. pose proof Hr3 as Hr3'. pose proof Hr2 as Hr2'. pose proof Hmax as Hmax'.
  rewrite E3' in Hroom3', Hok3', Hord3', Hr3'. rewrite E2 in Hr2', Hmax'.
  destruct (after_authenticates_run (p ++ [x]) hq k svn bits gn gm g delay adkd cop tag (hA ++ hN ++ m1) data prna gk m2 hk1 mk1 o2 o3 j2 e2)
    as (j3 & e3 & Hk3 & Hs3 & Ha3); auto.
  { unfold hq. rewrite EM, <- !app_assoc. reflexivity. }
  assert (Hauth : 40 <= e_authbits e3).
  { assert (Hordq : in_subframe_order ((hq ++ p) ++ [x])).
    { rewrite <- app_assoc. intros i j a b Hij Ha Hbb.
      apply (Hord3' (length h0 + i)%nat (length h0 + j)%nat a b ltac:(lia)); rewrite nth_error_app2 by lia.
      - replace (length h0 + i - length h0)%nat with i by lia. exact Ha.
      - replace (length h0 + j - length h0)%nat with j by lia. exact Hbb. }
    assert (Hkr3 : kroot_received_after t h0 ((hq ++ p) ++ [x])).
    { destruct Hkr as (m & b1 & b2 & b3 & Hm & Eb & H1 & H2). unfold hq. rewrite <- !app_assoc.
      destruct (after_blocks_app h0 hA (hN ++ hM ++ p ++ [x])) as (bl & Ebl).
      exists m, b1, b2, (b3 ++ bl). split; [exact Hm|]. split; [rewrite Ebl, Eb, <- !app_assoc; reflexivity|]. auto. }
    assert (Hc2' : completes (h0 ++ hq ++ p) x hk2 mk2 g) by (unfold hq; rewrite <- !app_assoc; exact Hc2).
    rewrite app_assoc in HP, Hgap. rewrite (app_assoc hq p [x]) in Hok3', Hr3'.
    destruct (after_key HC HS pk t Ht root user slow h0 o0 Hr0 Hok0 (hq ++ p) x hk2 mk2 g o3 Hok3' Hordq HP Hgap Hc2' Hkr3 Hr3') as (K & HK & EK & _).
    apply (Ha3 K HK). rewrite EK. lia. }
  destruct (kept_calls q h3 o3 o k svn bits gn j3 e3 Hroom Hok Hord Hr3 Hr Hk3) as (j4 & e4 & Hk4 & Ha4 & Hs4).
  { intros y Hy. split; [|now apply Hq].
    assert (time_of g <= time_of (subframe_of (op_gst y))); [|lia].
    rewrite Hg. apply (proj2 (in_subframe_order_app _ _ Hord)); [|exact Hy]. apply in_or_app. right. apply in_or_app. right. now left. }
  destruct (kept_getter HS HC root user slow (h3 ++ q) o k svn bits gn j4 e4 Hok Hwn Hr Hk4 ltac:(lia)) as (d & Hget & Hdd).
  exists d. split; [exact Hget|]. intros Hrep. apply Hdd.
  assert (Erep : hM ++ p ++ x :: q = hM ++ (p ++ [x]) ++ q) by (now rewrite <- !app_assoc).
  rewrite Erep, !inav_words_app in Hrep. apply repeats_app in Hrep. destruct Hrep as (RM & Hrep). apply repeats_app in Hrep. destruct Hrep as (RP & RQ).
  apply Hs4; [|exact RQ]. apply Hs3; [apply Hs2; [exact Hsame1|exact RM]|]. rewrite inav_words_app. exact RP.
Qed.

End Crypto.

(** Honest reception authenticates: the data of a satellite received in one subframe, a tag for
    it in the next and the key of the tag when it is disclosed. *)
From Coq Require Import ZArith List Bool Lia ZifyBool ZifyNat Sorted.
From Verif Require Import Model.Prelude Model.Params Model.Gst Model.Svn Model.Bitfields
  Model.Maclt Model.Tesla Model.Merkle Model.Subframe Model.Dsm Model.MackStore Model.Nav Model.Osnma
  Spec.TimeSpec Spec.CollectSpec Spec.StoreSpec Spec.NavSpec Spec.TeslaSpec Spec.KrootSpec
  Spec.MerkleSpec Spec.MacltSpec Spec.KeySpec Spec.SystemSpec Spec.StoredSpec Spec.CompleteSpec Spec.PanicSpec Spec.HonestSpec
  Proofs.Base Proofs.Ring Proofs.Rows Proofs.GstProofs Proofs.NavProofs Proofs.EntryProofs Proofs.NavInv
  Proofs.TeslaProofs Proofs.NavHistory Proofs.SystemProofs Proofs.GetterProofs Proofs.KeyStoreProofs Proofs.StepProofs Proofs.AlertProofs
  Proofs.StoredProofs Proofs.RecentProofs Proofs.CompleteProofs Proofs.AuthProofs Proofs.TotalProofs Proofs.MackExact Proofs.NavKeep Proofs.HonestKeys.
Import ListNotations.
Open Scope Z_scope.
Ltac Zify.zify_post_hook ::= Z.div_mod_to_equations.

Lemma inav_words_snoc h x : inav_words (h ++ [x]) = inav_words h ++ inav_words [x].
Proof. apply inav_words_app. Qed.

Lemma repeats_app k svn bits a b : repeats k svn bits (a ++ b) -> repeats k svn bits a /\ repeats k svn bits b.
Proof.
  intros H. split; intros w i f Hw; apply H; apply in_or_app; [now left|now right].
Qed.

Section Crypto.
Context {C : crypto} {B : build} {S : storage}.
Hypothesis HC : crypto_ok C.
Hypothesis HS : storage_ok S.
Variables (pk : public_key) (t : transmission).
Hypothesis Ht : transmission_ok pk t.
Variables (root : option (list Z)) (user : option public_key) (slow : bool).
Notation new := (osnma_new root user slow).

Lemma run_step h x o o' : run new h = Ok o -> step o x = Ok o' -> run new (h ++ [x]) = Ok o'.
Proof. intros Hr Hs. rewrite run_app, Hr. unfold run. cbn [bind fold_outcome]. now rewrite Hs. Qed.

Lemma order_prefix h q : in_subframe_order (h ++ q) -> in_subframe_order h.
Proof. intros H. apply (in_subframe_order_app _ _ H). Qed.

Lemma honest_run' h : Forall op_ok h -> hears root user pk t h -> exists o, run new h = Ok o /\ key_state pk t root user h o.
Proof. exact (honest_run HC HS pk t Ht root user slow h). Qed.
Lemma honest_key' h p x q hk mk g : h = p ++ x :: q -> Forall op_ok h -> in_subframe_order h -> hears root user pk t h ->
  no_long_gap t (kroot_received_then root user pk t) (p ++ [x]) ->
  completes p x hk mk g -> kroot_received_then root user pk t (p ++ [x]) -> (forall y, In y q -> subframe_of (op_gst y) = g) ->
  exists o key, run new h = Ok o /\ current_key (o_keys o) = Some key /\ k_gst key = g /\
    k_chain key = tr_chain t /\ key_bytes key = tr_key t (time_of g).
Proof. exact (honest_key HC HS pk t Ht root user slow h p x q hk mk g). Qed.

Lemma room_calls (h q : list op) : room_for (map op_svn (h ++ q)) -> room_for (map op_svn h).
Proof. rewrite map_app. apply room_prefix. Qed.

(** The data is kept through the calls [q]. *)
Lemma kept_run q : forall h o k svn bits gn j e, room_for (map op_svn (h ++ q)) -> Forall op_ok (h ++ q) -> in_subframe_order (h ++ q) ->
  hears root user pk t (h ++ q) -> run new h = Ok o -> kept k svn bits gn (o_nav o) j e ->
  (forall y, In y q -> time_of gn < time_of (subframe_of (op_gst y)) < time_of gn + 30 * Z.of_nat nav_depth) ->
  exists o' j' e', run new (h ++ q) = Ok o' /\ kept k svn bits gn (o_nav o') j' e' /\ e_authbits e <= e_authbits e' /\
    (rows_same k svn bits (o_nav o) j -> repeats k svn bits (inav_words q) -> rows_same k svn bits (o_nav o') j').
Proof.
  induction q as [|x q IH] using rev_ind; intros h o k svn bits gn j e Hroom Hok Hord Hh Hr Hk Hq.
  - exists o, j, e. rewrite app_nil_r. split; [exact Hr|]. split; [exact Hk|]. split; [lia|auto].
  - rewrite app_assoc in *. pose proof (proj1 (proj1 (Forall_app _ _ _) Hok)) as Hok1.
    destruct (IH h o k svn bits gn j e (room_calls _ _ Hroom) Hok1 (order_prefix _ _ Hord) (hears_app pk t root user _ _ Hh) Hr Hk) as (o1 & j1 & e1 & Hr1 & Hk1 & Ha1 & Hs1).
    { intros y Hy. apply Hq. apply in_or_app. now left. }
    destruct (honest_run'  _ Hok1 (hears_app pk t root user _ _ Hh)) as (o1' & Hr1' & Hks1).
    assert (o1' = o1) by congruence. subst o1'.
    destruct (honest_step HC HS pk t Ht root user slow _ o1 x Hok Hh Hr1 Hks1) as (o2 & Hs & _).
    destruct (kept_step HS HC root user slow _ o1 x o2 k svn bits gn j1 e1 Hroom Hok Hord Hr1 Hs Hk1) as (j2 & e2 & Hk2 & Ha2 & Hs2).
    { apply Hq. apply in_or_app. right. now left. }
    exists o2, j2, e2. split; [eapply run_step; eauto|]. split; [exact Hk2|]. split; [lia|].
    intros Hsame Hrep. rewrite inav_words_snoc in Hrep. apply repeats_app in Hrep. apply Hs2; [apply Hs1|]; tauto.
Qed.

(** The times of the keys. *)
Lemma key_time_bound h o K b : key_state pk t root user h o -> o_keys o = with_key t K ->
  (forall y, In y h -> time_of (subframe_of (op_gst y)) <= b) -> time_of (k_gst K) <= b.
Proof.
  intros (_ & _ & [(E & _)|(K0 & E & _ & _ & y & Hy & Ey)]) HK Hall; [rewrite E in HK; discriminate HK|].
  assert (K0 = K) by (rewrite E in HK; unfold with_key in HK; congruence). subst K0.
  specialize (Hall y Hy). lia.
Qed.

(** A call that brings the key up to [g] authenticates the data. *)
Lemma key_authenticates h o x o' k svn bits gn gm g delay adkd cop tag prna hk1 mk1 j e :
  Forall op_ok (h ++ [x]) -> in_subframe_order (h ++ [x]) -> hears root user pk t (h ++ [x]) ->
  run new h = Ok o -> step o x = Ok o' ->
  kept k svn bits gn (o_nav o) j e -> 1 <= svn <= 36 -> 1 <= prna <= 36 ->
  adkd_means adkd k delay -> (slow = true -> adkd = 12) -> 0 < cop < 16 -> (40 <= length tag)%nat ->
  gst_ok gm -> gst_ok g -> time_of gm = time_of gn + 30 -> time_of g = time_of gm + delay ->
  (delay < 30 * Z.of_nat mack_depth) -> (exists m, (1 <= m)%nat /\ time_of gm = tr_start t + 30 * Z.of_nat m) ->
  length mk1 = 60%nat -> mack_get (o_mack o) prna gm = Ok (Some (mk1, status_of hk1)) ->
  tag_transmitted t hk1 mk1 prna gm delay svn adkd cop bits tag ->
  (forall K, o_keys o = with_key t K -> time_of (k_gst K) < time_of g) ->
  time_of (subframe_of (op_gst x)) <= time_of g ->
  forall K', o_keys o' = with_key t K' -> time_of g <= time_of (k_gst K') ->
  exists e', kept k svn bits gn (o_nav o') j e' /\ 40 <= e_authbits e'.
Proof.
  intros Hok Hord Hh Hr Hs Hk Hsvn Hprna Hadkd Hslow Hcop Htag Hgm Hg Egm Eg Hmd (m & Hm & Em) Hl1 Hget Htx Hbefore Hle K' HK' HgK'.
  pose proof (proj1 (proj1 (Forall_app _ _ _) Hok)) as Hok1.
  destruct (honest_run'  _ Hok1 (hears_app pk t root user _ _ Hh)) as (o1 & Hr1 & Hks1).
  assert (o1 = o) by congruence. subst o1.
  destruct (honest_step HC HS pk t Ht root user slow _ o x Hok Hh Hr Hks1) as (o2 & Hs2 & _ & _ & Hch1 & Hch2 & Hcomp).
  assert (o2 = o') by congruence. subst o2.
  assert (Hc : exists hk mk g', completes h x hk mk g').
  { destruct Hks1 as (_ & _ & [(E & _)|(K & E & _)]).
    - apply Hch2; [exact E|]. rewrite HK'. discriminate.
    - apply (Hch1 K K'); [exact E|exact HK'|]. specialize (Hbefore K E). lia. }
  destruct Hc as (hk & mk & g' & Hc).
  assert (Hg' : g' = subframe_of (op_gst x)).
  { destruct Hc as (data & s & gk & -> & _ & Hx). unfold expected_subframe in Hx.
    destruct (_ && _); [|discriminate]. cbn [w_gst op_gst] in *. congruence. }
  assert (Hxok : op_ok x) by (apply Forall_app in Hok; destruct Hok as (_ & Hx); now apply Forall_cons_iff in Hx).
  assert (Hdel : delay = 30 \/ delay = 330) by (destruct Hadkd as [(_ & _ & ?)|[(_ & _ & ?)|(_ & _ & ?)]]; auto).
  destruct (Hcomp hk mk g' Hc) as (ks & Hkt & [(_ & E)|(K & K1 & Eks & HKc & E & Hor & R1 & R2)]).
  { rewrite E in HK'. discriminate HK'. }
  assert (K1 = K') by (rewrite E in HK'; unfold with_key in HK'; congruence). subst K1.
  assert (HKlt : time_of (k_gst K) < time_of g).
  { destruct Hor as [Hor|(_ & Hor & _)]; [now apply Hbefore|]. rewrite <- Hg' in Hle. lia. }
  assert (Hlt : time_of (k_gst K) < time_of g' <= time_of (k_gst K) + 90000).
  { destruct (within_gap (time_of (k_gst K)) (time_of g')) as [|Hge]; [assumption|]. rewrite (R2 Hge) in HgK'. lia. }
  destruct (R1 Hlt) as (Hdis & EK'). rewrite EK' in HgK'. rewrite <- Hg' in Hle.
  assert (g' = g).
  { apply time_of_inj; [|exact Hg|lia]. rewrite Hg'. apply subframe_of_ok. now apply op_gst_ok. }
  clear Hg' R1 R2 EK'. subst g'.
  assert (Hcur : current_key ks = Some K) by (rewrite Eks; apply with_key_current; apply HKc).
  pose proof Hk as (Hj & Hgn & Hst & Hb & Hage).
  destruct Htx as (Hstat & Hvalid & Hintag).
  pose proof (hears_last pk t root user _ _ _ _ _ Hh Hc) as (_ & (n & Hn & En) & _).
  assert (Hkb : key_bytes (tr_tkey t g) = tr_key t (time_of g)) by (apply (tr_tkey_bytes pk t Ht g n Hn En)).
  assert (Hres : exists e', stored k (o_nav o') j svn e' /\ data_of k e' = data_of k e /\
            Z.min 65535 (e_authbits e + Z.of_nat (length tag)) <= e_authbits e').
  { destruct Hdel as [-> | ->].
    - assert (Hsl : slow = false).
      { destruct slow; [|reflexivity]. rewrite (Hslow eq_refl) in Hadkd.
        destruct Hadkd as [(? & _)|[(? & _)|(_ & _ & ?)]]; discriminate. }
      destruct (tag_authenticates HS HC root user slow h o x o' hk mk g ks K (tr_tkey t g) prna gm j gn e k svn adkd cop tag)
        as (Hres & _); auto; try lia.
      exists mk1, (status_of hk1). split; [exact Hprna|]. split; [exact Hl1|]. split; [exact Hget|]. split; [exact Hstat|].
      cbn [tr_tkey k_chain]. rewrite Hkb. rewrite Eg, Hb. auto.
    - assert (Hk12 : adkd = 12 /\ k = Ced) by (destruct Hadkd as [(_ & _ & ?)|[(_ & _ & ?)|(? & ? & _)]]; try discriminate; auto).
      destruct Hk12 as (-> & ->).
      destruct (slow_tag_authenticates HS HC root user slow h o x o' hk mk g ks K (tr_tkey t g) (tr_key t (time_of gm + 30)) prna gm j gn e svn cop tag)
        as (Hres & _); auto; try lia.
      + rewrite Eks. intros c g0 Ec Es. unfold with_key in Ec. cbn [ks_cif] in Ec. injection Ec as <-. discriminate Es.
      + rewrite Hkb. cbn [tr_tkey k_chain]. pose proof (keys_lead_back pk t Ht (m + 1) 10) as Hlb.
        replace (time_of gm + 30) with (tr_start t + 30 * Z.of_nat (m + 1)) by lia.
        replace (time_of g) with (tr_start t + 30 * Z.of_nat (m + 1 + 10)) by lia. apply Hlb. lia.
      + exists mk1, (status_of hk1). split; [exact Hprna|]. split; [exact Hl1|]. split; [exact Hget|]. split; [exact Hstat|].
        cbn [tr_tkey k_chain]. rewrite Hkb, Eg, Hb. auto. }
  destruct Hres as (e' & He' & Hd' & Ha').
  assert (Hgrow : nav_grown (o_nav o) (o_nav o')).
  { destruct Hc as (data & s & gk & -> & _). cbn [step] in Hs. now apply feed_osnma_grown in Hs. }
  pose proof (stored_entry_ok HS HC root user slow h o k j svn e Hok1 Hr Hj Hst) as [_ _ _ Hab _ _].
  destruct (grown_kept k svn bits gn _ _ j e Hgrow Hk ltac:(lia)) as (e2 & Hk2 & _).
  assert (e2 = e').
  { pose proof Hk2 as (_ & _ & Hst2 & _).
    pose proof (reach_has HC HS root user slow _ _ Hok (run_step _ _ _ _ Hr Hs)) as Hnav.
    apply (nav_has_stored HS _ _ _ _ _ Hnav Hj) in Hst2, He'. congruence. }
  subst e2. exists e'. split; [exact Hk2|]. lia.
Qed.

Lemma tag_subframe h p0 data prna gk q0 hk1 mk1 gm : Forall op_ok h -> hears root user pk t h -> h = p0 ++ FeedOsnma data prna gk :: q0 ->
  completes p0 (FeedOsnma data prna gk) hk1 mk1 gm ->
  (exists m, (1 <= m <= tr_length t)%nat /\ time_of gm = tr_start t + 30 * Z.of_nat m) /\ gst_ok gm /\ length mk1 = 60%nat /\ 1 <= prna <= 36 /\ status_of hk1 = nma_status (nth 0 hk1 0).
Proof.
  intros Hok Hh Eh Hc.
  assert (E : h = (p0 ++ [FeedOsnma data prna gk]) ++ q0) by (rewrite Eh, <- app_assoc; reflexivity).
  rewrite E in Hok, Hh. apply Forall_app in Hok. destruct Hok as (Hok & _). apply hears_app in Hh.
  split; [exact (proj1 (proj2 (hears_last pk t root user _ _ _ _ _ Hh Hc)))|].
  destruct (honest_run' p0 (proj1 (proj1 (Forall_app _ _ _) Hok)) (hears_app pk t root user _ _ Hh)) as (o0 & Hr0 & Hks0).
  destruct (honest_keys_then HC HS pk t Ht root user slow p0 o0 _ hk1 mk1 gm Hok Hh Hr0 Hks0 Hc) as (sf & svn0 & ms & cd & o2 & Hrec & _).
  destruct (subframe_received_bytes _ _ _ _ _ Hok Hrec) as (_ & (Hlen & _) & Hgmok & _).
  pose proof (hkroot_header_byte _ _ _ _ _ Hok Hrec) as Hhb.
  split; [exact Hgmok|]. split; [exact Hlen|].
  apply Forall_app in Hok. destruct Hok as (_ & Hx0). apply Forall_cons_iff in Hx0. destruct Hx0 as (Hx0 & _). cbn [op_ok] in Hx0. split; [tauto|].
  now apply status_of_eq.
Qed.

(** Through the calls up to the subframe [g] of the key. *)
Lemma authenticates_run q : forall h k svn bits gn gm g delay adkd cop tag p0 data prna gk q0 hk1 mk1 o j e,
  room_for (map op_svn (h ++ q)) -> Forall op_ok (h ++ q) -> in_subframe_order (h ++ q) -> hears root user pk t (h ++ q) ->
  run new h = Ok o -> kept k svn bits gn (o_nav o) j e -> 1 <= svn <= 36 ->
  adkd_means adkd k delay -> (slow = true -> adkd = 12) -> 0 < cop < 16 -> (40 <= length tag)%nat ->
  gst_ok g -> time_of gm = time_of gn + 30 -> time_of g = time_of gm + delay ->
  delay < 30 * Z.of_nat mack_depth -> delay + 30 < 30 * Z.of_nat nav_depth ->
  h = p0 ++ FeedOsnma data prna gk :: q0 -> completes p0 (FeedOsnma data prna gk) hk1 mk1 gm ->
  tag_transmitted t hk1 mk1 prna gm delay svn adkd cop bits tag ->
  (forall y, In y h -> time_of (subframe_of (op_gst y)) <= time_of gm) ->
  (forall y, In y q -> time_of gm < time_of (subframe_of (op_gst y)) <= time_of g) ->
  exists o' j' e', run new (h ++ q) = Ok o' /\ kept k svn bits gn (o_nav o') j' e' /\
    (rows_same k svn bits (o_nav o) j -> repeats k svn bits (inav_words q) -> rows_same k svn bits (o_nav o') j') /\
    forall K, o_keys o' = with_key t K -> time_of g <= time_of (k_gst K) -> 40 <= e_authbits e'.
Proof.
  induction q as [|x q IH] using rev_ind;
    intros h k svn bits gn gm g delay adkd cop tag p0 data prna gk q0 hk1 mk1 o j e
      Hroom Hok Hord Hh Hr Hk Hsvn Hadkd Hslow Hcop Htag Hg Egm Eg Hmd Hnd Eh Hc1 Htx Hh1 Hq1.
  - assert (Hdel : delay = 30 \/ delay = 330) by (destruct Hadkd as [(_ & _ & ?)|[(_ & _ & ?)|(_ & _ & ?)]]; auto).
    destruct (tag_subframe (h ++ []) p0 data prna gk (q0 ++ []) hk1 mk1 gm) as ((m & Hm & Em) & _); auto.
    { rewrite Eh, <- app_assoc. reflexivity. }
    rewrite app_nil_r in *. exists o, j, e. split; [exact Hr|]. split; [exact Hk|]. split; [auto|]. intros K HK HgK. exfalso.
    destruct (honest_run'  _ Hok Hh) as (o1 & Hr1 & Hks1). assert (o1 = o) by congruence. subst o1.
    pose proof (key_time_bound h o K (time_of gm) Hks1 HK Hh1). lia.
  - assert (Hdel : delay = 30 \/ delay = 330) by (destruct Hadkd as [(_ & _ & ?)|[(_ & _ & ?)|(_ & _ & ?)]]; auto).
    destruct (tag_subframe (h ++ q ++ [x]) p0 data prna gk (q0 ++ q ++ [x]) hk1 mk1 gm) as ((m & Hm & Em) & Hgmok & Hl1 & Hprna & Est); auto.
    { rewrite Eh, <- app_assoc. reflexivity. }
    rewrite app_assoc in *. pose proof (proj1 (proj1 (Forall_app _ _ _) Hok)) as Hok1.
    destruct (IH h k svn bits gn gm g delay adkd cop tag p0 data prna gk q0 hk1 mk1 o j e) as (o1 & j1 & e1 & Hr1 & Hk1 & Hs1 & Ha1);
      auto; try (eapply order_prefix; eassumption); try (eapply hears_app; eassumption); try (eapply room_calls; eassumption).
    { intros y Hy. apply Hq1. apply in_or_app. now left. }
    destruct (honest_run'  _ Hok1 (hears_app pk t root user _ _ Hh)) as (o1' & Hr1' & Hks1).
    assert (o1' = o1) by congruence. subst o1'.
    destruct (honest_step HC HS pk t Ht root user slow _ o1 x Hok Hh Hr1 Hks1) as (o2 & Hs & _ & Hmono & _).
    assert (Hxt : time_of gm < time_of (subframe_of (op_gst x)) <= time_of g) by (apply Hq1; apply in_or_app; right; now left).
    destruct (kept_step HS HC root user slow _ o1 x o2 k svn bits gn j1 e1 Hroom Hok Hord Hr1 Hs Hk1) as (j2 & e2 & Hk2 & Ha2 & Hs2); [lia|].
    exists o2, j2, e2. pose proof (run_step _ _ _ _ Hr1 Hs) as Hr2. split; [exact Hr2|]. split; [exact Hk2|]. split.
    { intros Hsame Hrep. rewrite inav_words_snoc in Hrep. apply repeats_app in Hrep. apply Hs2; [apply Hs1|]; tauto. }
    intros K' HK' HgK'.
    assert (Hcase : (exists K, o_keys o1 = with_key t K /\ time_of g <= time_of (k_gst K)) \/
                    forall K, o_keys o1 = with_key t K -> time_of (k_gst K) < time_of g).
    { destruct Hks1 as (_ & _ & [(E & _)|(K & E & _)]).
      - right. intros K HK. rewrite E in HK. discriminate HK.
      - destruct (Z.le_gt_cases (time_of g) (time_of (k_gst K))) as [Hle|Hgt]; [left; exists K; auto|right].
        intros K0 HK0. assert (K0 = K) by (rewrite E in HK0; unfold with_key in HK0; congruence). subst K0. lia. }
    destruct Hcase as [(K & HK & HgK)|Hbefore].
    { specialize (Ha1 K HK HgK). lia. }
    assert (Hget : mack_get (o_mack o1) prna gm = Ok (Some (mk1, status_of hk1))).
    { rewrite Est. apply (mack_held HS HC root user slow (h ++ q) o1 p0 data prna gk (q0 ++ q) hk1 mk1 gm); auto; try (eapply room_calls; eassumption).
      - eapply order_prefix; eauto.
      - rewrite Eh, <- app_assoc. reflexivity.
      - intros y Hy. apply in_app_or in Hy. destruct Hy as [Hy|Hy]; [specialize (Hh1 y Hy); lia|].
        specialize (Hq1 y ltac:(apply in_or_app; now left)). lia. }
    destruct (key_authenticates (h ++ q) o1 x o2 k svn bits gn gm g delay adkd cop tag prna hk1 mk1 j1 e1) with (K' := K')
      as (e3 & Hk3 & Ha3); auto; try lia.
    { exists m. split; [lia|exact Em]. }
    pose proof Hk2 as (Hj2 & Hg2 & Hst2 & _). pose proof Hk3 as (Hj3 & Hg3 & Hst3 & _).
    assert (j1 = j2) by (exact (stored_gst_unique HS HC root user slow _ o2 j1 j2 gn Hok Hord Hr2 Hj3 Hj2 Hg3 Hg2)). subst j2.
    assert (e3 = e2).
    { pose proof (reach_has HC HS root user slow _ _ Hok Hr2) as Hnav.
      apply (nav_has_stored HS _ _ _ _ _ Hnav Hj2) in Hst2, Hst3. congruence. }
    subst e3. exact Ha3.
Qed.

Theorem honest_authenticates hA hN hM p x q k svn bits gn gm g delay adkd cop tag prna hk1 mk1 hk2 mk2 :
  let h := hA ++ hN ++ hM ++ p ++ x :: q in
  room_for (map op_svn h) -> delay < 30 * Z.of_nat mack_depth -> delay + 30 < 30 * Z.of_nat nav_depth ->
  Forall op_ok h -> in_subframe_order h -> (forall w, In w (inav_words h) -> 1 <= g_wn (nw_gst w)) -> hears root user pk t h ->
  no_long_gap t (kroot_received_then root user pk t) (hA ++ hN ++ hM ++ p ++ [x]) ->
  1 <= svn <= 36 -> adkd_means adkd k delay -> (slow = true -> adkd = 12) -> 0 < cop < 16 -> (40 <= length tag)%nat ->
  (forall y, In y hN -> subframe_of (op_gst y) = gn) -> icd_data k (words_of svn (inav_words hN)) = Some bits ->
  (forall y, In y hM -> subframe_of (op_gst y) = gm) -> time_of gm = time_of gn + 30 ->
  (exists m1 data gk m2, hM = m1 ++ FeedOsnma data prna gk :: m2 /\
     completes (hA ++ hN ++ m1) (FeedOsnma data prna gk) hk1 mk1 gm) ->
  tag_transmitted t hk1 mk1 prna gm delay svn adkd cop bits tag ->
  time_of g = time_of gm + delay -> completes (hA ++ hN ++ hM ++ p) x hk2 mk2 g ->
  kroot_received_then root user pk t (hA ++ hN ++ hM ++ p ++ [x]) ->
  (forall y, In y p -> time_of gm < time_of (subframe_of (op_gst y))) ->
  (forall y, In y q -> time_of (subframe_of (op_gst y)) < time_of gn + 30 * Z.of_nat nav_depth) ->
  exists o d, run new h = Ok o /\ getter k o svn = Ok (Some d) /\
    (repeats k svn bits (inav_words (hM ++ p ++ x :: q)) -> nd_data d = bits).
Proof.
  intros h Hroom Hmd Hnd Hok Hord Hwn Hh Hgap Hsvn Hadkd Hslow Hcop Htag HhN Hdata HhM Egm (m1 & data & gk & m2 & EM & Hc1) Htx Eg Hc2 Hkr Hp Hq.
  assert (Hdel : delay = 30 \/ delay = 330) by (destruct Hadkd as [(_ & _ & ?)|[(_ & _ & ?)|(_ & _ & ?)]]; auto).
  set (h1 := hA ++ hN). set (h2 := h1 ++ hM). set (h3 := h2 ++ (p ++ [x])).
  assert (E3 : h = h3 ++ q) by (unfold h, h3, h2, h1; rewrite <- !app_assoc; reflexivity).
  assert (Hg : g = subframe_of (op_gst x)).
  { destruct Hc2 as (d & s & gk' & -> & _ & Hx). unfold expected_subframe in Hx.
    destruct (_ && _); [|discriminate]. cbn [w_gst op_gst] in *. congruence. }
  rewrite E3 in Hok, Hord, Hh, Hroom.
  pose proof (room_calls _ _ Hroom) as Hroom3. pose proof (room_calls _ _ Hroom3) as Hroom2. pose proof (room_calls _ _ Hroom2) as Hroom1.
  pose proof (proj1 (proj1 (Forall_app _ _ _) Hok)) as Hok3. pose proof (order_prefix _ _ Hord) as Hord3. pose proof (hears_app pk t root user _ _ Hh) as Hh3.
  pose proof (proj1 (proj1 (Forall_app _ _ _) Hok3)) as Hok2. pose proof (order_prefix _ _ Hord3) as Hord2. pose proof (hears_app pk t root user _ _ Hh3) as Hh2.
  pose proof (proj1 (proj1 (Forall_app _ _ _) Hok2)) as Hok1. pose proof (order_prefix _ _ Hord2) as Hord1. pose proof (hears_app pk t root user _ _ Hh2) as Hh1.
  pose proof (proj1 (proj1 (Forall_app _ _ _) Hok1)) as HokA. pose proof (hears_app pk t root user _ _ Hh1) as HhA.
  assert (Hgok : gst_ok g).
  { rewrite Hg. apply subframe_of_ok. apply op_gst_ok. rewrite Forall_forall in Hok3. apply Hok3.
    apply in_or_app. right. apply in_or_app. right. now left. }
  destruct (honest_run'  _ HokA HhA) as (oA & HrA & _).
  destruct (honest_run'  _ Hok1 Hh1) as (o1 & Hr1 & _).
  assert (HN : run oA hN = Ok o1) by (unfold h1 in Hr1; rewrite run_app, HrA in Hr1; exact Hr1).
  assert (Hnw : forall w, In w (inav_words hN) -> subframe_of (nw_gst w) = gn).
  { intros w Hw. unfold inav_words in Hw. apply in_flat_map in Hw. destruct Hw as (y & Hy & Hw).
    destruct y as [word s gy b|]; [|contradiction]. destruct Hw as [<-|[]]. exact (HhN _ Hy). }
  destruct (subframe_data HC HS root user slow hA hN oA o1 k svn gn bits Hok1 HrA HN Hnw (or_introl (room_words _ Hroom1)) Hdata)
    as (e & He & Hb & Hgn & Hage & Huniq).
  assert (Hd : (0 < nav_depth)%nat) by apply (nv_sizes HS).
  assert (Hk1 : kept k svn bits gn (o_nav o1) 0 e) by (split; [exact Hd|]; split; [exact Hgn|]; split; [exact He|]; auto).
  assert (Hsame1 : rows_same k svn bits (o_nav o1) 0) by (intros i Hi; assert (i = 0)%nat as -> by lia; exists e; auto).
  destruct (kept_run hM h1 o1 k svn bits gn 0 e Hroom2 Hok2 Hord2 Hh2 Hr1 Hk1) as (o2 & j2 & e2 & Hr2 & Hk2 & Ha2 & Hs2).
  { intros y Hy. rewrite (HhM y Hy). lia. }
  assert (Hxin : In (FeedOsnma data prna gk) hM) by (rewrite EM; apply in_or_app; right; now left).
  assert (Hmax : forall y, In y h2 -> time_of (subframe_of (op_gst y)) <= time_of gm).
  { intros y Hy. unfold h2 in Hy. apply in_app_or in Hy. destruct Hy as [Hy|Hy]; [|rewrite (HhM y Hy); lia].
    rewrite <- (HhM _ Hxin). apply (proj2 (in_subframe_order_app _ _ Hord2)); assumption. }
  assert (Hpx : forall y, In y (p ++ [x]) -> time_of gm < time_of (subframe_of (op_gst y)) <= time_of g).
  { intros y Hy. split.
    - apply in_app_or in Hy. destruct Hy as [Hy|[<-|[]]]; [now apply Hp|]. rewrite <- Hg. lia.
    - rewrite Hg. apply (last_time (h2 ++ p) x); [unfold h3 in Hord3; rewrite app_assoc in Hord3; exact Hord3|].
      rewrite <- app_assoc. apply in_or_app. now right. }
  destruct (authenticates_run (p ++ [x]) h2 k svn bits gn gm g delay adkd cop tag (h1 ++ m1) data prna gk m2 hk1 mk1 o2 j2 e2)
    as (o3 & j3 & e3 & Hr3 & Hk3 & Hs3 & Ha3); auto.
  { unfold h2. rewrite EM, <- app_assoc. reflexivity. }
  { unfold h1. rewrite <- app_assoc. exact Hc1. }
  assert (Hauth : 40 <= e_authbits e3).
  { destruct (honest_key'  h3 (h2 ++ p) x [] hk2 mk2 g) as (o3' & K & Hr3' & Hcur & EK & _); auto.
    { unfold h3. rewrite <- app_assoc. reflexivity. }
    { unfold h2, h1. rewrite <- !app_assoc. exact Hgap. }
    { unfold h2, h1. rewrite <- !app_assoc. exact Hc2. }
    { unfold h2, h1. rewrite <- !app_assoc. exact Hkr. }
    { intros y []. }
    assert (o3' = o3) by (unfold h3 in Hr3'; congruence). subst o3'.
    destruct (honest_run'  _ Hok3 Hh3) as (o3' & Hr3'' & Hks3). assert (o3' = o3) by (unfold h3 in Hr3''; congruence). subst o3'.
    destruct Hks3 as (_ & _ & [(E & _)|(K3 & E & HKc & _)]); [rewrite E in Hcur; discriminate Hcur|].
    rewrite E, with_key_current in Hcur by (apply HKc). injection Hcur as ->. apply (Ha3 K E). rewrite EK. lia. }
  destruct (kept_run q h3 o3 k svn bits gn j3 e3 Hroom Hok Hord Hh Hr3 Hk3) as (o4 & j4 & e4 & Hr4 & Hk4 & Ha4 & Hs4).
  { intros y Hy. split; [|now apply Hq].
    assert (time_of g <= time_of (subframe_of (op_gst y))); [|lia].
    rewrite Hg. apply (proj2 (in_subframe_order_app _ _ Hord)); [|exact Hy]. apply in_or_app. right. apply in_or_app. right. now left. }
  rewrite <- E3 in Hr4, Hok.
  destruct (kept_getter HS HC root user slow h o4 k svn bits gn j4 e4 Hok Hwn Hr4 Hk4 ltac:(lia)) as (d & Hget & Hdd).
  exists o4, d. split; [exact Hr4|]. split; [exact Hget|]. intros Hrep. apply Hdd.
  assert (Erep : hM ++ p ++ x :: q = hM ++ (p ++ [x]) ++ q) by (now rewrite <- !app_assoc).
  rewrite Erep, !inav_words_app in Hrep. apply repeats_app in Hrep. destruct Hrep as (RM & Hrep). apply repeats_app in Hrep. destruct Hrep as (RP & RQ).
  apply Hs4; [|exact RQ]. apply Hs3; [apply Hs2; [exact Hsame1|exact RM]|]. rewrite inav_words_app. exact RP.
Qed.

End Crypto.

(** A receiver that starts with the public key. *)
Lemma hears_pubkey {C : crypto} pk t root h : honest t h -> root = None \/ nominal_pkrs root (Some pk) pk (blocks_received (osnma_words h)) ->
  hears root (Some pk) pk t h.
Proof.
  intros H Hr. split; [exact H|]. split; [now right|]. destruct Hr as [->|Hr]; [|exact Hr]. intros r b1 b b2 id d E. discriminate E.
Qed.
Lemma received_pubkey {C : crypto} pk t root h : kroot_received t h -> kroot_received_then root (Some pk) pk t h.
Proof. intros (m & b1 & b2 & b3 & Hm & E & H). exists m, b1, b2, b3. split; [exact Hm|]. split; [exact E|]. split; [now left|exact H]. Qed.

(** ** When there is no long gap *)

Lemma received_pubkey_iff {C : crypto} pk t root h : kroot_received_then root (Some pk) pk t h <-> kroot_received t h.
Proof.
  split; [|apply received_pubkey]. intros (m & b1 & b2 & b3 & Hm & E & _ & H). exists m, b1, b2, b3. auto.
Qed.
Lemma no_long_gap_pubkey {C : crypto} pk t root h : no_long_gap t (kroot_received t) h ->
  no_long_gap t (kroot_received_then root (Some pk) pk t) h.
Proof.
  intros H p x q hk mk g E Hc Hr. apply received_pubkey_iff in Hr.
  destruct (H p x q hk mk g E Hc Hr) as [H0|(p1 & y & p2 & hk1 & mk1 & g1 & E1 & Hc1 & Hr1 & H1)]; [now left|right].
  exists p1, y, p2, hk1, mk1, g1. split; [exact E1|]. split; [exact Hc1|]. split; [now apply received_pubkey|exact H1].
Qed.

(** A transmission of at most 25 hours has none. *)
Lemma short_no_long_gap {C : crypto} {B : build} pk t received h : transmission_ok pk t -> honest t h -> (tr_length t <= 3000)%nat ->
  no_long_gap t received h.
Proof.
  intros Ht Hh Hn p x q hk mk g E Hc _. left. intros m b Hm _ _. destruct (Hh p x q hk mk g E Hc) as (_ & (n & Hn' & ->) & _).
  destruct (km_root_ok _ _ _ (proj2 (to_kroots _ _ Ht) m Hm)) as (_ & n0 & _ & -> & _). lia.
Qed.

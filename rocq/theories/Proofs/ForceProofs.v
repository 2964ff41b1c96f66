(** The chain in force, and the keys that tags are verified with. *)
From Coq Require Import ZArith List Bool Lia ZifyBool ZifyNat.
From Verif Require Import Model.Prelude Model.Params Model.Gst Model.Svn Model.Bitfields
  Model.Tesla Model.Merkle Model.Subframe Model.Dsm Model.MackStore Model.Nav Model.Osnma
  Spec.TimeSpec Spec.CollectSpec Spec.NavSpec Spec.TeslaSpec Spec.KrootSpec Spec.MerkleSpec Spec.KeySpec Spec.SystemSpec
  Proofs.Base Proofs.GstProofs Proofs.TeslaProofs Proofs.KrootProofs Proofs.MerkleProofs Proofs.SystemProofs
  Proofs.KeyStoreProofs Proofs.StepProofs Proofs.AlertProofs Proofs.ChangeProofs.
Import ListNotations.
Open Scope Z_scope.

Lemma store_kroot_cif ks key hd g : exists start,
  ks_cif (store_kroot ks key hd g) = Some (mkCif (nma_chain_id hd) start) /\
  ((start = Some g /\ exists c, ks_cif ks = Some c /\ cif_cid c <> nma_chain_id hd) \/
   (start = None /\ forall c, ks_cif ks = Some c -> cif_cid c = nma_chain_id hd)).
Proof.
  unfold store_kroot.
  assert (E : forall (p : option tkey * option tkey) s,
    ks_cif (let '(k0, k1) := p in mkKeys k0 k1 (Some (mkCif (nma_chain_id hd) s))) = Some (mkCif (nma_chain_id hd) s))
    by (intros (? & ?) s; reflexivity).
  destruct (ks_cif ks) as [c|].
  - destruct (cif_cid c =? nma_chain_id hd) eqn:Ec; cbn [negb].
    + exists None. split; [apply E|]. right. split; [reflexivity|]. intros c' Hc. assert (c' = c) by congruence. subst. lia.
    + exists (Some g). split; [apply E|]. left. split; [reflexivity|]. exists c. split; [reflexivity|lia].
  - exists None. split; [apply E|]. right. split; [reflexivity|]. discriminate.
Qed.

Section Crypto.
Context {C : crypto} {B : build} {S : storage}.
Hypothesis HC : crypto_ok C.
Hypothesis HS : storage_ok S.

Lemma process_nma_header_cif o hd pkid :
  (nma_cpks hd <> CpksAlertMessage -> ks_cif (o_keys (process_nma_header o hd pkid)) = ks_cif (o_keys o)) /\
  (nma_cpks hd = CpksAlertMessage -> ks_cif (o_keys (process_nma_header o hd pkid)) = None).
Proof.
  unfold process_nma_header. split; intros H; destruct (nma_status hd), (nma_cpks hd); try contradiction; try discriminate H; reflexivity.
Qed.

(** An accepted KROOT. *)
Lemma kroot_chain_in_force o d hd g f pk k : stores_ok o -> is_byte hd -> Forall is_byte (dm_data d) -> dm_type d = DsmKroot ->
  kroot_verifies o (dm_data d) hd f pk -> kroot_key f k -> gst_ok (k_gst k) ->
  (overflow_checks = true -> 30 <= 604800 * kf_wn f + 3600 * kf_towh f) ->
  (forall k521, pk_key pk = VkP521 k521 -> feature_p521 = true) ->
  header_cpks hd <> cpks_alert ->
  exists o' start, process_dsm o d hd g = Ok o' /\ ks_cif (o_keys o') = Some (mkCif (header_chain hd) start) /\
    ((start = Some g /\ exists c, ks_cif (o_keys o) = Some c /\ cif_cid c <> header_chain hd) \/
     (start = None /\ forall c, ks_cif (o_keys o) = Some c -> cif_cid c = header_chain hd)).
Proof.
  intros Hst Hb Hd Ht Hv Hk Hg Hu Hf Ha.
  destruct (kroot_accepted HC o d hd g f pk k Hst Hb Hd Ht Hv Hk Hg Hu Hf) as (ps & Eps & E).
  destruct (store_kroot_cif (o_keys o) k hd g) as (start & E1 & E2).
  eexists _, start. split; [exact E|]. destruct (header_fields hd Hb) as (_ & <- & _). split; [|exact E2].
  rewrite (proj1 (process_nma_header_cif _ hd (pk_id pk))); [exact E1|].
  intros E3. apply Ha. now apply header_alert.
Qed.

Section Run.
Variables (root : option (list Z)) (user : option public_key) (slow : bool).
Notation inv := (inv root user slow).
Notation new := (osnma_new root user slow).

Lemma validate_key_cif o mk g o' : keys_distinct (o_keys o) -> osnma_validate_key o mk g = Ok o' ->
  ks_cif (o_keys o') = ks_cif (o_keys o).
Proof.
  intros Hd H. apply validate_key_effect in H. destruct H as [->|cur key ks Hc Hv Hlt Hch Hg Hstk Ht]; [reflexivity|].
  apply process_tags_trust in Ht. destruct Ht as ((_ & _ & Ht) & _). cbn [set_keys o_keys] in Ht. rewrite Ht.
  now destruct (store_key_spec _ _ _ Hd Hstk) as (_ & _ & S3 & _).
Qed.

(** The chain in force after a call. *)
Theorem step_cif h o x o' : Forall op_ok h -> op_ok x -> run new h = Ok o -> step o x = Ok o' ->
  ks_cif (o_keys o') = ks_cif (o_keys o) \/ ks_cif (o_keys o') = None \/
  exists c id d svn g hk mk f pk, ks_cif (o_keys o') = Some c /\ id < 12 /\ dsm_received (h ++ [x]) id d /\
    subframe_received (h ++ [x]) svn g hk mk /\ kroot_verifies o d (nth 0 hk 0) f pk /\
    cif_cid c = header_chain (nth 0 hk 0) /\
    match cif_start c with
    | Some g' => g' = g /\ exists c', ks_cif (o_keys o) = Some c' /\ cif_cid c' <> cif_cid c
    | None => forall c', ks_cif (o_keys o) = Some c' -> cif_cid c' = cif_cid c
    end.
Proof.
  intros Hok Hx Hrun Hstep. destruct (reachable_inv HC HS root user slow _ _ Hok Hrun) as (Hinv & Hst & Hko).
  assert (Hok' : Forall op_ok (h ++ [x])) by (apply Forall_app; split; [exact Hok|]; constructor; [exact Hx|constructor]).
  destruct (step_cases HS root user slow _ _ _ _ Hok Hx Hinv Hstep) as [(_ & _ & Hs)|(svn & g & hk & mk & o1 & o2 & Hsf & Hs & _ & Hd & Hv)].
  { left. now rewrite Hs. }
  pose proof (same_trust_stores _ _ Hs Hst) as Hst1. destruct Hs as (Hs1 & Hs2 & Hs3).
  destruct Hd as [->|(d & D1 & D2 & D3)].
  { left. rewrite (validate_key_cif _ _ _ _ (proj2 Hst1) Hv). now rewrite Hs3. }
  pose proof (process_dsm_stores _ _ _ _ _ Hst1 D3) as Hst2. rewrite (validate_key_cif _ _ _ _ (proj2 Hst2) Hv).
  assert (Hb : is_byte (nth 0 hk 0)).
  { destruct (subframe_received_bytes _ _ _ _ _ Hok' Hsf) as ((Hlen & Hhk) & _).
    rewrite Forall_forall in Hhk. apply Hhk. apply nth_In. lia. }
  apply process_dsm_effect in D3.
  destruct D3 as [->|pk key ps Et Hpk Hkey Hps Hid ->|r pk ps Et Hm Hvp Hps ->|r Et Hm Hvp ->].
  - left. now rewrite Hs3.
  - destruct (process_nma_header_cif (set_keys (store_kroot (o_keys o1) key (nth 0 hk 0) g) (set_pub ps o1)) (nth 0 hk 0) (pk_id pk)) as (N1 & N2).
    destruct (Z.eq_dec (header_cpks (nth 0 hk 0)) cpks_alert) as [Ea|Ea].
    { right. left. apply N2. now apply header_alert. }
    right. right. rewrite N1 by (intros E3; apply Ea; now apply header_alert). clear N1 N2.
    cbn [set_keys o_keys]. destruct (store_kroot_cif (o_keys o1) key (nth 0 hk 0) g) as (start & E1 & E2).
    destruct (key_from_dsm_kroot_sound HC _ _ _ _ Hb (dsm_received_bytes _ _ _ Hok' D1) Hkey) as (f & F1 & F2 & F3 & _).
    exists (mkCif (nma_chain_id (nth 0 hk 0)) start), (dm_id d), (dm_data d), svn, g, hk, mk, f, pk. split; [exact E1|].
    split; [rewrite Et in D2; destruct (dm_id d <? 12) eqn:El; [lia|discriminate]|]. split; [exact D1|]. split; [exact Hsf|]. split.
    { split; [exact F1|]. rewrite <- Hs2. split; [exact Hpk|].
      rewrite (kroot_pkid_layout _ _ F1) in Hid. injection Hid as Hid. auto. }
    cbn [cif_cid cif_start]. split; [now destruct (header_fields _ Hb) as (_ & -> & _)|].
    rewrite Hs3 in E2. destruct E2 as [(-> & E2)|(-> & E2)]; auto.
  - left. cbn [set_pub o_keys]. now rewrite Hs3.
  - right. left. reflexivity.
Qed.

(** Where the chain in force comes from. *)
Theorem cif_announced h : forall o c, Forall op_ok h -> run new h = Ok o -> ks_cif (o_keys o) = Some c ->
  exists p x q o1 o2 id d svn g hk mk f pk, h = p ++ x :: q /\ run new p = Ok o1 /\ step o1 x = Ok o2 /\ id < 12 /\
    dsm_received (p ++ [x]) id d /\ subframe_received (p ++ [x]) svn g hk mk /\ kroot_verifies o1 d (nth 0 hk 0) f pk /\
    cif_cid c = header_chain (nth 0 hk 0) /\
    match cif_start c with
    | Some g' => g' = g /\ exists c', ks_cif (o_keys o1) = Some c' /\ cif_cid c' <> cif_cid c
    | None => forall c', ks_cif (o_keys o1) = Some c' -> cif_cid c' = cif_cid c
    end /\
    forall q1 q2 o3, q = q1 ++ q2 -> run o2 q1 = Ok o3 -> ks_cif (o_keys o3) = Some c.
Proof.
  induction h as [|x h IH] using rev_ind; intros o c Hok Hrun Hc.
  { injection Hrun as <-. discriminate Hc. }
  apply Forall_app in Hok. destruct Hok as (Hok & Hx). apply Forall_cons_iff in Hx.
  rewrite run_snoc in Hrun. bind_inv Hrun. rename x0 into oh.
  destruct (step_cif h oh x o Hok (proj1 Hx) E Hrun) as [H|[H|(c' & id & d & svn & g & hk & mk & f & pk & H & Q)]].
  - rewrite H in Hc. destruct (IH _ _ Hok E Hc)
      as (p & y & q & o1 & o2 & id & d & svn & g & hk & mk & f & pk & Q1 & Q2 & Q3 & Q4 & Q5 & Q6 & Q7 & Q8 & Q9 & Q10).
    exists p, y, (q ++ [x]), o1, o2, id, d, svn, g, hk, mk, f, pk.
    split; [rewrite Q1, <- app_assoc; reflexivity|].
    do 8 (split; [assumption|]). intros q1 q2 o3 Eq Hq.
    destruct q2 as [|z q2 _] using rev_ind.
    + rewrite app_nil_r in Eq. subst q1. rewrite run_snoc in Hq. bind_inv Hq.
      assert (Eh : run new h = Ok x0).
      { rewrite Q1, run_app, Q2. cbn [bind run fold_outcome]. rewrite Q3. exact E0. }
      assert (x0 = oh) by congruence. subst x0. congruence.
    + rewrite app_assoc in Eq. apply app_inj_tail in Eq. destruct Eq as (Eq & _). now apply (Q10 q1 q2 o3).
  - congruence.
  - assert (c' = c) by congruence. subst c'.
    exists h, x, [], oh, o, id, d, svn, g, hk, mk, f, pk. split; [reflexivity|]. split; [exact E|]. split; [exact Hrun|].
    destruct Q as (Q1 & Q2 & Q3 & Q4 & Q5 & Q6). do 6 (split; [assumption|]).
    intros q1 q2 o3 Eq Hq. symmetry in Eq. apply app_eq_nil in Eq. destruct Eq as (-> & _). injection Hq as <-. exact Hc.
Qed.

Lemma current_key_chain ks k : current_key ks = Some k -> exists c, ks_cif ks = Some c /\ chain_of k = cif_cid c.
Proof.
  unfold current_key. destruct (ks_cif ks) as [c|]; [|discriminate]. intros H. exists c. split; [reflexivity|].
  destruct (find_key_spec _ _ _ H) as (_ & E). unfold chain_of. lia.
Qed.

(** The stored data changes in a call for an OSNMA word only with a new key of the chain in
    force. *)
Theorem nav_change_chain h o data svn gk o' : Forall op_ok h -> op_ok (FeedOsnma data svn gk) -> run new h = Ok o ->
  step o (FeedOsnma data svn gk) = Ok o' -> o_nav o' <> o_nav o ->
  exists c key, ks_cif (o_keys o') = Some c /\ held (o_keys o') key /\ chain_of key = cif_cid c /\ k_gst key = subframe_of gk /\
    forall k, held (o_keys o) k -> chain_of k = chain_of key -> time_of (k_gst k) < time_of (k_gst key).
Proof.
  intros Hok Hx Hrun Hstep Hn. destruct (reachable_inv HC HS root user slow _ _ Hok Hrun) as (Hinv & Hst & Hko).
  pose proof Hstep as Hst'. cbn [step] in Hstep.
  destruct (feed_osnma_cases root user slow _ _ _ _ _ _ Hok Hx Hinv Hstep) as (sf & Hsub & Hrest & [->|(hk & mk & Hrec & Hp)]).
  { now elim Hn. }
  destruct (process_subframe_cases _ _ _ _ _ _ Hp) as (ms & cd & d & o2 & E0 & E1 & E2 & E3).
  set (o1 := set_dsm cd (set_mack ms (set_sub sf o))) in *.
  assert (Hst1 : stores_ok o1) by exact Hst.
  assert (Hst2 : stores_ok o2 /\ o_nav o2 = o_nav o /\ (forall k k', held (o_keys o) k -> held (o_keys o2) k' -> chain_of k' = chain_of k -> k' = k)).
  { destruct d as [d|].
    - split; [now apply process_dsm_stores in E2|]. split.
      + apply process_dsm_effect in E2.
        destruct E2 as [->|pk key ps Et Hpk Hkey Hps Hid ->|r pk ps Et Hm Hvp Hps ->|r Et Hm Hvp ->]; try reflexivity.
        unfold process_nma_header. destruct (nma_status _), (nma_cpks _); reflexivity.
      + intros k k' Hk Hk' E. exact (process_dsm_keys o1 d _ _ o2 k k' Hst1 E2 Hk Hk' E).
    - subst o2. split; [exact Hst1|]. split; [reflexivity|]. intros k k' Hk Hk' E.
      exact (held_unique _ _ _ (proj2 Hst1) Hk' Hk E). }
  destruct Hst2 as (Hst2 & Hn2 & Hk2).
  apply validate_key_effect in E3. destruct E3 as [->|cur key ks Hc Hv Hlt Hch Hg Hstk Ht]; [contradiction|].
  apply process_tags_trust in Ht. destruct Ht as ((_ & _ & Ht) & _). cbn [set_keys o_keys] in Ht.
  destruct (store_key_spec _ _ _ (proj2 Hst2) Hstk) as (_ & S2 & S3 & _).
  destruct (current_key_chain _ _ Hc) as (c & C1 & C2).
  exists c, key. rewrite Ht, S3. split; [exact C1|]. split; [exact S2|].
  assert (Ek : chain_of key = chain_of cur) by (unfold chain_of; now rewrite Hch).
  split; [now rewrite Ek|]. split; [exact Hg|].
  intros k Hk E. assert (cur = k).
  { apply (Hk2 k cur Hk); [now apply current_key_in|]. congruence. }
  subst cur.
  assert (Hok' : Forall op_ok (h ++ [FeedOsnma data svn gk])) by (apply Forall_app; split; [exact Hok|]; constructor; [exact Hx|constructor]).
  destruct (reachable_inv HC HS root user slow (h ++ [FeedOsnma data svn gk]) o' Hok') as (_ & _ & Hko').
  { rewrite run_snoc, Hrun. exact Hst'. }
  rewrite <- Ht in S2. pose proof (ko_gst _ (Hko _ Hk)) as G1. pose proof (ko_gst _ (Hko' _ S2)) as G2.
  apply gst_ltb_time; auto. unfold gst_ltb. now rewrite Hlt.
Qed.

End Run.
End Crypto.

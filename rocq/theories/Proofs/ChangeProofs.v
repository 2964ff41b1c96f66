(** What the calls of a history can change in the keys, in terms of the messages received. *)
From Coq Require Import ZArith List Bool Lia ZifyBool ZifyNat.
From Verif Require Import Model.Prelude Model.Params Model.Gst Model.Svn Model.Bitfields
  Model.Tesla Model.Merkle Model.Subframe Model.Dsm Model.MackStore Model.Nav Model.Osnma
  Spec.TimeSpec Spec.CollectSpec Spec.NavSpec Spec.TeslaSpec Spec.KrootSpec Spec.MerkleSpec Spec.KeySpec Spec.SystemSpec
  Proofs.Base Proofs.GstProofs Proofs.TeslaProofs Proofs.KrootProofs Proofs.MerkleProofs Proofs.SystemProofs
  Proofs.KeyStoreProofs Proofs.StepProofs Proofs.AlertProofs.
Import ListNotations.
Open Scope Z_scope.

Section Crypto.
Context {C : crypto} {B : build} {S : storage}.
Hypothesis HC : crypto_ok C.
Hypothesis HS : storage_ok S.

Section Run.
Variables (root : option (list Z)) (user : option public_key) (slow : bool).
Notation inv := (inv root user slow).
Notation new := (osnma_new root user slow).

(** What a call leads to. *)
Lemma step_cases h o x o' : Forall op_ok h -> op_ok x -> inv h o -> step o x = Ok o' ->
  same_trust o o' \/
  exists svn g hk mk o1 o2,
    subframe_received (h ++ [x]) svn g hk mk /\ same_trust o o1 /\ o_nav o1 = o_nav o /\
    (o2 = o1 \/
     exists d, dsm_received (h ++ [x]) (dm_id d) (dm_data d) /\
       dm_type d = (if dm_id d <? 12 then DsmKroot else DsmPkr) /\
       process_dsm o1 d (nth 0 hk 0) g = Ok o2) /\
    osnma_validate_key o2 mk g = Ok o'.
Proof.
  intros Hok Hx Hinv H. destruct x as [word svn g b|data svn g]; cbn [step] in H.
  - left. unfold feed_inav in H. bind_inv H. injection H as <-. now repeat split.
  - destruct (feed_osnma_cases root user slow _ _ _ _ _ _ Hok Hx Hinv H)
      as (sf & Hsub & Hrest & [->|(hk & mk & Hrec & Hp)]).
    + left. now repeat split.
    + right. destruct (process_subframe_cases _ _ _ _ _ _ Hp) as (ms & cd & d & o2 & E0 & E1 & E2 & E3).
      assert (Hok' : Forall op_ok (h ++ [FeedOsnma data svn g])).
      { apply Forall_app. split; [exact Hok|]. constructor; [exact Hx|constructor]. }
      destruct (subframe_stored HS _ _ _ _ _ _ _ _ _ _ _ _ Hok' Hrest Hrec E0 E1) as (_ & Hd).
      exists svn, (subframe_of g), hk, mk, (set_dsm cd (set_mack ms (set_sub sf o))), o2.
      split; [exact Hrec|]. split; [now repeat split|]. split; [reflexivity|]. split; [|exact E3].
      destruct d as [d|]; [|now left]. right. exists d. destruct (Hd d eq_refl) as (D1 & D2). auto.
Qed.

Lemma reachable_inv h o : Forall op_ok h -> run new h = Ok o -> inv h o /\ stores_ok o /\ forall k, held (o_keys o) k -> key_ok k.
Proof.
  intros Hok H. pose proof (run_inv HC HS root user slow h Hok o H) as Hinv.
  split; [exact Hinv|]. split; [exact (run_stores _ _ _ (new_stores root user slow) H)|].
  intros k Hk. now apply (ri_keys _ _ _ _ _ (proj2 Hinv)).
Qed.

Lemma same_advanced o o' : same_trust o o' -> keys_advanced o o'.
Proof.
  intros (H1 & H2 & H3). unfold keys_advanced. rewrite H3. split; [exact H1|]. split; [exact H2|]. split; [reflexivity|].
  split; intros k Hk; exists k; repeat split; auto; lia.
Qed.

Lemma validate_advanced o mk g o' : keys_distinct (o_keys o) ->
  (forall k, held (o_keys o) k -> key_ok k) -> (forall k, held (o_keys o') k -> key_ok k) ->
  osnma_validate_key o mk g = Ok o' -> keys_advanced o o'.
Proof.
  intros Hs Hk1 Hk2 H. apply validate_key_effect in H. destruct H as [->|cur key ks Hc Hv Hlt Hch Hg Hst Ht].
  { apply same_advanced. now repeat split. }
  apply process_tags_trust in Ht. destruct Ht as ((H1 & H2 & Ht) & _). cbn [set_keys o_keys o_merkle o_pub] in Ht, H1, H2.
  apply current_key_in in Hc. destruct (store_key_spec _ _ _ Hs Hst) as (_ & S2 & S3 & S4 & S5).
  split; [exact H1|]. split; [exact H2|]. rewrite Ht in *. split; [exact S3|]. split.
  - intros k Hk. destruct (S4 k Hk) as [->|(Hh & _)].
    + exists cur. split; [exact Hc|]. split; [exact Hch|].
      rewrite gst_cmp_time in Hlt; [|apply Hk1, Hc|apply Hk2, S2].
      apply Z.compare_lt_iff in Hlt. now apply Z.lt_le_incl.
    + exists k. repeat split; auto; lia.
  - intros k Hk. destruct (Z.eq_dec (chain_of k) (chain_of key)) as [E|E].
    + exists key. split; [exact S2|]. rewrite Hch. f_equal. symmetry. apply (held_unique _ _ _ Hs Hk Hc).
      rewrite E. unfold chain_of. now rewrite Hch.
    + exists k. split; [now apply S5|reflexivity].
Qed.

Lemma same_trust_advanced o o1 o' : same_trust o o1 -> keys_advanced o1 o' -> keys_advanced o o'.
Proof. intros (H1 & H2 & H3). unfold keys_advanced. now rewrite H1, H2, H3. Qed.

Lemma same_trust_verifies o o1 d hd : same_trust o o1 -> dsm_verifies o1 d hd -> dsm_verifies o d hd.
Proof.
  intros (H1 & H2 & H3). unfold dsm_verifies, kroot_verifies, pkr_verifies. rewrite H1, H2. auto.
Qed.

(** The keys change, other than by advancing on their chains, only by a message that verifies. *)
Theorem step_verifies h o x o' : Forall op_ok h -> op_ok x -> run new h = Ok o -> step o x = Ok o' ->
  keys_advanced o o' \/
  exists d svn g hk mk, dsm_received (h ++ [x]) (dm_id d) (dm_data d) /\
    subframe_received (h ++ [x]) svn g hk mk /\ dsm_verifies o d (nth 0 hk 0).
Proof.
  intros Hok Hx Hrun Hstep. destruct (reachable_inv _ _ Hok Hrun) as (Hinv & Hst & Hko).
  assert (Hok' : Forall op_ok (h ++ [x])) by (apply Forall_app; split; [exact Hok|]; constructor; [exact Hx|constructor]).
  assert (Hrun' : run new (h ++ [x]) = Ok o') by (rewrite run_snoc, Hrun; exact Hstep).
  destruct (reachable_inv _ _ Hok' Hrun') as (Hinv' & Hst' & Hko').
  destruct (step_cases _ _ _ _ Hok Hx Hinv Hstep) as [Hs|(svn & g & hk & mk & o1 & o2 & Hsf & Hs & _ & Hd & Hv)].
  { left. now apply same_advanced. }
  pose proof (same_trust_stores _ _ Hs Hst) as Hst1.
  assert (o2 = o1 \/ exists d, dsm_received (h ++ [x]) (dm_id d) (dm_data d) /\ dsm_verifies o d (nth 0 hk 0)) as [E|(d & D1 & D2)].
  { destruct Hd as [E|(d & D1 & D2 & D3)]; [now left|].
    assert (Hb : is_byte (nth 0 hk 0)).
    { destruct (subframe_received_bytes _ _ _ _ _ Hok' Hsf) as ((Hlen & Hhk) & _).
      rewrite Forall_forall in Hhk. apply Hhk. apply nth_In. lia. }
    destruct (effect_verifies HC o1 d (nth 0 hk 0) g o2 Hb (dsm_received_bytes _ _ _ Hok' D1) D3) as [E|E]; [now left|].
    right. exists d. split; [exact D1|]. now apply same_trust_verifies with o1. }
  - left. subst o2. apply same_trust_advanced with o1; [exact Hs|].
    apply validate_advanced with mk g; [apply Hst1| |exact Hko'|exact Hv].
    destruct Hs as (_ & _ & Hs). now rewrite Hs.
  - right. exists d, svn, g, hk, mk. auto.
Qed.

(** A chain without a key gets one only by a KROOT of the chain that verifies. *)
Theorem step_chain_back h o x o' c : Forall op_ok h -> op_ok x -> run new h = Ok o -> step o x = Ok o' ->
  (forall k, held (o_keys o) k -> chain_of k <> c) ->
  (forall k, held (o_keys o') k -> chain_of k <> c) \/
  exists id d svn g hk mk f pk, id < 12 /\ dsm_received (h ++ [x]) id d /\
    subframe_received (h ++ [x]) svn g hk mk /\ kroot_verifies o d (nth 0 hk 0) f pk /\ kf_cid f = c.
Proof.
  intros Hok Hx Hrun Hstep Hgone. destruct (reachable_inv _ _ Hok Hrun) as (Hinv & Hst & Hko).
  assert (Hok' : Forall op_ok (h ++ [x])) by (apply Forall_app; split; [exact Hok|]; constructor; [exact Hx|constructor]).
  destruct (step_cases _ _ _ _ Hok Hx Hinv Hstep) as [(_ & _ & Hs)|(svn & g & hk & mk & o1 & o2 & Hsf & Hs & _ & Hd & Hv)].
  { left. now rewrite Hs. }
  pose proof (same_trust_stores _ _ Hs Hst) as Hst1. destruct Hs as (Hs1 & Hs2 & Hs3).
  assert (Hst2 : stores_ok o2).
  { destruct Hd as [->|(d & _ & _ & Hd)]; [exact Hst1|]. now apply process_dsm_stores in Hd. }
  assert ((forall k, held (o_keys o2) k -> chain_of k <> c) \/
    exists id d f pk, id < 12 /\ dsm_received (h ++ [x]) id d /\ kroot_verifies o d (nth 0 hk 0) f pk /\ kf_cid f = c)
    as [Hg2|(id & d & f & pk & Q)].
  3: { right. exists id, d, svn, g, hk, mk, f, pk. intuition. }
  { destruct Hd as [->|(d & D1 & D2 & D3)]; [left; now rewrite Hs3|].
    assert (Hb : is_byte (nth 0 hk 0)).
    { destruct (subframe_received_bytes _ _ _ _ _ Hok' Hsf) as ((Hlen & Hhk) & _).
      rewrite Forall_forall in Hhk. apply Hhk. apply nth_In. lia. }
    apply process_dsm_effect in D3.
    destruct D3 as [->|pk key ps Et Hpk Hkey Hps Hid ->|r pk ps Et Hm Hvp Hps ->|r Et Hm Hvp ->].
    - left. now rewrite Hs3.
    - destruct (Z.eq_dec (chain_of key) c) as [E|E].
      + right. destruct (key_from_dsm_kroot_sound HC _ _ _ _ Hb (dsm_received_bytes _ _ _ Hok' D1) Hkey)
          as (f & F1 & F2 & F3 & _).
        exists (dm_id d), (dm_data d), f, pk. rewrite Et in D2.
        split; [destruct (dm_id d <? 12) eqn:El; [lia|discriminate]|]. split; [exact D1|]. split.
        * split; [exact F1|]. rewrite <- Hs2. split; [exact Hpk|].
          rewrite (kroot_pkid_layout _ _ F1) in Hid. injection Hid as Hid. auto.
        * rewrite <- (kk_id _ _ F3). exact E.
      + left. intros q Hq. apply process_nma_header_held in Hq. apply store_kroot_held in Hq.
        destruct Hq as [Hq| ->]; [rewrite Hs3 in Hq; now apply Hgone|exact E].
    - left. cbn [set_pub o_keys]. now rewrite Hs3.
    - left. intros q [Hq|Hq]; discriminate Hq. }
  left. apply validate_key_effect in Hv. destruct Hv as [->|cur key ks Hc Hv Hlt Hch Hg Hstk Ht]; [exact Hg2|].
  apply process_tags_trust in Ht. destruct Ht as ((_ & _ & Ht) & _). cbn [set_keys o_keys] in Ht. rewrite Ht.
  destruct (store_key_spec _ _ _ (proj2 Hst2) Hstk) as (_ & _ & _ & S4 & _).
  intros q Hq. destruct (S4 q Hq) as [->|(Hq' & _)]; [|now apply Hg2].
  unfold chain_of. rewrite Hch. apply Hg2. now apply current_key_in.
Qed.

Theorem run_chain_back h1 h2 : forall o1 o2 c, Forall op_ok (h1 ++ h2) -> run new h1 = Ok o1 -> run o1 h2 = Ok o2 ->
  (forall k, held (o_keys o1) k -> chain_of k <> c) ->
  (forall k, held (o_keys o2) k -> chain_of k <> c) \/
  exists p x q o id d svn g hk mk f pk, h2 = p ++ x :: q /\ run o1 p = Ok o /\ id < 12 /\
    dsm_received (h1 ++ p ++ [x]) id d /\ subframe_received (h1 ++ p ++ [x]) svn g hk mk /\
    kroot_verifies o d (nth 0 hk 0) f pk /\ kf_cid f = c.
Proof.
  induction h2 as [|x h2 IH] using rev_ind; intros o1 o2 c Hok H1 H2 Hgone.
  { injection H2 as <-. now left. }
  rewrite app_assoc in Hok. apply Forall_app in Hok. destruct Hok as (Hok & Hx). apply Forall_cons_iff in Hx.
  rewrite run_snoc in H2. bind_inv H2. rename x0 into o.
  destruct (IH _ _ _ Hok H1 E Hgone) as [Hg|(p & y & q & o' & id & d & svn & g & hk & mk & f & pk & Q1 & Q)].
  - destruct (step_chain_back (h1 ++ h2) o x o2 c Hok (proj1 Hx)) as [Hg'|(id & d & svn & g & hk & mk & f & pk & Q)]; auto.
    + rewrite run_app, H1. exact E.
    + right. exists h2, x, [], o, id, d, svn, g, hk, mk, f, pk. rewrite <- app_assoc in Q. intuition.
  - right. exists p, y, (q ++ [x]), o', id, d, svn, g, hk, mk, f, pk. split; [|exact Q].
    rewrite Q1, <- app_assoc. reflexivity.
Qed.
End Run.

(** ** Revocations *)

Lemma header_chain_revoked hd : is_byte hd -> header_status hd = status_dont_use -> header_cpks hd = cpks_chain_revoked ->
  nma_status hd = NmaDontUse /\ nma_cpks hd = CpksChainRevoked.
Proof.
  intros Hb H1 H2. destruct (header_fields hd Hb) as (F1 & _ & F2). rewrite H1 in F1. rewrite H2 in F2.
  destruct (nma_status hd); try discriminate F1. destruct (nma_cpks hd); try discriminate F2. now split.
Qed.
Lemma header_pk_revoked hd : is_byte hd -> header_status hd = status_dont_use -> header_cpks hd = cpks_public_key_revoked ->
  nma_status hd = NmaDontUse /\ nma_cpks hd = CpksPublicKeyRevoked.
Proof.
  intros Hb H1 H2. destruct (header_fields hd Hb) as (F1 & _ & F2). rewrite H1 in F1. rewrite H2 in F2.
  destruct (nma_status hd); try discriminate F1. destruct (nma_cpks hd); try discriminate F2. now split.
Qed.

(** A KROOT that announces the revocation of the chain, if it changes anything, leaves no key of
    the chain. *)
Lemma kroot_revokes o d hd g f pk k : stores_ok o -> is_byte hd -> Forall is_byte (dm_data d) -> dm_type d = DsmKroot ->
  kroot_verifies o (dm_data d) hd f pk -> kroot_key f k -> gst_ok (k_gst k) ->
  (overflow_checks = true -> 30 <= 604800 * kf_wn f + 3600 * kf_towh f) ->
  (forall k521, pk_key pk = VkP521 k521 -> feature_p521 = true) ->
  header_status hd = status_dont_use -> header_cpks hd = cpks_chain_revoked \/ header_cpks hd = cpks_public_key_revoked ->
  exists o', process_dsm o d hd g = Ok o' /\ (forall q, held (o_keys o') q -> chain_of q <> header_chain hd) /\
    ps_current (o_pub o') = Some pk /\
    (forall p, held_pub (o_pub o') p <-> held_pub (o_pub o) p /\ pk_id pk <= pk_id p).
Proof.
  intros Hst Hb Hd Ht Hv Hk Hg Hu Hf Hs Hc.
  destruct (kroot_accepted HC o d hd g f pk k Hst Hb Hd Ht Hv Hk Hg Hu Hf) as (ps & Eps & E).
  destruct Hv as (_ & Hpk & _). destruct Hst as (Hp & Hkd).
  destruct (make_current_spec _ _ Hp Hpk) as (ps' & E' & Hok & Hcur & M1 & M2). rewrite E' in Eps. injection Eps as <-.
  eexists. split; [exact E|]. destruct (header_fields hd Hb) as (_ & <- & _). unfold process_nma_header.
  destruct Hc as [Hc|Hc].
  - destruct (header_chain_revoked hd Hb Hs Hc) as (-> & ->). cbn [set_keys set_pub o_keys o_pub].
    split; [|split; [exact Hcur|]].
    + intros q Hq. now apply keys_revoke_held in Hq.
    + intros p. split; [apply M1|]. intros (A & A'). now apply M2.
  - destruct (header_pk_revoked hd Hb Hs Hc) as (-> & ->). cbn [set_keys set_pub o_keys o_pub].
    rewrite (pubs_revoke_id _ _ Hok Hcur). split; [|split; [exact Hcur|]].
    + intros q Hq. now apply keys_revoke_held in Hq.
    + intros p. split; [apply M1|]. intros (A & A'). now apply M2.
Qed.

End Crypto.

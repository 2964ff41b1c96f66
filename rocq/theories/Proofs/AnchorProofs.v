(** Only an alert takes the Merkle tree root and the public keys away. *)
From Coq Require Import ZArith List Bool Lia ZifyBool ZifyNat.
From Verif Require Import Model.Prelude Model.Params Model.Gst Model.Bitfields Model.Tesla Model.Merkle Model.Dsm Model.Osnma
  Spec.TimeSpec Spec.CollectSpec Spec.NavSpec Spec.TeslaSpec Spec.KrootSpec Spec.MerkleSpec Spec.KeySpec Spec.SystemSpec Spec.LogSpec
  Proofs.Base Proofs.TeslaProofs Proofs.KrootProofs Proofs.MerkleProofs Proofs.SystemProofs Proofs.KeyStoreProofs Proofs.AlertProofs
  Proofs.StepProofs Proofs.LogRunProofs.
Import ListNotations.
Open Scope Z_scope.

Section Crypto.
Context {C : crypto} {B : build} {S : storage}.
Hypothesis HC : crypto_ok C.
Hypothesis HS : storage_ok S.
Variables (root : option (list Z)) (user : option public_key) (slow : bool).
Notation new := (osnma_new root user slow).

Lemma pkr_was_verified_mono h q f : pkr_was_verified root h f -> pkr_was_verified root (h ++ q) f.
Proof. intros (r & id & d & H1 & H2 & H3 & H4). exists r, id, d. split; [exact H1|]. split; [exact H2|]. split; [now apply dsm_received_mono|exact H4]. Qed.
Lemma kroot_was_verified_mono h q hd f kr : kroot_was_verified root user h hd f kr -> kroot_was_verified root user (h ++ q) hd f kr.
Proof.
  intros (id & d & pk & svn & g & hk & mk & H1 & H2 & H3 & H4 & H5 & H6 & H7). exists id, d, pk, svn, g, hk, mk.
  split; [exact H1|]. split; [now apply dsm_received_mono|]. split; [exact H3|]. split; [now apply subframe_received_mono|].
  split; [exact H5|]. split; [now apply trusted_pubkey_mono|exact H7].
Qed.
Lemma alerted_mono h q : alerted root user h -> alerted root user (h ++ q).
Proof.
  intros [(f & H1 & H2)|(hd & f & kr & H1 & H2)].
  - left. exists f. split; [now apply pkr_was_verified_mono|exact H2].
  - right. exists hd, f, kr. split; [now apply kroot_was_verified_mono|exact H2].
Qed.

(** The tree root is still there, and a public key with at least this id. *)
Definition anchored (b : option Z) (h : list op) (o : osnma) : Prop :=
  alerted root user h \/
  (o_merkle o = root /\ forall i, b = Some i -> exists c, ps_current (o_pub o) = Some c /\ i <= pk_id c).

Lemma anchored_mono b h q o : anchored b h o -> anchored b (h ++ q) o.
Proof. intros [H|H]; [left; now apply alerted_mono|now right]. Qed.
Lemma anchored_same b h o o' : o_merkle o' = o_merkle o -> o_pub o' = o_pub o -> anchored b h o -> anchored b h o'.
Proof. unfold anchored. intros -> ->. exact (fun H => H). Qed.

Lemma process_dsm_anchored b h o m svn g hk mk o2 : Forall op_ok h -> rest_inv root user slow h o -> stores_ok o ->
  subframe_received h svn g hk mk -> dsm_received h (dm_id m) (dm_data m) ->
  dm_type m = (if dm_id m <? 12 then DsmKroot else DsmPkr) ->
  process_dsm o m (nth 0 hk 0) g = Ok o2 -> anchored b h o -> anchored b h o2.
Proof.
  intros Hok Hinv (Hp & _) Hsf Hd Ht H [Ha|(Hm & Hb)]; [now left|].
  destruct (subframe_received_bytes _ _ _ _ _ Hok Hsf) as ((Hlen & Hhk) & _).
  assert (Hb0 : is_byte (nth 0 hk 0)).
  { rewrite Forall_forall in Hhk. apply Hhk. apply nth_In. lia. }
  pose proof (dsm_received_bytes _ _ _ Hok Hd) as Hdb.
  apply process_dsm_effect in H.
  destruct H as [->|pk key ps Et Hpk Hkey Hps Hid ->|r pk ps Et Hr Hv Hps ->|r Et Hr Hv ->].
  - right. now split.
  - assert (Hlt : dm_id m < 12) by (rewrite Et in Ht; destruct (dm_id m <? 12) eqn:E; [lia|discriminate Ht]).
    destruct (key_from_dsm_kroot_sound HC _ _ _ _ Hb0 Hdb Hkey) as (f & HL & Hver & Hkk & _).
    rewrite (kroot_pkid_layout _ _ HL) in Hid. assert (Hpf : kf_pkid f = pk_id pk) by congruence.
    assert (Hk : kroot_was_verified root user h (nth 0 hk 0) f key).
    { exists (dm_id m), (dm_data m), pk, svn, g, hk, mk. split; [exact Hlt|]. split; [exact Hd|]. split; [exact HL|].
      split; [exact Hsf|]. split; [reflexivity|]. split; [exact (ri_pub _ _ _ _ _ Hinv pk Hpk)|]. split; [now symmetry|]. now split. }
    destruct (make_current_spec _ _ Hp Hpk) as (ps' & E & Hok' & Hcur & M1 & M2). rewrite E in Hps. injection Hps as <-.
    assert (Hps' : o_merkle o = root /\ forall i, b = Some i -> exists c, ps_current ps' = Some c /\ i <= pk_id c).
    { split; [exact Hm|]. intros i Hi. destruct (Hb i Hi) as (c & Hc & Hle). exists pk. split; [exact Hcur|].
      destruct Hpk as [Hpk|Hpk]; [assert (c = pk) by congruence; now subst|].
      destruct (Hp pk Hpk) as (c' & Hc' & L). assert (c' = c) by congruence. subst. lia. }
    destruct (header_fields _ Hb0) as (_ & _ & Hc3).
    unfold process_nma_header. destruct (nma_cpks (nth 0 hk 0)) eqn:Ec; try (destruct (nma_status (nth 0 hk 0));
      cbn [set_keys set_pub o_pub o_merkle]; right; cbn [set_keys set_pub o_pub o_merkle];
      rewrite ?(pubs_revoke_id ps' pk Hok' Hcur); exact Hps').
    left. right. exists (nth 0 hk 0), f, key. split; [exact Hk|]. rewrite <- Hc3. reflexivity.
  - destruct (store_new_spec (o_pub o) pk Hp) as (ps' & E & _ & _ & Hc). rewrite E in Hps. injection Hps as <-.
    right. cbn [set_pub o_merkle o_pub]. split; [exact Hm|]. intros i Hi. destruct (Hb i Hi) as (c & Hcc & Hle).
    exists c. split; [exact (Hc c Hcc)|exact Hle].
  - left. left. destruct (validate_alert_sound r (dm_data m) tt Hdb Hv) as (f & HL & Hr' & Hn). exists f. split; [|exact Hn].
    exists r, (dm_id m), (dm_data m). split; [congruence|].
    split; [rewrite Et in Ht; destruct (dm_id m <? 12) eqn:E; [discriminate Ht|lia]|]. now split.
Qed.

Lemma step_anchored b h o x o' : Forall op_ok h -> op_ok x -> inv root user slow h o -> stores_ok o ->
  step o x = Ok o' -> anchored b h o -> anchored b (h ++ [x]) o'.
Proof.
  intros Hok Hx Hinv Hsto H Ha. apply (anchored_mono _ _ [x]) in Ha.
  assert (Hok2 : Forall op_ok (h ++ [x])).
  { apply Forall_app. split; [exact Hok|]. constructor; [exact Hx|constructor]. }
  destruct x as [word svn g w|data svn g]; cbn [step] in H.
  { unfold feed_inav in H. bind_inv H. injection H as <-. exact Ha. }
  destruct (feed_osnma_cases root user slow h o o' data svn g Hok Hx Hinv H) as (sf & _ & Hrest & [->|(hk & mk & Hsf & Hpr)]).
  { exact Ha. }
  destruct (process_subframe_cases _ _ _ _ _ _ Hpr) as (ms & cd & d & o2 & E0 & E1 & E2 & E3).
  cbn [set_sub o_mack o_dsm] in E0, E1.
  destruct (subframe_stored HS _ _ _ _ _ _ _ _ _ ms cd d Hok2 Hrest Hsf E0 E1) as (Hinv2 & Hm).
  assert (H2 : anchored b (h ++ [FeedOsnma data svn g]) o2).
  { destruct d as [m|]; [|subst o2; exact Ha]. destruct (Hm m eq_refl) as (Hd & Ht).
    exact (process_dsm_anchored b _ _ m svn _ hk mk o2 Hok2 Hinv2 Hsto Hsf Hd Ht E2 Ha). }
  apply validate_key_effect in E3. destruct E3 as [->|cur key ks Hc Hv Hlt Hch Hg Hst Hpt]; [exact H2|].
  apply process_tags_trust in Hpt. destruct Hpt as ((Ht & Ht' & _) & _). cbn [set_keys o_pub o_merkle] in Ht, Ht'.
  exact (anchored_same _ _ _ _ Ht Ht' H2).
Qed.

Lemma run_anchored h1 h2 : forall o1 o2, Forall op_ok (h1 ++ h2) -> run new h1 = Ok o1 -> run o1 h2 = Ok o2 ->
  anchored (option_map pk_id user) h1 o1 ->
  anchored (option_map pk_id user) (h1 ++ h2) o2 /\ anchored (option_map pk_id (ps_current (o_pub o1))) (h1 ++ h2) o2.
Proof.
  intros o1 o2 Hok R1 R2 A1. assert (Hok1 : Forall op_ok h1) by now apply Forall_app in Hok.
  assert (A2 : anchored (option_map pk_id (ps_current (o_pub o1))) h1 o1).
  { destruct A1 as [A1|(A1 & _)]; [now left|]. right. split; [exact A1|]. intros i Hi. destruct (ps_current (o_pub o1)) as [c|]; [|discriminate].
    exists c. split; [reflexivity|]. cbn in Hi. injection Hi as <-. lia. }
  revert A1 A2. generalize (option_map pk_id user). generalize (option_map pk_id (ps_current (o_pub o1))). intros b2 b1 A1 A2.
  revert o2 Hok R2. induction h2 as [|x h2 IH] using rev_ind; intros o2 Hok R2.
  { injection R2 as <-. rewrite app_nil_r. now split. }
  rewrite run_snoc in R2. bind_inv R2. rename x0 into o. rewrite app_assoc in Hok |- *.
  apply Forall_app in Hok. destruct Hok as (Hok & Hx). apply Forall_cons_iff in Hx. destruct Hx as (Hx & _).
  destruct (IH o Hok E) as (I1 & I2).
  assert (R : run new (h1 ++ h2) = Ok o) by (rewrite run_app, R1; exact E).
  pose proof (run_inv HC HS root user slow _ Hok _ R) as Hinv. pose proof (run_stores _ _ _ (new_stores root user slow) R) as Hsto.
  split; [exact (step_anchored _ _ _ _ _ Hok Hx Hinv Hsto R2 I1)|exact (step_anchored _ _ _ _ _ Hok Hx Hinv Hsto R2 I2)].
Qed.

Lemma new_anchored : anchored (option_map pk_id user) [] new.
Proof.
  right. split; [reflexivity|]. intros i Hi. destruct user as [pk|]; [|discriminate]. cbn in Hi. injection Hi as <-.
  exists pk. split; [reflexivity|lia].
Qed.

Lemma reachable_anchored h o : Forall op_ok h -> run new h = Ok o -> anchored (option_map pk_id user) h o.
Proof. intros Hok R. exact (proj1 (run_anchored [] h new o Hok eq_refl R new_anchored)). Qed.

Theorem trust_is_kept h1 h2 o1 o2 : Forall op_ok (h1 ++ h2) -> run new h1 = Ok o1 -> run o1 h2 = Ok o2 ->
  ~ alerted root user (h1 ++ h2) ->
  o_merkle o2 = root /\
  (forall pk, user = Some pk -> exists c, ps_current (o_pub o2) = Some c /\ pk_id pk <= pk_id c) /\
  (forall pk, ps_current (o_pub o1) = Some pk -> exists c, ps_current (o_pub o2) = Some c /\ pk_id pk <= pk_id c).
Proof.
  intros Hok R1 R2 Hn. assert (Hok1 : Forall op_ok h1) by now apply Forall_app in Hok.
  destruct (run_anchored h1 h2 o1 o2 Hok R1 R2 (reachable_anchored h1 o1 Hok1 R1)) as ([A|(A1 & A2)] & [A'|(_ & A3)]); try contradiction.
  split; [exact A1|]. split; intros pk Hpk; [apply A2|apply A3]; now rewrite Hpk.
Qed.
End Crypto.

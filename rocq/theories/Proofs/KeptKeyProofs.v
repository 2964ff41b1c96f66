(** The receiver keeps a key of the chain in force, and says that it has none only without one. *)
From Coq Require Import ZArith List Bool Lia ZifyBool ZifyNat.
From Verif Require Import Model.Prelude Model.Params Model.Gst Model.Bitfields Model.Tesla Model.Merkle Model.Subframe Model.Dsm Model.MackStore Model.Nav Model.Osnma
  Model.Logging
  Spec.TimeSpec Spec.CollectSpec Spec.NavSpec Spec.TeslaSpec Spec.KrootSpec Spec.MerkleSpec Spec.KeySpec Spec.SystemSpec Spec.LogSpec
  Spec.KeptKeySpec
  Proofs.Base Proofs.TeslaProofs Proofs.KrootProofs Proofs.MerkleProofs Proofs.SystemProofs Proofs.KeyStoreProofs Proofs.AlertProofs
  Proofs.StepProofs Proofs.LoggingProofs Proofs.LogRunProofs Proofs.AnchorProofs Proofs.LogTrueProofs.
Import ListNotations.
Open Scope Z_scope.

Lemma in_force_none ks : current_key ks = None -> ~ has_key_in_force ks.
Proof.
  intros H (c & k & Hc & Hk & E). unfold current_key in H. rewrite Hc in H. pose proof (find_key_none _ _ H k Hk) as X.
  unfold chain_of in E. cbv beta in X. lia.
Qed.

Lemma store_kroot_in_force ks key hd g : nma_chain_id hd = chain_of key -> has_key_in_force (store_kroot ks key hd g).
Proof.
  intros E. unfold store_kroot. unfold chain_of in E.
  assert (H : forall k0 k1, (exists k, (k0 = Some k \/ k1 = Some k) /\ chain_of k = nma_chain_id hd) ->
    forall s, has_key_in_force (mkKeys k0 k1 (Some (mkCif (nma_chain_id hd) s)))).
  { intros k0 k1 (k & Hk & Ek) s. exists (mkCif (nma_chain_id hd) s), k. split; [reflexivity|]. split; [exact Hk|exact Ek]. }
  destruct (has_chain_id (ks_k0 ks) (ch_id (k_chain key))) eqn:E0.
  { apply H. unfold has_chain_id in E0. destruct (ks_k0 ks) as [k|]; [|discriminate]. exists k. split; [now left|]. unfold chain_of. lia. }
  destruct (has_chain_id (ks_k1 ks) (ch_id (k_chain key))) eqn:E1.
  { apply H. unfold has_chain_id in E1. destruct (ks_k1 ks) as [k|]; [|discriminate]. exists k. split; [now right|]. unfold chain_of. lia. }
  destruct (ks_k0 ks) as [k0|]; [|apply H; exists key; split; [now left|now symmetry]].
  destruct (ks_k1 ks) as [k1|]; [|apply H; exists key; split; [now right|now symmetry]].
  destruct (ch_id (k_chain k0) =? nma_chain_id hd); apply H; exists key; (split; [tauto|now symmetry]).
Qed.

Section Crypto.
Context {C : crypto} {B : build} {S : storage}.
Hypothesis HC : crypto_ok C.
Hypothesis HS : storage_ok S.
Variables (root : option (list Z)) (user : option public_key) (slow : bool).
Notation new := (osnma_new root user slow).
Notation withdrawn := (key_withdrawn root user).

Lemma withdrawn_mono h q : withdrawn h -> withdrawn (h ++ q).
Proof.
  intros [H|(hd & f & kr & H1 & H2)]; [left; now apply alerted_mono|]. right. exists hd, f, kr.
  split; [now apply kroot_was_verified_mono|exact H2].
Qed.

Definition keyed (h : list op) (o : osnma) : Prop := withdrawn h \/ has_key_in_force (o_keys o).
Lemma keyed_mono h q o : keyed h o -> keyed (h ++ q) o.
Proof. intros [H|H]; [left; now apply withdrawn_mono|now right]. Qed.
Lemma keyed_same h o o' : o_keys o' = o_keys o -> keyed h o -> keyed h o'.
Proof. unfold keyed. intros ->. exact (fun H => H). Qed.

(** Whenever a DSM-KROOT is verified. *)
Lemma kroot_keyed h o m svn g hk mk pk key ps : Forall op_ok h -> rest_inv root user slow h o -> stores_ok o ->
  subframe_received h svn g hk mk -> dsm_received h (dm_id m) (dm_data m) ->
  dm_type m = (if dm_id m <? 12 then DsmKroot else DsmPkr) ->
  dm_type m = DsmKroot -> held_pub (o_pub o) pk ->
  key_from_dsm_kroot (nth 0 hk 0) (dm_data m) (pk_key pk) = Ok (ROk key) ->
  kroot_public_key_id (dm_data m) = Ok (pk_id pk) ->
  keyed h (process_nma_header (set_keys (store_kroot (o_keys o) key (nth 0 hk 0) g) (set_pub ps o)) (nth 0 hk 0) (pk_id pk)).
Proof.
  intros Hok Hinv (Hp & _) Hsf Hd Ht Et Hpk Hkey Hid.
  destruct (subframe_received_bytes _ _ _ _ _ Hok Hsf) as ((Hlen & Hhk) & _).
  assert (Hb0 : is_byte (nth 0 hk 0)).
  { rewrite Forall_forall in Hhk. apply Hhk. apply nth_In. lia. }
  pose proof (dsm_received_bytes _ _ _ Hok Hd) as Hdb.
  assert (Hlt : dm_id m < 12) by (rewrite Et in Ht; destruct (dm_id m <? 12) eqn:E; [lia|discriminate Ht]).
  destruct (key_from_dsm_kroot_sound HC _ _ _ _ Hb0 Hdb Hkey) as (f & HL & Hver & Hkk & _).
  rewrite (kroot_pkid_layout _ _ HL) in Hid. assert (Hpf : kf_pkid f = pk_id pk) by congruence.
  assert (Hk : kroot_was_verified root user h (nth 0 hk 0) f key).
  { exists (dm_id m), (dm_data m), pk, svn, g, hk, mk. split; [exact Hlt|]. split; [exact Hd|]. split; [exact HL|].
    split; [exact Hsf|]. split; [reflexivity|]. split; [exact (ri_pub _ _ _ _ _ Hinv pk Hpk)|]. split; [now symmetry|]. now split. }
  destruct (header_fields _ Hb0) as (Hc1 & Hc2 & Hc3).
  destruct (Z.eq_dec (header_chain (nth 0 hk 0)) (chain_of key)) as [Ech|Ech].
  2:{ left. right. exists (nth 0 hk 0), f, key. split; [exact Hk|now left]. }
  pose proof (store_kroot_in_force (o_keys o) key (nth 0 hk 0) g (eq_trans Hc2 Ech)) as Hin.
  unfold process_nma_header. destruct (nma_cpks (nth 0 hk 0)) eqn:Ec.
  all: try (left; left; right; exists (nth 0 hk 0), f, key; split; [exact Hk|]; rewrite <- Hc3; reflexivity).
  all: destruct (nma_status (nth 0 hk 0)) eqn:Es; try (right; exact Hin).
  all: left; right; exists (nth 0 hk 0), f, key; split; [exact Hk|]; right; rewrite <- Hc1, <- Hc3; split; [reflexivity|]; cbn; auto.
Qed.

Lemma process_dsm_keyed h o m svn g hk mk o2 : Forall op_ok h -> rest_inv root user slow h o -> stores_ok o ->
  subframe_received h svn g hk mk -> dsm_received h (dm_id m) (dm_data m) ->
  dm_type m = (if dm_id m <? 12 then DsmKroot else DsmPkr) ->
  process_dsm o m (nth 0 hk 0) g = Ok o2 -> keyed h o -> keyed h o2.
Proof.
  intros Hok Hinv Hsto Hsf Hd Ht H Hk. apply process_dsm_effect in H.
  destruct H as [->|pk key ps Et Hpk Hkey Hps Hid ->|r pk ps Et Hr Hv Hps ->|r Et Hr Hv ->].
  - exact Hk.
  - exact (kroot_keyed h o m svn g hk mk pk key ps Hok Hinv Hsto Hsf Hd Ht Et Hpk Hkey Hid).
  - exact Hk.
  - left. left. left. destruct (validate_alert_sound r (dm_data m) tt (dsm_received_bytes _ _ _ Hok Hd) Hv) as (f & HL & Hr' & Hn).
    exists f. split; [|exact Hn]. pose proof (ri_merkle _ _ _ _ _ Hinv) as Hm.
    exists r, (dm_id m), (dm_data m). split; [destruct Hm as [Hm|Hm]; congruence|].
    split; [rewrite Et in Ht; destruct (dm_id m <? 12) eqn:E; [discriminate Ht|lia]|]. now split.
Qed.

Lemma validate_key_keyed h o mk g o' : stores_ok o -> osnma_validate_key o mk g = Ok o' -> keyed h o -> keyed h o'.
Proof.
  intros (_ & Hd) H Hk. apply validate_key_effect in H. destruct H as [->|cur key ks Hc Hv Hlt Hch Hg Hst Hpt]; [exact Hk|].
  apply process_tags_trust in Hpt. destruct Hpt as ((_ & _ & Ht) & _). cbn [set_keys o_keys] in Ht.
  destruct Hk as [Hk|(c & k & Hcif & Hh & E)]; [now left|]. right. rewrite Ht.
  destruct (store_key_spec _ _ _ Hd Hst) as (_ & D2 & D3 & _ & D5). exists c.
  destruct (Z.eq_dec (chain_of k) (chain_of key)) as [Ek|Ek].
  - exists key. split; [congruence|]. split; [exact D2|congruence].
  - exists k. split; [congruence|]. split; [exact (D5 k Hh Ek)|exact E].
Qed.

Lemma step_keyed h o x o' : Forall op_ok h -> op_ok x -> inv root user slow h o -> stores_ok o ->
  step o x = Ok o' -> keyed h o -> keyed (h ++ [x]) o'.
Proof.
  intros Hok Hx Hinv Hsto H Ha. apply (keyed_mono _ [x]) in Ha.
  assert (Hok2 : Forall op_ok (h ++ [x])).
  { apply Forall_app. split; [exact Hok|]. constructor; [exact Hx|constructor]. }
  destruct x as [word svn g w|data svn g]; cbn [step] in H.
  { unfold feed_inav in H. bind_inv H. injection H as <-. exact Ha. }
  destruct (feed_osnma_cases root user slow h o o' data svn g Hok Hx Hinv H) as (sf & _ & Hrest & [->|(hk & mk & Hsf & Hpr)]).
  { exact Ha. }
  destruct (process_subframe_cases _ _ _ _ _ _ Hpr) as (ms & cd & d & o2 & E0 & E1 & E2 & E3).
  cbn [set_sub o_mack o_dsm] in E0, E1.
  destruct (subframe_stored HS _ _ _ _ _ _ _ _ _ ms cd d Hok2 Hrest Hsf E0 E1) as (Hinv2 & Hm).
  assert (H2 : keyed (h ++ [FeedOsnma data svn g]) o2 /\ stores_ok o2).
  { destruct d as [m|]; [|subst o2; split; [exact Ha|exact Hsto]]. destruct (Hm m eq_refl) as (Hd & Ht).
    split; [exact (process_dsm_keyed _ _ m svn _ hk mk o2 Hok2 Hinv2 Hsto Hsf Hd Ht E2 Ha)|].
    refine (process_dsm_stores _ _ _ _ _ _ E2). exact Hsto. }
  exact (validate_key_keyed _ _ _ _ _ (proj2 H2) E3 (proj1 H2)).
Qed.

Theorem key_is_kept h1 h2 o1 o2 : Forall op_ok (h1 ++ h2) -> run new h1 = Ok o1 -> run o1 h2 = Ok o2 ->
  has_key_in_force (o_keys o1) -> ~ withdrawn (h1 ++ h2) -> has_key_in_force (o_keys o2).
Proof.
  intros Hok R1 R2 Hk Hn. enough (K : keyed (h1 ++ h2) o2) by (destruct K as [K|K]; [contradiction|exact K]). clear Hn.
  revert o2 Hok R2. induction h2 as [|x h2 IH] using rev_ind; intros o2 Hok R2.
  { injection R2 as <-. now right. }
  rewrite run_snoc in R2. bind_inv R2. rename x0 into o. rewrite app_assoc in Hok |- *.
  apply Forall_app in Hok. destruct Hok as (Hok & Hx). apply Forall_cons_iff in Hx. destruct Hx as (Hx & _).
  assert (R : run new (h1 ++ h2) = Ok o) by (rewrite run_app, R1; exact E).
  pose proof (run_inv HC HS root user slow _ Hok _ R) as Hinv. pose proof (run_stores _ _ _ (new_stores root user slow) R) as Hsto.
  exact (step_keyed _ _ _ _ Hok Hx Hinv Hsto R2 (IH o Hok E)).
Qed.

(** ** The lines of the log *)
Variable mx : option level.

(** The lines that are about the key in force. *)
Definition told (m : message) : bool := match m with LgNoKey | LgKrootVerified _ => true | _ => false end.
Notation others := (says (fun m => told m = false)).
Ltac other_line :=
  match goal with
  | H : Ok _ = Ok ?m |- _ => injection H as <-; reflexivity
  | H : bind _ _ = Ok ?m |- _ => repeat bind_inv H; injection H as <-; reflexivity
  end.
Ltac others := repeat (says1; cbv beta); try other_line.

Lemma feed_inav_others o w svn g b : others (feed_inav_log mx o w svn g b).
Proof.
  unfold feed_inav_log, nav_feed_log, nav_adjust_log, nav_feed_kind_log, entry_feed_log, ced_feed_log, timing_feed_log,
    log_contents, log_word, log_age. others.
Qed.
Lemma subframe_feed_others st data svn g : others (subframe_feed_log mx st data svn g).
Proof. unfold subframe_feed_log. others. Qed.
Lemma one_tag_others k key tag adkd cop g1 g2 prnd prnds prna j s n : others (process_one_tag_log mx k key tag adkd cop g1 g2 prnd prnds prna j s n).
Proof. unfold process_one_tag_log, nav_validate_dummy_tag_log, nav_validate_tag_log. others. Qed.
Lemma process_mack_others n m key prna g s : others (process_mack_log mx n m key prna g s).
Proof.
  unfold process_mack_log, process_mack_tag_log.
  repeat (first [apply one_tag_others|says1]; cbv beta); try other_line.
Qed.
Lemma process_slow_others n m key prna g s : others (process_mack_slowmac_log mx n m key prna g s).
Proof.
  unfold process_mack_slowmac_log, process_slowmac_tag_log.
  repeat (first [apply one_tag_others|says1]; cbv beta); try other_line.
Qed.
Lemma process_tags_others o key : others (process_tags_log mx o key).
Proof.
  unfold process_tags_log, process_tags_fast_log, process_tags_slow_log, validate_mack_log.
  repeat (first [apply process_mack_others|apply process_slow_others|says1]; cbv beta); try other_line.
Qed.
Lemma nma_header_others o hd id : others (process_nma_header_log mx o hd id).
Proof. unfold process_nma_header_log, keys_revoke_log, pubs_revoke_log, alert_message_received_log. others. Qed.
Lemma dsm_feed_others st hd b : others (dsm_feed_log mx st hd b).
Proof. unfold dsm_feed_log, store_block_log, done_and_size_log, dsm_number_of_blocks_log. others. Qed.
Lemma mack_store_others st m svn g s : others (mack_store_log mx st m svn g s).
Proof. unfold mack_store_log, mack_adjust_log. others. Qed.
Lemma pkr_others o d : others (process_dsm_pkr_log mx o d).
Proof.
  unfold process_dsm_pkr_log, process_dsm_pkr_npk_log, process_dsm_pkr_alert_message_log, store_new_pubkey_log, alert_message_received_log.
  others.
Qed.
Lemma applicable_others ps id : others (applicable_pubkey_log mx ps id).
Proof. unfold applicable_pubkey_log. others. Qed.

Lemma not_told {A} (x : logging A) ls a l m : others x -> x = Ok (ls, a) -> In (l, m) ls -> told m = true -> False.
Proof. intros H E Hin Ht. rewrite (H _ _ E l m Hin) in Ht. discriminate. Qed.

Lemma process_dsm_told o d hd g ls o2 l m : process_dsm_log mx o d hd g = Ok (ls, o2) -> In (l, m) ls -> told m = true ->
  (exists pkid, m = LgKrootVerified pkid) /\
  exists pk key ps, dm_type d = DsmKroot /\ held_pub (o_pub o) pk /\
    key_from_dsm_kroot hd (dm_data d) (pk_key pk) = Ok (ROk key) /\ kroot_public_key_id (dm_data d) = Ok (pk_id pk) /\
    o2 = process_nma_header (set_keys (store_kroot (o_keys o) key hd g) (set_pub ps o)) hd (pk_id pk).
Proof.
  unfold process_dsm_log. destruct (dm_type d) eqn:Et; intros H Hin Ht.
  2: { exfalso. exact (not_told _ _ _ _ _ (pkr_others _ _) H Hin Ht). }
  assert (Hp : process_dsm_kroot o (dm_data d) hd g = Ok o2) by (rewrite <- (process_dsm_kroot_plain mx), H; reflexivity).
  unfold process_dsm_kroot in Hp. bind_inv Hp. bind_inv Hp. rename x into pkid. unfold process_dsm_kroot_log in H.
  apply lbind_ok in H. destruct H as (l1 & a & l2 & E1 & H & ->). apply quiet_ok in E1. destruct E1 as (-> & E1).
  assert (a = pkid) by congruence. subst a. cbn [app] in Hin.
  apply lbind_ok in H. destruct H as (l1 & a & l3 & E2 & H & ->).
  assert (a = x0). { rewrite <- (applicable_pubkey_plain mx), E2 in E0. cbn in E0. congruence. } subst a.
  apply in_app_or in Hin. destruct Hin as [Hin|Hin].
  { exfalso. exact (not_told _ _ _ _ _ (applicable_others _ _) E2 Hin Ht). }
  destruct x0 as [pk|].
  2: { apply done_ok in H. destruct H as (-> & _). destruct Hin. }
  destruct (applicable_pubkey_in _ _ _ E0) as (Hin' & Eid). subst pkid. bind_inv Hp. rename E3 into Ek.
  rewrite Ek in H. apply lbind_ok in H. destruct H as (l4 & a & l5 & E4 & H & ->). apply quiet_ok in E4. destruct E4 as (-> & E4).
  assert (a = x) by congruence. subst a. cbn [app] in Hin. destruct x as [key|e].
  2: { exfalso. assert (Ho : others (log mx LError (Ok (LgKrootError e)) >>> done o)) by others.
       exact (not_told _ _ _ _ _ Ho H Hin Ht). }
  bind_inv Hp. rename x into ps. split.
  - apply lbind_ok in H. destruct H as (l6 & a & l7 & E6 & H & ->). apply in_app_or in Hin. destruct Hin as [Hin|Hin].
    + apply (log_ok mx) in E6. destruct E6 as [->|(m' & Em & ->)]; [destruct Hin|]. destruct Hin as [Hin|[]]. exists (pk_id pk). congruence.
    + exfalso. refine (not_told _ _ _ _ _ _ H Hin Ht). unfold store_kroot_log.
      repeat (first [apply nma_header_others|says1]; cbv beta); try other_line.
  - exists pk, key, ps. split; [reflexivity|]. split; [exact Hin'|]. split; [exact Ek|]. split; [exact E|]. injection Hp as <-. reflexivity.
Qed.

Lemma validate_key_told o mk g ls o2 l m : osnma_validate_key_log mx o mk g = Ok (ls, o2) -> In (l, m) ls -> told m = true ->
  m = LgNoKey /\ o2 = o /\ current_key (o_keys o) = None.
Proof.
  unfold osnma_validate_key_log. destruct (current_key (o_keys o)) as [cur|] eqn:Ec; intros H Hin Ht.
  - exfalso. refine (not_told _ _ _ _ _ _ H Hin Ht). repeat (first [apply process_tags_others|says1]; cbv beta); try other_line.
  - apply lbind_ok in H. destruct H as (l1 & a & l2 & E1 & H & ->). apply done_ok in H. destruct H as (-> & <-).
    rewrite app_nil_r in Hin. apply (log_ok mx) in E1. destruct E1 as [->|(m' & Em & ->)]; [destruct Hin|]. destruct Hin as [Hin|[]].
    split; [congruence|]. now split.
Qed.

Lemma step_told h o x ls o' l m : Forall op_ok h -> op_ok x -> inv root user slow h o -> stores_ok o ->
  step_log mx o x = Ok (ls, o') -> In (l, m) ls ->
  (m = LgNoKey -> ~ has_key_in_force (o_keys o')) /\ (forall pkid, m = LgKrootVerified pkid -> keyed (h ++ [x]) o').
Proof.
  intros Hok Hx Hinv Hsto H Hin.
  assert (Hok2 : Forall op_ok (h ++ [x])).
  { apply Forall_app. split; [exact Hok|]. constructor; [exact Hx|constructor]. }
  enough (K : told m = true -> (m = LgNoKey -> ~ has_key_in_force (o_keys o')) /\ (forall pkid, m = LgKrootVerified pkid -> keyed (h ++ [x]) o')).
  { split; [intros ->; now apply K|intros pkid ->; exact (proj2 (K eq_refl) pkid eq_refl)]. }
  intros Ht. destruct x as [word svn g b|data svn g]; cbn [step_log] in H.
  { exfalso. exact (not_told _ _ _ _ _ (feed_inav_others _ _ _ _ _) H Hin Ht). }
  unfold feed_osnma_log in H. destruct (forallb (fun x => x =? 0) data) eqn:Ez.
  { apply done_ok in H. destruct H as (-> & _). destruct Hin. }
  apply lbind_ok in H. destruct H as (l1 & (sf & r) & l2 & E1 & H & ->). apply in_app_or in Hin. destruct Hin as [Hin|Hin].
  { exfalso. exact (not_told _ _ _ _ _ (subframe_feed_others _ _ _ _) E1 Hin Ht). }
  assert (Es : subframe_feed (o_sub o) data svn g = Ok (sf, r)) by (rewrite <- (subframe_feed_plain mx), E1; reflexivity).
  destruct (subframe_fed root user slow h o data svn g sf r Hok Hx Hinv Ez Es) as (Hrest & Hrec).
  destruct r as [((hk & mk) & g')|]; [|apply done_ok in H; destruct H as (-> & _); destruct Hin].
  destruct (Hrec hk mk g' eq_refl) as (Hsf & _). cbv zeta in H. unfold process_subframe_log in H.
  destruct (subframe_received_bytes _ _ _ _ _ Hok2 Hsf) as ((Hlen & _) & _).
  assert (I0 : index hk 0 = Ok (nth 0 hk 0)) by (apply index_ok, nth_error_nth'; lia).
  assert (I1 : index hk 1 = Ok (nth 1 hk 0)) by (apply index_ok, nth_error_nth'; lia).
  apply lbind_ok in H. destruct H as (k1 & hd & k2 & F1 & H & ->). apply quiet_ok in F1. destruct F1 as (-> & F1).
  rewrite I0 in F1. assert (hd = nth 0 hk 0) by congruence. subst hd. clear F1. cbn [app] in Hin.
  apply lbind_ok in H. destruct H as (k1 & ms & k3 & F1 & H & ->). apply in_app_or in Hin. destruct Hin as [Hin|Hin].
  { exfalso. exact (not_told _ _ _ _ _ (mack_store_others _ _ _ _ _) F1 Hin Ht). }
  assert (Em : mack_store (o_mack (set_sub sf o)) mk svn g' (nma_status (nth 0 hk 0)) = Ok ms) by (rewrite <- (mack_store_plain mx), F1; reflexivity).
  clear F1 k1. apply lbind_ok in H. destruct H as (k1 & dh & k2 & F1 & H & ->). apply quiet_ok in F1. destruct F1 as (-> & F1).
  rewrite I1 in F1. assert (dh = nth 1 hk 0) by congruence. subst dh. clear F1. cbn [app] in Hin.
  apply lbind_ok in H. destruct H as (k1 & (cd & d) & k3 & F1 & H & ->). apply in_app_or in Hin. destruct Hin as [Hin|Hin].
  { exfalso. exact (not_told _ _ _ _ _ (dsm_feed_others _ _ _) F1 Hin Ht). }
  cbn [set_mack o_dsm] in F1.
  assert (Ed : dsm_feed (o_dsm (set_sub sf o)) (nth 1 hk 0) (skipn 2 hk) = Ok (cd, d)) by (rewrite <- (dsm_feed_plain mx), F1; reflexivity).
  clear F1 k1. destruct (subframe_stored HS _ _ _ _ _ _ _ _ _ ms cd d Hok2 Hrest Hsf Em Ed) as (Hinv2 & Hm).
  apply lbind_ok in H. destruct H as (k1 & o2 & k2 & F1 & F2 & ->). apply in_app_or in Hin. destruct Hin as [Hin|Hin].
  2: { destruct (validate_key_told _ _ _ _ _ _ _ F2 Hin Ht) as (-> & -> & Hc). split; [intros _; now apply in_force_none|discriminate]. }
  destruct d as [dm|]; [|apply done_ok in F1; destruct F1 as (-> & _); destruct Hin].
  destruct (Hm dm eq_refl) as (Hd & Hty).
  destruct (process_dsm_told _ _ _ _ _ _ _ _ F1 Hin Ht) as ((pkid & ->) & pk & key & ps & Et & Hpk & Hkey & Hid & Eo2).
  split; [discriminate|]. intros _ _.
  assert (Ep : process_dsm (set_dsm cd (set_mack ms (set_sub sf o))) dm (nth 0 hk 0) g' = Ok o2).
  { rewrite <- (process_dsm_plain mx); [now rewrite F1|exact (dsm_received_bytes _ _ _ Hok2 Hd)|congruence]. }
  assert (K : keyed (h ++ [FeedOsnma data svn g]) o2).
  { rewrite Eo2. exact (kroot_keyed _ _ dm svn g' hk mk pk key ps Hok2 Hinv2 Hsto Hsf Hd Hty Et Hpk Hkey Hid). }
  refine (validate_key_keyed _ o2 mk g' o' _ _ K); [refine (process_dsm_stores _ _ _ _ _ _ Ep); exact Hsto|].
  rewrite <- (validate_key_plain HC HS mx root user slow (h ++ [FeedOsnma data svn g]) o2 svn g' hk mk Hok2); [now rewrite F2| |exact Hsf].
  exact (process_dsm_rest HC root user slow _ _ dm svn g' hk mk o2 Hok2 Hinv2 Hsf Hd Hty Ep).
Qed.

Lemma run_told h : Forall op_ok h -> forall ls o l pkid, run_log mx new h = Ok (ls, o) -> In (l, LgKrootVerified pkid) ls -> keyed h o.
Proof.
  induction h as [|x h IH] using rev_ind; intros Hok ls o l pkid H Hin.
  { apply done_ok in H. destruct H as (-> & _). destruct Hin. }
  apply Forall_app in Hok. destruct Hok as (Hok & Hx). apply Forall_cons_iff in Hx. destruct Hx as (Hx & _).
  rewrite run_log_app in H. apply lbind_ok in H. destruct H as (l1 & o1 & l2 & E1 & E2 & ->). rewrite run_log_one in E2.
  assert (R : run new h = Ok o1) by (rewrite <- (run_plain HC HS mx root user slow h Hok), E1; reflexivity).
  pose proof (run_inv HC HS root user slow _ Hok _ R) as Hinv. pose proof (run_stores _ _ _ (new_stores root user slow) R) as Hsto.
  apply in_app_or in Hin. destruct Hin as [Hin|Hin].
  - refine (step_keyed h o1 x o Hok Hx Hinv Hsto _ (IH Hok _ _ _ _ E1 Hin)).
    rewrite <- (step_plain HC HS mx root user slow h o1 x Hok Hx Hinv), E2. reflexivity.
  - exact (proj2 (step_told h o1 x l2 o l _ Hok Hx Hinv Hsto E2 Hin) pkid eq_refl).
Qed.

Theorem kroot_gives_key h ls o l pkid : Forall op_ok h -> run_log mx new h = Ok (ls, o) -> In (l, LgKrootVerified pkid) ls ->
  ~ withdrawn h -> has_key_in_force (o_keys o).
Proof. intros Hok H Hin Hn. destruct (run_told h Hok ls o l pkid H Hin); [contradiction|assumption]. Qed.

Theorem no_key_line h ls1 o1 x ls2 o2 l : Forall op_ok (h ++ [x]) -> run_log mx new h = Ok (ls1, o1) ->
  step_log mx o1 x = Ok (ls2, o2) -> In (l, LgNoKey) ls2 ->
  ~ has_key_in_force (o_keys o2) /\
  forall l' pkid, In (l', LgKrootVerified pkid) (ls1 ++ ls2) -> withdrawn (h ++ [x]).
Proof.
  intros Hok2 E1 E2 Hin. pose proof Hok2 as Hok. apply Forall_app in Hok. destruct Hok as (Hok & Hx). apply Forall_cons_iff in Hx. destruct Hx as (Hx & _).
  assert (R : run new h = Ok o1) by (rewrite <- (run_plain HC HS mx root user slow h Hok), E1; reflexivity).
  pose proof (run_inv HC HS root user slow _ Hok _ R) as Hinv. pose proof (run_stores _ _ _ (new_stores root user slow) R) as Hsto.
  pose proof (proj1 (step_told h o1 x ls2 o2 l _ Hok Hx Hinv Hsto E2 Hin) eq_refl) as Hn. split; [exact Hn|].
  intros l' pkid Hk. assert (E : run_log mx new (h ++ [x]) = Ok (ls1 ++ ls2, o2)).
  { rewrite run_log_app, E1. cbn [lbind]. rewrite run_log_one, E2. reflexivity. }
  destruct (run_told _ Hok2 _ _ _ _ E Hk); [assumption|contradiction].
Qed.

End Crypto.

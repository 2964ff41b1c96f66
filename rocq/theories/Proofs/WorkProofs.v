(** How many times a call evaluates the one-way function. *)
From Coq Require Import ZArith List Bool Lia ZifyBool ZifyNat.
From Verif Require Import Model.Prelude Model.Params Model.Gst Model.Svn Model.Bitfields
  Model.Maclt Model.Tesla Model.Merkle Model.Subframe Model.Dsm Model.MackStore Model.Nav Model.Osnma Model.Work
  Spec.TimeSpec Spec.CollectSpec Spec.StoreSpec Spec.NavSpec Spec.TeslaSpec Spec.KrootSpec
  Spec.MerkleSpec Spec.MacltSpec Spec.KeySpec Spec.SystemSpec Spec.CompleteSpec Spec.HonestSpec Spec.WorkSpec
  Proofs.Base Proofs.GstProofs Proofs.DsmProofs Proofs.TeslaProofs Proofs.KrootProofs Proofs.SystemProofs
  Proofs.KeyStoreProofs Proofs.StepProofs Proofs.ChangeProofs Proofs.SubframeProofs Proofs.LogRunProofs Proofs.TotalProofs
  Proofs.HonestKeys Proofs.HonestProofs.
Import ListNotations.
Open Scope Z_scope.
Ltac Zify.zify_post_hook ::= Z.div_mod_to_equations.

Section Crypto.
Context {C : crypto} {B : build} {S : storage}.

(** ** Without the count *)

Definition erase {A} (x : counting A) : outcome A := match x with Ok (_, a) => Ok a | Panic => Panic end.

Lemma erase_free {A} (x : outcome A) : erase (free x) = x.
Proof. destruct x; reflexivity. Qed.
Lemma erase_then {A D} (x : counting A) (f : A -> counting D) : erase (then_ x f) = (a <- erase x ;; erase (f a)).
Proof. destruct x as [(n, a)|]; [|reflexivity]. cbn [then_ bind erase]. unfold then_. cbn [bind]. now destruct (f a) as [(m, b)|]. Qed.
Lemma bind_same {A D} (x : outcome A) (f g : A -> outcome D) : (forall a, f a = g a) -> bind x f = bind x g.
Proof. intros H. destruct x; [apply H|reflexivity]. Qed.

Lemma derive_erase k n : erase (derive_work k n) = derive k n.
Proof.
  revert k. induction n as [|n IH]; intros k; [reflexivity|]. cbn [derive_work derive]. rewrite erase_then. unfold one_way_function_work.
  destruct (one_way_function k) as [k'|]; [|reflexivity]. cbn [bind erase]. apply IH.
Qed.
Lemma validate_key_erase a b : erase (validate_key_work a b) = validate_key a b.
Proof.
  unfold validate_key_work, validate_key. destruct (negb _); [reflexivity|]. destruct (negb _); [reflexivity|]. cbv zeta.
  rewrite erase_then, erase_free. destruct (assert_ _); [|reflexivity]. cbn [bind]. destruct (3000 <? _); [reflexivity|].
  rewrite erase_then, derive_erase. apply bind_same. intros k. now rewrite erase_free.
Qed.
Lemma slowmac_erase ks g : erase (slowmac_key_of_work ks g) = slowmac_key_of ks g.
Proof.
  unfold slowmac_key_of_work, slowmac_key_of. destruct (key_past_chain ks g); [|reflexivity]. destruct (0 <=? _); [|reflexivity].
  rewrite erase_then, derive_erase. apply bind_same. intros k. now rewrite erase_free.
Qed.
Lemma process_tags_erase o k : erase (process_tags_work o k) = process_tags o k.
Proof.
  unfold process_tags_work, process_tags. rewrite erase_then, erase_free. apply bind_same. intros gm.
  rewrite erase_then, erase_free. apply bind_same. intros gs. rewrite erase_then, erase_free. apply bind_same. intros gk.
  rewrite erase_then, slowmac_erase. apply bind_same. intros mkey. now rewrite erase_free.
Qed.
Lemma osnma_validate_key_erase o m g : erase (osnma_validate_key_work o m g) = osnma_validate_key o m g.
Proof.
  unfold osnma_validate_key_work, osnma_validate_key. destruct (current_key (o_keys o)); [|reflexivity].
  rewrite erase_then, erase_free. apply bind_same. intros kb. rewrite erase_then, erase_free. apply bind_same. intros nk.
  destruct (gst_cmp _ _); try reflexivity. rewrite erase_then, validate_key_erase. apply bind_same. intros [nv|e]; [|reflexivity].
  rewrite erase_then, erase_free. apply bind_same. intros ks. apply process_tags_erase.
Qed.
Lemma process_subframe_erase o hk m svn g : erase (process_subframe_work o hk m svn g) = process_subframe o hk m svn g.
Proof.
  unfold process_subframe_work, process_subframe. rewrite erase_then, erase_free. apply bind_same. intros hd.
  rewrite erase_then, erase_free. apply bind_same. intros ms. cbv zeta. rewrite erase_then, erase_free. apply bind_same. intros dh.
  rewrite erase_then, erase_free. apply bind_same. intros (cd, d). rewrite erase_then, erase_free. apply bind_same. intros o2.
  apply osnma_validate_key_erase.
Qed.
Lemma step_erase o x : erase (step_work o x) = step o x.
Proof.
  destruct x as [w svn g b|data svn g]; cbn [step_work step]; [apply erase_free|].
  unfold feed_osnma_work, feed_osnma. destruct (forallb _ _); [reflexivity|]. rewrite erase_then, erase_free. apply bind_same.
  intros (sf, [((hk, m), g')|]); [|reflexivity]. apply process_subframe_erase.
Qed.

(** ** The count *)

Lemma free_ok {A} (x : outcome A) n a : free x = Ok (n, a) -> n = 0 /\ x = Ok a.
Proof. unfold free. destruct x; [|discriminate]. cbn [bind]. intros H. split; congruence. Qed.
Lemma then_ok {A D} (x : counting A) (f : A -> counting D) k b : then_ x f = Ok (k, b) ->
  exists n a m, x = Ok (n, a) /\ f a = Ok (m, b) /\ k = n + m.
Proof.
  unfold then_. destruct x as [(n, a)|]; [|discriminate]. cbn [bind]. destruct (f a) as [(m, b')|] eqn:E; [|discriminate].
  cbn [bind]. intros H. exists n, a, m. assert (b' = b) as -> by congruence. split; [reflexivity|]. split; [exact E|congruence].
Qed.

Lemma derive_count n : forall k m k', derive_work k n = Ok (m, k') -> m = Z.of_nat n.
Proof.
  induction n as [|n IH]; intros k m k' H; cbn [derive_work] in H; [apply free_ok in H; lia|].
  apply then_ok in H. destruct H as (a & k1 & b & E1 & E2 & ->). unfold one_way_function_work in E1. bind_inv E1.
  assert (a = 1) by congruence. apply IH in E2. lia.
Qed.
Lemma validate_key_count a b m r : validate_key_work a b = Ok (m, r) -> 0 <= m <= 3000.
Proof.
  unfold validate_key_work. destruct (negb _); [intros H; apply free_ok in H; lia|].
  destruct (negb _); [intros H; apply free_ok in H; lia|]. cbv zeta. intros H.
  apply then_ok in H. destruct H as (n1 & u & n2 & E1 & E2 & ->). apply free_ok in E1. destruct E1 as (-> & E1).
  destruct u. apply assert_ok in E1. destruct (3000 <? _) eqn:E3; [apply free_ok in E2; lia|].
  apply then_ok in E2. destruct E2 as (n3 & dk & n4 & E2 & E4 & ->). apply free_ok in E4. apply derive_count in E2. lia.
Qed.
Lemma slowmac_count ks gk m r : slowmac_key_of_work ks gk = Ok (m, r) ->
  m = 0 \/ exists k, (ks_k0 ks = Some k \/ ks_k1 ks = Some k) /\ 0 <= m /\ m = subframes_difference (k_gst k) gk.
Proof.
  unfold slowmac_key_of_work. destruct (key_past_chain ks gk) as [k|] eqn:E; [|intros H; apply free_ok in H; lia].
  destruct (0 <=? _) eqn:E0; [|intros H; apply free_ok in H; lia]. intros H. right. exists k.
  split; [exact (key_past_chain_in _ _ _ E)|]. apply then_ok in H. destruct H as (n & a & n2 & E1 & E2 & ->).
  apply free_ok in E2. apply derive_count in E1. lia.
Qed.

Lemma time_range g : gst_ok g -> 0 <= time_of g < 65536 * 604800.
Proof. intros (H1 & H2). unfold time_of. lia. Qed.

Definition until (T : Z) (ks : key_store) : Prop :=
  forall k, ks_k0 ks = Some k \/ ks_k1 ks = Some k -> time_of (k_gst k) <= T.

Lemma process_tags_count T o key m o' : until T (o_keys o) ->
  (forall k, ks_k0 (o_keys o) = Some k \/ ks_k1 (o_keys o) = Some k -> key_ok k) -> key_ok key -> time_of (k_gst key) <= T ->
  process_tags_work o key = Ok (m, o') -> 30 * m <= T - time_of (k_gst key) + 300.
Proof.
  intros HT Hks Hkey HkT H. unfold process_tags_work in H.
  apply then_ok in H. destruct H as (n1 & gm & m1 & E1 & H & ->). apply free_ok in E1. destruct E1 as (-> & _).
  apply then_ok in H. destruct H as (n2 & gs & m2 & E2 & H & ->). apply free_ok in E2. destruct E2 as (-> & _).
  apply then_ok in H. destruct H as (n3 & gk & m3 & E3 & H & ->). apply free_ok in E3. destruct E3 as (-> & E3).
  apply then_ok in H. destruct H as (n4 & mkey & m4 & E4 & H & ->). apply free_ok in H. destruct H as (-> & _).
  pose proof (ko_gst _ Hkey) as Hg. apply add_seconds_exact in E3; [|exact Hg|lia]. destruct E3 as (Hgk & Hgkt & _).
  assert (Hsub : is_subframe gk = true).
  { apply is_subframe_start. pose proof (ko_sub _ Hkey) as Hk. apply is_subframe_start in Hk.
    destruct Hk as (nk & Hnk). rewrite Hgkt, Hnk.
    exists (nk - 10 - 65536 * 20160 * ((30 * nk + -300) / (65536 * 604800))).
    pose proof (Z.div_mod (30 * nk + -300) (65536 * 604800) ltac:(lia)). lia. }
  apply slowmac_count in E4. destruct E4 as [->|(k & Hin & Hm & ->)]; [lia|].
  pose proof (Hks k Hin) as Hk.
  pose proof (subframes_difference_exact (k_gst k) gk (ko_gst _ Hk) Hgk (ko_sub _ Hk) Hsub) as Hd.
  pose proof (HT k Hin) as HkT2. pose proof (time_range _ (ko_gst _ Hk)) as Hr. pose proof (time_range _ Hg) as Hr2.
  clear - Hd HkT HkT2 Hr Hr2 Hgkt. lia.
Qed.

(** ** Reading the evaluations for the Slow MAC off a state, without making them *)

Definition slow_derivations (o : osnma) (x : op) : outcome Z :=
  match x with
  | FeedInav _ _ _ _ => Ok 0
  | FeedOsnma data svn g =>
      '(sf, r) <- subframe_feed (o_sub o) data svn g ;;
      let o := set_sub sf o in
      match r with
      | None => Ok 0
      | Some (hk, mk, g) =>
          ms <- mack_store (o_mack o) mk svn g (nma_status (nth 0 hk 0)) ;;
          '(cd, d) <- dsm_feed (o_dsm o) (nth 1 hk 0) (skipn 2 hk) ;;
          o <- match d with
               | Some d => process_dsm (set_dsm cd (set_mack ms o)) d (nth 0 hk 0) g
               | None => Ok (set_dsm cd (set_mack ms o))
               end ;;
          match current_key (o_keys o) with
          | None => Ok 0
          | Some cur =>
              kb <- mack_key (mack_of_chain mk cur) ;;
              nk <- key_from_bitslice kb g (k_chain cur) ;;
              match gst_cmp (k_gst cur) (k_gst nk) with
              | Lt =>
                  v <- validate_key cur nk ;;
                  match v with
                  | RErr _ => Ok 0
                  | ROk key =>
                      ks <- store_key (o_keys o) key ;;
                      gk <- add_seconds (k_gst key) (-300) ;;
                      Ok (match key_past_chain ks gk with Some k => Z.max 0 (subframes_difference (k_gst k) gk) | None => 0 end)
                  end
              | _ => Ok 0
              end
          end
      end
  end.

Lemma bind_rw {A D} (x : outcome A) (f : A -> outcome D) a b : bind x f = Ok b -> x = Ok a -> f a = Ok b.
Proof. intros H ->. exact H. Qed.

Lemma slow_derivations_made o x d n o' : (match x with FeedOsnma data _ _ => forallb (fun b => b =? 0) data = false | _ => True end) ->
  slow_derivations o x = Ok d -> step_work o x = Ok (n, o') -> d <= n.
Proof.
  destruct x as [w svn g b|data svn g]; intros Hz Hd H; cbn [slow_derivations step_work] in *.
  { apply free_ok in H. assert (d = 0) by congruence. lia. }
  unfold feed_osnma_work in H. rewrite Hz in H.
  apply then_ok in H. destruct H as (n1 & (sf, r) & m1 & E1 & H & ->). apply free_ok in E1. destruct E1 as (-> & E1).
  apply (bind_rw _ _ (sf, r)) in Hd; [|exact E1]. cbv zeta in Hd.
  destruct r as [((hk, mk), g')|]; [|apply free_ok in H; assert (d = 0) by congruence; lia].
  unfold process_subframe_work in H. cbv zeta in H.
  apply then_ok in H. destruct H as (n2 & hd & m2 & E2 & H & ->). apply free_ok in E2. destruct E2 as (-> & E2).
  apply then_ok in H. destruct H as (n3 & ms & m3 & E3 & H & ->). apply free_ok in E3. destruct E3 as (-> & E3).
  apply then_ok in H. destruct H as (n4 & dh & m4 & E4 & H & ->). apply free_ok in E4. destruct E4 as (-> & E4).
  apply index_ok in E2, E4. apply (nth_error_nth _ _ 0) in E2, E4. subst hd dh.
  apply (bind_rw _ _ ms) in Hd; [|exact E3].
  apply then_ok in H. destruct H as (n5 & (cd, dm) & m5 & E5 & H & ->). apply free_ok in E5. destruct E5 as (-> & E5).
  apply (bind_rw _ _ (cd, dm)) in Hd; [|exact E5].
  apply then_ok in H. destruct H as (n6 & o2 & m6 & E6 & H & ->). apply free_ok in E6. destruct E6 as (-> & E6).
  apply (bind_rw _ _ o2) in Hd; [|exact E6].
  unfold osnma_validate_key_work in H. destruct (current_key (o_keys o2)) as [cur|]; [|apply free_ok in H; assert (d = 0) by congruence; lia].
  apply then_ok in H. destruct H as (n7 & kb & m7 & E7 & H & ->). apply free_ok in E7. destruct E7 as (-> & E7).
  apply (bind_rw _ _ kb) in Hd; [|exact E7].
  apply then_ok in H. destruct H as (n8 & nk & m8 & E8 & H & ->). apply free_ok in E8. destruct E8 as (-> & E8).
  apply (bind_rw _ _ nk) in Hd; [|exact E8].
  destruct (gst_cmp _ _); try (apply free_ok in H; assert (d = 0) by congruence; lia).
  apply then_ok in H. destruct H as (n9 & v & m9 & E9 & H & ->). pose proof (validate_key_count _ _ _ _ E9) as Hn9.
  pose proof (f_equal erase E9) as Ev. rewrite validate_key_erase in Ev. cbn [erase] in Ev.
  apply (bind_rw _ _ v) in Hd; [|exact Ev].
  destruct v as [key|e]; [|apply free_ok in H; assert (d = 0) by congruence; lia].
  apply then_ok in H. destruct H as (na & ks & ma & Ea & H & ->). apply free_ok in Ea. destruct Ea as (-> & Ea).
  apply (bind_rw _ _ ks) in Hd; [|exact Ea].
  unfold process_tags_work in H.
  apply then_ok in H. destruct H as (nb & gm & mb & Eb & H & ->). apply free_ok in Eb. destruct Eb as (-> & _).
  apply then_ok in H. destruct H as (nc & gs & mc & Ec & H & ->). apply free_ok in Ec. destruct Ec as (-> & _).
  apply then_ok in H. destruct H as (nd & gk & md & Ed & H & ->). apply free_ok in Ed. destruct Ed as (-> & Ed).
  apply (bind_rw _ _ gk) in Hd; [|exact Ed].
  apply then_ok in H. destruct H as (ne & mkey & me & Ee & H & ->). apply free_ok in H. destruct H as (-> & _).
  cbn [set_keys o_keys] in Ee. unfold slowmac_key_of_work in Ee.
  destruct (key_past_chain ks gk) as [k|]; [|apply free_ok in Ee; assert (d = 0) by congruence; lia].
  assert (Hd' : d = Z.max 0 (subframes_difference (k_gst k) gk)) by congruence.
  destruct (0 <=? _) eqn:E0; [|apply free_ok in Ee; lia].
  apply then_ok in Ee. destruct Ee as (nf & a & nh & Ef & Eh & ->). apply free_ok in Eh. apply derive_count in Ef. lia.
Qed.

Hypothesis HC : crypto_ok C.
Hypothesis HS : storage_ok S.
Variables (root : option (list Z)) (user : option public_key) (slow : bool).
Notation new := (osnma_new root user slow).

Lemma not_after_back T h q : not_after root user T (h ++ q) -> not_after root user T h.
Proof.
  intros (H1 & H2). split; [intros y Hy; apply H1, in_or_app; auto|]. intros kr Hk. apply H2. now apply verified_root_mono.
Qed.

Lemma revoke_until T ks cid : until T ks -> until T (keys_revoke ks cid).
Proof.
  intros H k Hk. apply H. unfold keys_revoke in Hk. cbn [ks_k0 ks_k1] in Hk.
  destruct Hk as [Hk|Hk]; [left; destruct (has_chain_id (ks_k0 ks) cid)|right; destruct (has_chain_id (ks_k1 ks) cid)]; congruence.
Qed.
Lemma empty_until T : until T keys_empty.
Proof. intros k [H|H]; discriminate H. Qed.

Lemma process_dsm_until T h o m svn g hk mk o2 : Forall op_ok h -> not_after root user T h -> rest_inv root user slow h o ->
  subframe_received h svn g hk mk -> dsm_received h (dm_id m) (dm_data m) ->
  dm_type m = (if dm_id m <? 12 then DsmKroot else DsmPkr) ->
  process_dsm o m (nth 0 hk 0) g = Ok o2 -> until T (o_keys o) -> until T (o_keys o2).
Proof.
  intros Hok (_ & HT) Hinv Hsf Hd Ht H Hu. apply process_dsm_effect in H.
  destruct H as [->|pk key ps Et Hpk Hkey Hps Hid ->|r pk ps Et Hm Hv Hps ->|r Et Hm Hv ->]; try exact Hu.
  - assert (Hl : dm_id m < 12) by (rewrite Et in Ht; destruct (dm_id m <? 12) eqn:E; [lia|discriminate]).
    destruct (subframe_received_bytes _ _ _ _ _ Hok Hsf) as ((Hlen & Hhk) & _).
    assert (Hb0 : is_byte (nth 0 hk 0)).
    { rewrite Forall_forall in Hhk. apply Hhk. apply nth_In. lia. }
    destruct (key_from_dsm_kroot_sound HC _ _ _ _ Hb0 (dsm_received_bytes _ _ _ Hok Hd) Hkey) as (f & HL & Hver & Hkk & Hkok).
    rewrite (kroot_pkid_layout _ _ HL) in Hid. assert (Hpid : kf_pkid f = pk_id pk) by congruence.
    assert (Hk : until T (store_kroot (o_keys o) key (nth 0 hk 0) g)).
    { intros k Hk. apply store_kroot_in in Hk. destruct Hk as [->|Hk]; [|exact (Hu k Hk)]. apply HT.
      exists (dm_id m), (dm_data m), f, pk, svn, g, hk, mk. split; [exact Hl|]. split; [exact Hd|]. split; [exact HL|].
      split; [exact Hsf|]. split; [apply (ri_pub _ _ _ _ _ Hinv); exact Hpk|]. split; [now symmetry|]. split; auto. }
    unfold process_nma_header, alert_message_received. destruct (nma_status _), (nma_cpks _); cbn [set_keys set_pub o_keys];
      try exact Hk; try (apply revoke_until; exact Hk); apply empty_until.
  - apply empty_until.
Qed.

Lemma validate_key_until T h o o' svn g hk mk : Forall op_ok h -> rest_inv root user slow h o -> subframe_received h svn g hk mk ->
  time_of g <= T -> osnma_validate_key o mk g = Ok o' -> until T (o_keys o) -> until T (o_keys o').
Proof.
  intros Hok Hinv Hsf Hg H Hu. apply validate_key_effect in H. destruct H as [->|cur key ks Hc Hv Hlt Hch Hkg Hs Ht]; [exact Hu|].
  apply process_tags_trust in Ht. destruct Ht as (Ht & _).
  assert (Hks : until T ks).
  { intros k Hk. apply (store_key_in _ _ _ Hs) in Hk. destruct Hk as [->|Hk]; [now rewrite Hkg|exact (Hu k Hk)]. }
  destruct Ht as (_ & _ & Ht). cbn [set_keys o_keys] in Ht. now rewrite Ht.
Qed.

Lemma subframe_until g T : gst_ok g -> time_of g <= T -> time_of (subframe_of g) <= T.
Proof. intros (_ & Hg) H. unfold subframe_of, time_of in *. cbn [g_wn g_tow] in *. lia. Qed.

Lemma run_until T h o : Forall op_ok h -> not_after root user T h -> run new h = Ok o -> until T (o_keys o).
Proof.
  revert o. induction h as [|x h IH] using rev_ind; intros o Hok HT H.
  { injection H as <-. apply empty_until. }
  pose proof Hok as Hok2. apply Forall_app in Hok. destruct Hok as (Hok & Hx). apply Forall_cons_iff in Hx. destruct Hx as (Hx & _).
  rewrite run_snoc in H. bind_inv H. rename x0 into o1, E into E1.
  pose proof (run_inv HC HS root user slow h Hok _ E1) as Hinv. specialize (IH o1 Hok (not_after_back _ _ _ HT) E1).
  destruct x as [w svn g b|data svn g]; cbn [step] in H.
  - unfold feed_inav in H. bind_inv H. injection H as <-. exact IH.
  - destruct (feed_osnma_cases root user slow _ _ _ _ _ _ Hok Hx Hinv H) as (sf & Hsub & Hrest & [->|(hk & mk & Hrec & Hp)]); [exact IH|].
    destruct (process_subframe_cases _ _ _ _ _ _ Hp) as (ms & cd & d & o2 & F0 & F1 & F2 & F3).
    destruct (subframe_stored HS _ _ _ _ _ _ _ _ _ _ _ _ Hok2 Hrest Hrec F0 F1) as (Hinv2 & Hd).
    assert (Hgt : time_of (subframe_of g) <= T).
    { apply subframe_until; [apply Hx|]. apply (proj1 HT (FeedOsnma data svn g)). apply in_or_app. right. now left. }
    destruct d as [d|].
    + destruct (Hd d eq_refl) as (D1 & D2).
      eapply validate_key_until; [exact Hok2| |exact Hrec|exact Hgt|exact F3|].
      * exact (process_dsm_rest HC root user slow _ _ d svn _ hk mk o2 Hok2 Hinv2 Hrec D1 D2 F2).
      * exact (process_dsm_until T _ _ d svn _ hk mk o2 Hok2 HT Hinv2 Hrec D1 D2 F2 IH).
    + subst o2. eapply validate_key_until; [exact Hok2|exact Hinv2|exact Hrec|exact Hgt|exact F3|exact IH].
Qed.

Lemma store_key_has ks key ks' : store_key ks key = Ok ks' -> ks_k0 ks' = Some key \/ ks_k1 ks' = Some key.
Proof.
  unfold store_key. destruct (has_chain_id (ks_k0 ks) _); [intros H; left; injection H as <-; reflexivity|].
  destruct (has_chain_id (ks_k1 ks) _); [intros H; right; injection H as <-; reflexivity|discriminate].
Qed.
Lemma process_tags_nonneg o key m o' : process_tags_work o key = Ok (m, o') -> 0 <= m.
Proof.
  intros H. unfold process_tags_work in H.
  apply then_ok in H. destruct H as (n1 & gm & m1 & E1 & H & ->). apply free_ok in E1.
  apply then_ok in H. destruct H as (n2 & gs & m2 & E2 & H & ->). apply free_ok in E2.
  apply then_ok in H. destruct H as (n3 & gk & m3 & E3 & H & ->). apply free_ok in E3.
  apply then_ok in H. destruct H as (n4 & mkey & m4 & E4 & H & ->). apply free_ok in H.
  apply slowmac_count in E4. destruct E4 as [->|(k & _ & Hm & _)]; lia.
Qed.

(** The keys of the result are those that the tags were processed with. *)
Lemma osnma_validate_key_count T o mk g n o' :
  osnma_validate_key_work o mk g = Ok (n, o') -> until T (o_keys o') ->
  (forall k, ks_k0 (o_keys o') = Some k \/ ks_k1 (o_keys o') = Some k -> key_ok k) -> time_of g <= T ->
  0 <= n /\ 30 * n <= 90300 + (T - time_of g).
Proof.
  intros H HT Hks Hg. unfold osnma_validate_key_work in H.
  destruct (current_key (o_keys o)) as [cur|]; [|apply free_ok in H; lia].
  apply then_ok in H. destruct H as (n1 & kb & m1 & E1 & H & ->). apply free_ok in E1. destruct E1 as (-> & _).
  apply then_ok in H. destruct H as (n2 & nk & m2 & E2 & H & ->). apply free_ok in E2. destruct E2 as (-> & E2).
  destruct (gst_cmp _ _); try (apply free_ok in H; lia).
  apply then_ok in H. destruct H as (n3 & r & m3 & E3 & H & ->). pose proof (validate_key_count _ _ _ _ E3) as Hn3.
  destruct r as [nv|e]; [|apply free_ok in H; lia].
  apply then_ok in H. destruct H as (n4 & ks & m4 & E4 & H & ->). apply free_ok in E4. destruct E4 as (-> & E4).
  pose proof (f_equal erase E3) as Ev. rewrite validate_key_erase in Ev. cbn [erase] in Ev. apply validate_key_same in Ev.
  assert (Hng : k_gst nv = g).
  { rewrite Ev. exact (proj2 (key_from_bitslice_fields _ _ _ _ E2)). }
  pose proof (f_equal erase H) as Et. rewrite process_tags_erase in Et. cbn [erase] in Et. apply process_tags_trust in Et.
  destruct Et as ((_ & _ & Et) & _). cbn [set_keys o_keys] in Et. rewrite Et in HT, Hks.
  pose proof (process_tags_nonneg _ _ _ _ H) as H0.
  pose proof (Hks nv (store_key_has _ _ _ E4)) as Hnv.
  apply (process_tags_count T) in H; [rewrite Hng in H; lia|exact HT|exact Hks|exact Hnv|now rewrite Hng].
Qed.

(** A call that evaluates it completes a subframe, and then the keys that the receiver is left with
    tell how often. *)
Lemma step_count_keys h o x n o' : Forall op_ok (h ++ [x]) -> run new h = Ok o -> step_work o x = Ok (n, o') ->
  n = 0 \/ exists hk mk, completes h x hk mk (subframe_of (op_gst x)) /\
    forall T, until T (o_keys o') -> time_of (subframe_of (op_gst x)) <= T ->
      0 <= n /\ 30 * n <= 90300 + (T - time_of (subframe_of (op_gst x))).
Proof.
  intros Hok Hr H.
  pose proof (f_equal erase H) as Hs. rewrite step_erase in Hs. cbn [erase] in Hs.
  assert (Hr' : run new (h ++ [x]) = Ok o') by (rewrite run_snoc, Hr; exact Hs).
  pose proof (run_inv HC HS root user slow _ Hok _ Hr') as (_ & Hinv').
  assert (Hkeys : forall k, ks_k0 (o_keys o') = Some k \/ ks_k1 (o_keys o') = Some k -> key_ok k).
  { intros k Hk. exact (proj1 (ri_keys _ _ _ _ _ Hinv' k Hk)). }
  pose proof Hok as Hok2. apply Forall_app in Hok. destruct Hok as (Hok & Hx). apply Forall_cons_iff in Hx. destruct Hx as (Hx & _).
  pose proof (run_inv HC HS root user slow h Hok _ Hr) as Hinv.
  destruct x as [w svn g b|data svn g]; cbn [op_gst] in *.
  - cbn [step_work] in H. apply free_ok in H. now left.
  - cbn [step_work] in H. unfold feed_osnma_work in H. destruct (forallb _ data) eqn:Ez; [apply free_ok in H; now left|].
    apply then_ok in H. destruct H as (n1 & (sf, r) & m1 & E1 & H & ->). apply free_ok in E1. destruct E1 as (-> & E1).
    destruct r as [((hk, mk), g')|]; [|apply free_ok in H; left; lia]. right. exists hk, mk.
    destruct (subframe_fed root user slow h o data svn g sf _ Hok Hx Hinv Ez E1) as (_ & Hfed).
    destruct (Hfed _ _ _ eq_refl) as (_ & ->). split.
    + assert (Hz' : forallb (Z.eqb 0) data = false).
      { rewrite <- Ez. clear. induction data as [|x l IH]; cbn [forallb]; [reflexivity|]. now rewrite IH, Z.eqb_sym. }
      exists data, svn, g. split; [reflexivity|]. split; [exact Hz'|].
      assert (Hwok : word_ok (mkWord data svn g)) by (destruct Hx as ((X1 & _) & X2 & X3); split; auto).
      pose proof (osnma_words_ok h Hok) as Hwords. pose proof (proj1 Hinv) as Hsub.
      destruct (subframe_feed_spec (current_run (osnma_words h)) (o_sub o) (mkWord data svn g)) as (sf' & Esf & _); auto.
      { now apply Forall_current_run. }
      { intros; eapply current_run_same; eauto. }
      change (subframe_feed (o_sub o) data svn g = Ok (sf', expected_subframe (osnma_words h) (mkWord data svn g))) in Esf.
      congruence.
    + intros T Hu Hgt. unfold process_subframe_work in H.
      apply then_ok in H. destruct H as (n2 & ? & m2 & E2 & H & ->). apply free_ok in E2. destruct E2 as (-> & _).
      apply then_ok in H. destruct H as (n3 & ? & m3 & E3 & H & ->). apply free_ok in E3. destruct E3 as (-> & _).
      apply then_ok in H. destruct H as (n4 & ? & m4 & E4 & H & ->). apply free_ok in E4. destruct E4 as (-> & _).
      apply then_ok in H. destruct H as (n5 & (cd, d) & m5 & E5 & H & ->). apply free_ok in E5. destruct E5 as (-> & _).
      apply then_ok in H. destruct H as (n6 & o2 & m6 & E6 & H & ->). apply free_ok in E6. destruct E6 as (-> & _).
      destruct (osnma_validate_key_count T _ _ _ _ _ H Hu Hkeys Hgt). lia.
Qed.

Theorem step_count T h o x n o' : Forall op_ok (h ++ [x]) -> not_after root user T (h ++ [x]) -> run new h = Ok o ->
  step_work o x = Ok (n, o') -> 0 <= n /\ 30 * n <= 90300 + (T - time_of (subframe_of (op_gst x))).
Proof.
  intros Hok HT Hr H.
  assert (Hr' : run new (h ++ [x]) = Ok o').
  { pose proof (f_equal erase H) as Hs. rewrite step_erase in Hs. cbn [erase] in Hs. rewrite run_snoc, Hr. exact Hs. }
  assert (Hgt : time_of (subframe_of (op_gst x)) <= T).
  { apply subframe_until; [|apply (proj1 HT x), in_or_app; right; now left].
    apply Forall_app in Hok. destruct Hok as (_ & Hx). apply Forall_cons_iff in Hx. destruct Hx as (Hx & _).
    destruct x; exact (proj2 (proj2 Hx)). }
  destruct (step_count_keys h o x n o' Hok Hr H) as [->|(hk & mk & _ & Hc)]; [lia|].
  apply Hc; [|exact Hgt]. exact (run_until T _ _ Hok HT Hr').
Qed.

(** In nominal operation the only key is not later than the subframe. *)
Theorem honest_count pk t h o x n o' : transmission_ok pk t -> Forall op_ok (h ++ [x]) -> hears root user pk t (h ++ [x]) ->
  in_subframe_order (h ++ [x]) -> run new h = Ok o -> step_work o x = Ok (n, o') -> 0 <= n <= 3010.
Proof.
  intros Ht Hok Hh Hord Hr H.
  destruct (step_count_keys h o x n o' Hok Hr H) as [->|(hk & mk & Hc & Hb)]; [lia|].
  destruct (honest_run HC HS pk t Ht root user slow (h ++ [x]) Hok Hh) as (o'' & Hr' & Hks).
  assert (o'' = o') as ->.
  { pose proof (f_equal erase H) as Hs. rewrite step_erase in Hs. cbn [erase] in Hs.
    rewrite run_snoc, Hr in Hr'. cbn [bind] in Hr'. congruence. }
  destruct (hears_last pk t root user h x hk mk _ Hh Hc) as (_ & (m & Hm & Htm) & _).
  specialize (Hb (time_of (subframe_of (op_gst x)))). destruct Hb; [|lia|lia].
  intros k Hk. destruct Hks as (E1 & E2 & [(E & _)|(K & E & E3)]).
  - rewrite E in Hk. destruct Hk as [Hk|Hk]; discriminate Hk.
  - assert (k = K) as -> by (rewrite E in Hk; apply (with_key_held t); exact Hk).
    apply (key_time_bound pk t root user (h ++ [x]) o' K); [split; [exact E1|]; split; [exact E2|]; right; exists K; auto|exact E|].
    intros y Hy. apply In_nth_error in Hy. destruct Hy as (i & Hi).
    assert (Hlt : (i < length (h ++ [x]))%nat) by (apply nth_error_Some; congruence). rewrite app_length in Hlt. cbn [length] in Hlt.
    apply (Hord i (length h) y x); [lia|exact Hi|]. rewrite nth_error_app2 by lia. now rewrite Nat.sub_diag.
Qed.
End Crypto.

(** Properties C06 to C08, C10 to C13, C35, C36 and C47 to C49: alerts, public keys, TESLA keys,
    and what the calls leave alone. *)
From Coq Require Import ZArith String List Bool Lia.
From Verif Require Import Model.Prelude Model.Params Model.Gst Model.Svn Model.Bitfields Model.Tesla Model.Merkle
  Model.Dsm Model.Nav Model.Osnma
  Spec.TimeSpec Spec.CollectSpec Spec.NavSpec Spec.TeslaSpec Spec.KrootSpec Spec.MerkleSpec Spec.KeySpec Spec.SystemSpec
  Proofs.Base Proofs.TeslaProofs Proofs.KrootProofs Proofs.MerkleProofs Proofs.NavInv Proofs.SystemProofs Proofs.GetterProofs
  Proofs.KeyStoreProofs Proofs.StepProofs Proofs.AlertProofs Proofs.ChangeProofs
  Examples.Sha256 Examples.Vectors Props.SystemProps Examples.Demo Examples.Toy Examples.Transmit.
Import ListNotations.
Open Scope list_scope.
Open Scope Z_scope.
Local Existing Instance toy_crypto.

(** ** Histories of the examples *)

Definition tx_kroot (hd pk : Z) (c : tx_chain) : list Z := kroot_msg hd (pk_bytes pk) pk c tx_t0.
Definition tx_kroot_ops (t id hd pk : Z) (c : tx_chain) (mack : Z -> list Z) : list op :=
  tx_dsm t hd id (tx_kroot hd pk c) mack.
Definition junk : Z -> list Z := fun _ => repeat 5 60.
Definition tx_new : osnma := Eval vm_compute in (osnma_new (Some (tx_root tx_leaves)) (Some (tx_pub 3)) false).
Definition nominal : Z := tx_header 2 1 1.

(** Reading the state off a computation. *)
Lemma tx_held_run r x : tx_held r = Ok x -> exists o, r = Ok o /\ tx_held (Ok o) = Ok x.
Proof. destruct r as [o|]; [|discriminate]. intros H. exists o. auto. Qed.
Lemma tx_no_trust r c : tx_held r = Ok (false, (None, None), (None, None), c) -> exists o, r = Ok o /\ no_trust o.
Proof.
  destruct r as [o|]; [|discriminate]. cbn [tx_held bind]. intros H. exists o. split; [reflexivity|].
  destruct (o_merkle o) as [|] eqn:Em; [discriminate H|].
  destruct (o_pub o) as [c0 n0] eqn:Ep. destruct (o_keys o) as [a b cf] eqn:Ek. cbn [ps_current ps_next ks_k0 ks_k1 ks_cif] in H.
  destruct c0; [discriminate H|]. destruct n0; [discriminate H|]. destruct a; [discriminate H|]. destruct b; [discriminate H|].
  split; [exact Em|]. rewrite Ep, Ek. split; intros k [E|E]; discriminate E.
Qed.

(** The KROOT messages of the examples verify. *)
Definition kroot_okb (o : osnma) (hd pk : Z) (c : tx_chain) : bool :=
  match key_from_dsm_kroot hd (tx_kroot hd pk c) (VkP256 (pk_bytes pk)) with Ok (ROk _) => true | _ => false end.
Lemma kroot_example o hd pk c : held_pub (o_pub o) (tx_pub pk) -> is_byte hd ->
  kroot_okb o hd pk c && forallb (fun b => (0 <=? b) && (b <? 256)) (tx_kroot hd pk c) = true ->
  kroot_public_key_id (tx_kroot hd pk c) = Ok pk ->
  Forall is_byte (tx_kroot hd pk c) /\
  exists f k, kroot_verifies o (tx_kroot hd pk c) hd f (tx_pub pk) /\ kroot_key f k /\ gst_ok (k_gst k).
Proof.
  intros Hh Hb H Hid. apply andb_true_iff in H. destruct H as (H & Hby). apply all_bytes in Hby. split; [exact Hby|].
  unfold kroot_okb in H. destruct (key_from_dsm_kroot hd _ _) as [[k|]|] eqn:E; try discriminate H.
  destruct (key_from_dsm_kroot_sound toy_crypto_ok _ _ _ _ Hb Hby E) as (f & F1 & F2 & F3 & F4).
  exists f, k. split; [|split; [exact F3|apply F4]]. split; [exact F1|]. split; [exact Hh|]. split; [|exact F2].
  rewrite (kroot_pkid_layout _ _ F1) in Hid. now injection Hid as <-.
Qed.

(** ** C06 *)

(** A DSM-PKR alert that leads to the Merkle tree root, and a DSM-KROOT that verifies and whose
    NMA header announces an alert, remove everything that is trusted. *)
Theorem C06_pkr_alert_clears : forall (C : crypto) (B : build) o d hd g f,
  dm_type d = DsmPkr -> pkr_verifies o (dm_data d) f -> pf_npkt f = 4 ->
  exists o', process_dsm o d hd g = Ok o' /\ no_trust o'.
Proof. intros C B. exact pkr_alert_clears. Qed.

Theorem C06_kroot_alert_clears :
  forall (C : crypto) (B : build) (S : storage), crypto_ok C -> storage_ok S ->
  forall root user slow h o d hd g f pk k, Forall op_ok h -> run (osnma_new root user slow) h = Ok o ->
  is_byte hd -> Forall is_byte (dm_data d) -> dm_type d = DsmKroot ->
  kroot_verifies o (dm_data d) hd f pk -> kroot_key f k -> gst_ok (k_gst k) ->
  (overflow_checks = true -> 30 <= 604800 * kf_wn f + 3600 * kf_towh f) ->
  (forall k521, pk_key pk = VkP521 k521 -> feature_p521 = true) ->
  header_cpks hd = cpks_alert ->
  exists o', process_dsm o d hd g = Ok o' /\ no_trust o'.
Proof.
  intros C B S HC HS root user slow h o d hd g f pk k Hok Hrun. apply (kroot_alert_clears HC).
  now apply (reachable_inv HC HS root user slow h).
Qed.

(** From then on nothing is trusted again and what is returned was authenticated by the calls
    before. *)
Theorem C06_alert_is_permanent :
  forall (C : crypto) (B : build) (S : storage), crypto_ok C -> storage_ok S ->
  forall root user slow h1 o1 h2 o2, Forall op_ok h1 -> Forall op_ok h2 ->
  run (osnma_new root user slow) h1 = Ok o1 -> no_trust o1 -> run o1 h2 = Ok o2 ->
  no_trust o2 /\ forall k svn d, getter k o2 svn = Ok (Some d) ->
    authenticated root user slow h1 k svn (nd_data d) (nd_authbits d).
Proof. intros C B S HC HS. exact (alert_permanent HC HS). Qed.

(** Data is authenticated, then an alert is received in a DSM-PKR, or in a DSM-KROOT; after it the
    same signal has no effect. *)
Definition alert_pkr_ops : list op := Eval vm_compute in (tx_dsm (tx_t0 + 60) (tx_header 3 1 7) 13 (pkr_msg tx_leaves 15) junk).
Definition alert_kroot_ops : list op := Eval vm_compute in (tx_kroot_ops (tx_t0 + 60) 9 (tx_header 3 1 7) 3 chain1 junk).
Definition after_alert : list op :=
Eval vm_compute in (  tx_nav (tx_t0 + 90) ++ tx_kroot_ops (tx_t0 + 120) 7 nominal 3 chain1 (fun _ => tx_mack1 chain1 (tx_t0 + 120))
  ++ tx_one (tx_t0 + 150) nominal 7 (tx_kroot nominal 3 chain1) (tx_mack1 chain1 (tx_t0 + 150))).
Example C06_example : Forall op_ok (tx_nominal ++ alert_pkr_ops ++ alert_kroot_ops ++ after_alert) /\
  (exists o1, run tx_new (tx_nominal ++ alert_pkr_ops) = Ok o1 /\ no_trust o1) /\
  (exists o1, run tx_new (tx_nominal ++ alert_kroot_ops) = Ok o1 /\ no_trust o1) /\
  tx_get (run tx_new (tx_nominal ++ alert_kroot_ops ++ after_alert)) Ced 2 = Ok (Some (80, gst_at (tx_t0 + 90))) /\
  tx_get (run tx_new (tx_nominal ++ after_alert)) Ced 2 = Ok (Some (160, gst_at (tx_t0 + 90))) /\
  tx_get (run tx_new (alert_kroot_ops ++ after_alert)) Ced 2 = Ok None.
Proof.
  split; [apply op_okb_ok; vm_compute; reflexivity|].
  split; [apply tx_no_trust with None; vm_compute; reflexivity|].
  split; [apply tx_no_trust with None; vm_compute; reflexivity|].
  vm_compute. repeat split.
Qed.
(** The messages of the example verify. *)
Example C06_example_messages :
  (exists f, pkr_verifies tx_new (pkr_msg tx_leaves 15) f /\ pf_npkt f = 4) /\
  header_cpks (tx_header 3 1 7) = cpks_alert /\
  exists f k, kroot_verifies tx_new (tx_kroot (tx_header 3 1 7) 3 chain1) (tx_header 3 1 7) f (tx_pub 3) /\
    kroot_key f k /\ gst_ok (k_gst k).
Proof.
  split; [|split; [reflexivity|]].
  - assert (H : validate_alert_message (tx_root tx_leaves) (pkr_msg tx_leaves 15) = Ok (ROk tt)) by (vm_compute; reflexivity).
    apply validate_alert_sound in H; [|apply all_bytes; vm_compute; reflexivity].
    destruct H as (f & F1 & F2 & F3). exists f. split; [|exact F3]. exists (tx_root tx_leaves). auto.
  - apply kroot_example; [now left|vm_compute; intuition congruence|vm_compute; reflexivity|vm_compute; reflexivity].
Qed.

(** ** C07 *)

(** Without a Merkle tree root the only public key that is ever held is the one of the user, and
    each TESLA key held leads to a root key that verified with it. *)
Theorem C07_only_the_configured_key :
  forall (C : crypto) (B : build) (S : storage), crypto_ok C -> storage_ok S ->
  forall pk slow h o, Forall op_ok h -> run (from_pubkey pk slow) h = Ok o ->
  o_merkle o = None /\ (forall p, held_pub (o_pub o) p -> p = pk) /\
  forall key, held (o_keys o) key ->
    exists kr n id d f svn g hk mk, key_after kr key n /\ dsm_received h id d /\ kroot_layout d f /\
      subframe_received h svn g hk mk /\ pk_id pk = kf_pkid f /\ kroot_verified (nth 0 hk 0) f (pk_key pk) /\ kroot_key f kr.
Proof.
  intros C B S HC HS pk slow h o Hok Hrun. destruct (run_only pk slow h o Hrun) as (H1 & H2).
  split; [exact H1|]. split; [exact H2|]. intros key Hkey.
  destruct (C02_held_keys_are_trusted C B S HC HS None (Some pk) slow h o key Hok Hrun Hkey)
    as (kr & n & (id & d & f & p & svn & g & hk & mk & V1 & V2 & V3 & V4 & V5 & V6 & V7 & V8) & Ha).
  assert (p = pk) as ->.
  { destruct V5 as [V5|(r & V5)]; [congruence|]. destruct V5 as (? & ? & ? & V5 & _). discriminate V5. }
  exists kr, n, id, d, f, svn, g, hk, mk. repeat (split; [assumption|]). assumption.
Qed.

(** A DSM-PKR with another key changes nothing if there is no Merkle tree root; with one, the key
    is stored. *)
Definition pkr4_ops : list op := Eval vm_compute in (tx_dsm (tx_t0 - 60) (tx_header 2 1 4) 13 (pkr_msg tx_leaves 3) junk).
Example C07_example : Forall op_ok (pkr4_ops ++ tx_nominal) /\
  tx_held (run (from_pubkey (tx_pub 3) false) (pkr4_ops ++ tx_nominal))
  = Ok (false, (Some 3, None), (Some (1, gst_at (tx_t0 + 30)), None), Some (mkCif 1 None)) /\
  tx_held (run tx_new (pkr4_ops ++ tx_nominal))
  = Ok (true, (Some 3, Some 4), (Some (1, gst_at (tx_t0 + 30)), None), Some (mkCif 1 None)).
Proof. split; [apply op_okb_ok; vm_compute; reflexivity|]. vm_compute. repeat split. Qed.

(** ** C08 *)

(** A message that does not verify changes nothing. *)
Theorem C08_rejected_changes_nothing :
  forall (C : crypto) (B : build), crypto_ok C ->
  forall o d hd g o', is_byte hd -> Forall is_byte (dm_data d) -> process_dsm o d hd g = Ok o' ->
  ~ dsm_verifies o d hd -> o' = o.
Proof.
  intros C B HC o d hd g o' Hb Hd H Hn.
  destruct (effect_verifies HC o d hd g o' Hb Hd H) as [E|E]; [exact E|contradiction].
Qed.

(** A call that changes the key material, other than by newer keys of the same TESLA chains, has
    completed a message that verifies. *)
Theorem C08_changes_need_a_verified_message :
  forall (C : crypto) (B : build) (S : storage), crypto_ok C -> storage_ok S ->
  forall root user slow h o x o', Forall op_ok h -> op_ok x -> run (osnma_new root user slow) h = Ok o ->
  step o x = Ok o' ->
  keys_advanced o o' \/
  exists d svn g hk mk, dsm_received (h ++ [x]) (dm_id d) (dm_data d) /\
    subframe_received (h ++ [x]) svn g hk mk /\ dsm_verifies o d (nth 0 hk 0).
Proof. intros C B S HC HS. exact (step_verifies HC HS). Qed.

(** A KROOT signed with another key, with a wrong header, or with an unknown key id, and a
    DSM-PKR with a wrong key. *)
Definition last_byte_changed (d : list Z) : list Z := removelast d ++ [(last d 0 + 1) mod 256].
Definition bad_pkr : list Z := let d := pkr_msg tx_leaves 3 in firstn 140 d ++ [(nth 140 d 0 + 1) mod 256] ++ skipn 141 d.
Definition trust_before := Ok (true, (Some 3, @None Z), (@None (Z * gst), @None (Z * gst)), @None chain_in_force).
Example C08_example :
  let go d hd ty := tx_held (process_dsm tx_new (mkDsm (if dsm_type_eqb ty DsmKroot then 7 else 13) ty d) hd (gst_at tx_t0)) in
  go (kroot_msg nominal (pk_bytes 4) 3 chain1 tx_t0) nominal DsmKroot = trust_before /\
  go (tx_kroot nominal 3 chain1) (tx_header 1 1 1) DsmKroot = trust_before /\
  go (tx_kroot nominal 4 chain1) nominal DsmKroot = trust_before /\
  go (last_byte_changed (tx_kroot nominal 3 chain1)) nominal DsmKroot = trust_before /\
  go bad_pkr (tx_header 2 1 4) DsmPkr = trust_before /\
  go (tx_kroot nominal 3 chain1) nominal DsmKroot
  = Ok (true, (Some 3, None), (Some (1, gst_at (tx_t0 - 30)), None), Some (mkCif 1 None)).
Proof. vm_compute. repeat split. Qed.
(** A message as in the theorem: the key id is not that of a held key. *)
Example C08_example_rejected : ~ dsm_verifies tx_new (mkDsm 7 DsmKroot (tx_kroot nominal 4 chain1)) nominal.
Proof.
  cbn [dsm_verifies dm_type dm_data]. intros (f & pk & F1 & F2 & F3 & F4).
  assert (E3 : pk_id pk = 3) by (destruct F2 as [F2|F2]; [injection F2 as <-; reflexivity|discriminate F2]).
  assert (E : kroot_public_key_id (tx_kroot nominal 4 chain1) = Ok 4) by (vm_compute; reflexivity).
  rewrite (kroot_pkid_layout _ _ F1) in E. injection E as E. congruence.
Qed.

(** ** C10 *)
Theorem C10_getters_never_panic :
  forall (C : crypto) (B : build) (S : storage), crypto_ok C -> storage_ok S ->
  forall root user slow h o k svn, Forall op_ok h -> (forall w, In w (inav_words h) -> 1 <= g_wn (nw_gst w)) ->
  run (osnma_new root user slow) h = Ok o -> exists r, getter k o svn = Ok r.
Proof. intros C B S HC HS. exact (getter_total HC HS). Qed.

Example C10_example : Forall op_ok tx_nominal /\ (forall w, In w (inav_words tx_nominal) -> 1 <= g_wn (nw_gst w)) /\
  (exists o, run tx_new tx_nominal = Ok o) /\ tx_get (run tx_new tx_nominal) Ced 2 = Ok (Some (80, gst_at (tx_t0 - 30))).
Proof.
  split; [apply op_okb_ok; vm_compute; reflexivity|]. split.
  { assert (H : forallb (fun w => 1 <=? g_wn (nw_gst w)) (inav_words tx_nominal) = true) by (vm_compute; reflexivity).
    rewrite forallb_forall in H. intros w Hw. specialize (H w Hw). now apply Z.leb_le. }
  assert (H : tx_get (run tx_new tx_nominal) Ced 2 = Ok (Some (80, gst_at (tx_t0 - 30)))) by (vm_compute; reflexivity).
  split; [|exact H]. destruct (run tx_new tx_nominal) as [o|]; [now exists o|discriminate H].
Qed.

(** ** C11 *)

(** In every state that is reached, and in those in which a message has just been processed, the
    assertions of the public key store hold, and no call of the stores panics. *)
Theorem C11_store_assertions_hold :
  forall (C : crypto) (B : build) (S : storage),
  forall root user slow h o d hd g o', run (osnma_new root user slow) h = Ok o ->
  o' = o \/ process_dsm o d hd g = Ok o' ->
  (forall n, ps_next (o_pub o') = Some n -> exists c, ps_current (o_pub o') = Some c /\ pk_id c < pk_id n) /\
  check_consistency (o_pub o') = Ok tt /\
  (forall id, exists r, applicable_pubkey (o_pub o') id = Ok r /\
     forall pk, r = Some pk -> exists ps, make_pkid_current (o_pub o') id = Ok ps) /\
  (forall pk, exists ps, store_new_pubkey (o_pub o') pk = Ok ps) /\
  (forall cur key, current_key (o_keys o') = Some cur -> k_chain key = k_chain cur ->
     exists ks, store_key (o_keys o') key = Ok ks).
Proof.
  intros C B S root user slow h o d hd g o' Hrun Ho.
  pose proof (run_stores _ _ _ (new_stores root user slow) Hrun) as Hst.
  assert (Hst' : stores_ok o') by (destruct Ho as [->|Ho]; [exact Hst|now apply process_dsm_stores in Ho]).
  destruct Hst' as (Hp & Hk). split; [exact Hp|]. split; [now apply pubs_ok_consistent|]. split; [|split].
  - intros id. destruct (applicable_spec _ id Hp) as (r & E & Hr). exists r. split; [exact E|].
    intros pk ->. destruct Hr as (Hh & <-). destruct (make_current_spec _ _ Hp Hh) as (ps & E' & _). now exists ps.
  - intros pk. destruct (store_new_spec (o_pub o') pk Hp) as (ps & E & _). now exists ps.
  - intros cur key Hc Hch. apply store_key_held. exists cur. split; [now apply current_key_in|].
    unfold chain_of. now rewrite Hch.
Qed.

(** A state with two public keys, whose TESLA key is then replaced by a newer one. *)
Example C11_example :
  tx_held (run tx_new (pkr4_ops ++ tx_nominal))
  = Ok (true, (Some 3, Some 4), (Some (1, gst_at (tx_t0 + 30)), None), Some (mkCif 1 None)) /\
  (** the assertions can fail *)
  check_consistency (mkPubs None (Some (tx_pub 4))) = Panic.
Proof. vm_compute. repeat split. Qed.

(** ** C12 *)

(** At most one key of a chain is held. *)
Theorem C12_one_key_per_chain :
  forall (C : crypto) (B : build) (S : storage) root user slow h o k k',
  run (osnma_new root user slow) h = Ok o -> held (o_keys o) k -> held (o_keys o) k' -> chain_of k = chain_of k' -> k = k'.
Proof.
  intros C B S root user slow h o k k' Hrun. apply held_unique.
  exact (proj2 (run_stores _ _ _ (new_stores root user slow) Hrun)).
Qed.

(** Storing a KROOT keeps the key of the chain that is announced to be in force, and any key of
    the chain of the KROOT; otherwise the new key is held. *)
Theorem C12_kroot_keeps_chain_in_force :
  forall (C : crypto) (B : build) (S : storage) root user slow h o k key hd g,
  run (osnma_new root user slow) h = Ok o -> is_byte hd -> held (o_keys o) k ->
  (chain_of k = header_chain hd -> held (store_kroot (o_keys o) key hd g) k) /\
  (chain_of k = chain_of key -> held (store_kroot (o_keys o) key hd g) k /\ (held (store_kroot (o_keys o) key hd g) key -> key = k)) /\
  exists k', held (store_kroot (o_keys o) key hd g) k' /\ chain_of k' = chain_of key.
Proof.
  intros C B S root user slow h o k key hd g Hrun Hb Hk.
  pose proof (proj2 (run_stores _ _ _ (new_stores root user slow) Hrun)) as Hd.
  split; [|split].
  - intros E. apply store_kroot_keeps; auto. now destruct (header_fields hd Hb) as (_ & -> & _).
  - intros E. destruct (store_kroot_same _ _ hd g _ Hk E) as (E0 & E1).
    assert (Hk' : held (store_kroot (o_keys o) key hd g) k) by (unfold held; now rewrite E0, E1).
    split; [exact Hk'|]. intros Hkey.
    apply (held_unique _ _ _ (store_kroot_distinct _ key hd g Hd) Hkey Hk'). now symmetry.
  - apply store_kroot_stored.
Qed.

(** The key of a chain only moves forward in time. *)
Theorem C12_keys_move_forward :
  forall (C : crypto) (B : build) (S : storage), crypto_ok C -> storage_ok S ->
  forall root user slow h o x o' k k', Forall op_ok h -> op_ok x -> run (osnma_new root user slow) h = Ok o ->
  step o x = Ok o' -> held (o_keys o) k -> held (o_keys o') k' -> chain_of k' = chain_of k ->
  k_chain k' = k_chain k /\ time_of (k_gst k) <= time_of (k_gst k').
Proof.
  intros C B S HC HS root user slow h o x o' k k' Hok Hx Hrun Hstep.
  destruct (reachable_inv HC HS root user slow h o Hok Hrun) as (_ & Hst & Hko).
  destruct (reachable_inv HC HS root user slow (h ++ [x]) o') as (_ & _ & Hko').
  { apply Forall_app. split; [exact Hok|]. constructor; [exact Hx|constructor]. }
  { rewrite run_snoc, Hrun. exact Hstep. }
  now apply step_keys_forward with x.
Qed.

(** Two chains; the KROOT of chain 1 again, which does not bring back the older key; the KROOT of
    a third chain replaces the one that is not in force. *)
Definition chain3 : tx_chain := mkTx 3 (firstn 16 (toy_sha256 [3])) (tx_t0 + 900).
Definition two_chains : list op := Eval vm_compute in (tx_nominal ++ tx_kroot_ops (tx_t0 + 60) 8 nominal 3 chain2 (fun _ => tx_mack0 chain1 (tx_t0 + 60))).
Definition kroot1_again : list op := Eval vm_compute in (tx_kroot_ops (tx_t0 + 90) 7 nominal 3 chain1 junk).
Definition kroot3_ops : list op := Eval vm_compute in (tx_kroot_ops (tx_t0 + 90) 7 nominal 3 chain3 junk).
Example C12_example : Forall op_ok two_chains /\
  tx_held (run tx_new two_chains)
  = Ok (true, (Some 3, None), (Some (1, gst_at (tx_t0 + 60)), Some (2, gst_at (tx_t0 - 30))), Some (mkCif 1 None)) /\
  tx_held (run tx_new (two_chains ++ kroot1_again))
  = Ok (true, (Some 3, None), (Some (1, gst_at (tx_t0 + 60)), Some (2, gst_at (tx_t0 - 30))), Some (mkCif 1 None)) /\
  tx_held (run tx_new (two_chains ++ kroot3_ops))
  = Ok (true, (Some 3, None), (Some (1, gst_at (tx_t0 + 60)), Some (3, gst_at (tx_t0 - 30))), Some (mkCif 1 None)).
Proof. split; [apply op_okb_ok; vm_compute; reflexivity|]. vm_compute. repeat split. Qed.

(** ** C13 *)

(** The id of the key in use never decreases, unless an alert has removed everything. *)
Theorem C13_pkid_never_decreases :
  forall (C : crypto) (B : build) (S : storage) root user slow h1 h2 o1 o2 pk,
  run (osnma_new root user slow) h1 = Ok o1 -> run o1 h2 = Ok o2 -> ps_current (o_pub o1) = Some pk ->
  no_trust o2 \/ exists pk', ps_current (o_pub o2) = Some pk' /\ pk_id pk <= pk_id pk'.
Proof.
  intros C B S root user slow h1 h2 o1 o2 pk H1 H2 Hc.
  destruct (run_pubs h2 o1 o2 (run_stores _ _ _ (new_stores root user slow) H1) H2) as [H|H]; [now left|right; now apply H].
Qed.

(** A key that a call adds has a greater id than the one in use. *)
Theorem C13_only_newer_keys_are_stored :
  forall (C : crypto) (B : build) (S : storage) root user slow h o x o' pk c,
  run (osnma_new root user slow) h = Ok o -> step o x = Ok o' -> held_pub (o_pub o') pk -> ps_current (o_pub o) = Some c ->
  held_pub (o_pub o) pk \/ pk_id c < pk_id pk.
Proof.
  intros C B S root user slow h o x o' pk c Hrun Hstep Hpk Hc.
  destruct (step_pubs o x o' (run_stores _ _ _ (new_stores root user slow) Hrun) Hstep) as [H|(_ & H)].
  - destruct H as (_ & H & _). now apply H in Hpk.
  - destruct (H pk Hpk) as [Hp|Hp]; [now left|right; now apply Hp].
Qed.

(** A KROOT that changes something has been verified with a held key that has the id that the
    KROOT names. *)
Theorem C13_kroot_names_its_key :
  forall (C : crypto) (B : build), crypto_ok C ->
  forall o d hd g o', is_byte hd -> Forall is_byte (dm_data d) -> dm_type d = DsmKroot ->
  process_dsm o d hd g = Ok o' -> o' <> o ->
  exists f pk, kroot_layout (dm_data d) f /\ held_pub (o_pub o) pk /\ pk_id pk = kf_pkid f /\ kroot_verified hd f (pk_key pk).
Proof.
  intros C B HC o d hd g o' Hb Hd Ht H Hne.
  destruct (effect_verifies HC o d hd g o' Hb Hd H) as [E|E]; [contradiction|].
  unfold dsm_verifies in E. rewrite Ht in E. exact E.
Qed.

(** Key 4 is received, and used when a KROOT comes with it; key 2 is not stored; key 3 is not
    used any more. *)
Definition kroot4_ops : list op := Eval vm_compute in (tx_kroot_ops tx_t0 8 nominal 4 chain1 junk).
Definition pkr2_ops : list op := Eval vm_compute in (tx_dsm (tx_t0 + 30) (tx_header 2 1 4) 14 (pkr_msg tx_leaves 1) junk).
Definition pkr6_ops : list op := Eval vm_compute in (tx_dsm (tx_t0 + 30) (tx_header 2 1 4) 14 (pkr_msg tx_leaves 5) junk).
Definition kroot32_ops : list op := Eval vm_compute in (tx_kroot_ops (tx_t0 + 60) 7 nominal 3 chain2 junk).
Example C13_example : Forall op_ok (pkr4_ops ++ kroot4_ops) /\
  tx_held (run tx_new (pkr4_ops ++ kroot4_ops))
  = Ok (true, (Some 4, None), (Some (1, gst_at (tx_t0 - 30)), None), Some (mkCif 1 None)) /\
  tx_held (run tx_new (pkr4_ops ++ kroot4_ops ++ pkr2_ops
                         ++ kroot32_ops))
  = Ok (true, (Some 4, None), (Some (1, gst_at (tx_t0 - 30)), None), Some (mkCif 1 None)) /\
  tx_held (run tx_new (pkr4_ops ++ kroot4_ops ++ pkr6_ops))
  = Ok (true, (Some 4, Some 6), (Some (1, gst_at (tx_t0 - 30)), None), Some (mkCif 1 None)).
Proof. split; [apply op_okb_ok; vm_compute; reflexivity|]. vm_compute. repeat split. Qed.

(** ** C35 *)
Theorem C35_zeros_are_ignored :
  forall (C : crypto) (B : build) (S : storage) o data svn g,
  Forall (fun b => b = 0) data -> feed_osnma o data svn g = Ok o.
Proof.
  intros C B S o data svn g H. unfold feed_osnma.
  assert (forallb (fun x => x =? 0) data = true) as ->; [|reflexivity].
  apply forallb_forall. intros x Hx. rewrite Forall_forall in H. now rewrite (H x Hx).
Qed.
Definition kroot31_ops : list op := Eval vm_compute in (tx_kroot_ops tx_t0 7 nominal 3 chain1 junk).
(** In the middle of a subframe, whose completion then is as without the zeros; other words are
    not ignored. *)
Example C35_example :
  let ops := kroot31_ops in
  Forall (fun b => b = 0) (repeat 0 5) /\
  tx_held (run tx_new (firstn 100 ops ++ FeedOsnma (repeat 0 5) 1 (gst_at (tx_t0 + 30)) :: skipn 100 ops))
  = Ok (true, (Some 3, None), (Some (1, gst_at (tx_t0 - 30)), None), Some (mkCif 1 None)) /\
  tx_held (run tx_new (firstn 100 ops ++ FeedOsnma (repeat 1 5) 1 (gst_at (tx_t0 + 30)) :: skipn 100 ops)) = trust_before.
Proof. split; [repeat constructor|]. vm_compute. repeat split. Qed.

(** ** C36 *)
Theorem C36_feeding_inav_authenticates_nothing :
  forall (C : crypto) (B : build) (S : storage), crypto_ok C -> storage_ok S ->
  forall root user slow h o word svn g b, Forall op_ok h -> op_ok (FeedInav word svn g b) ->
  run (osnma_new root user slow) h = Ok o ->
  exists o', feed_inav o word svn g b = Ok o' /\
    same_trust o o' /\ o_sub o' = o_sub o /\ o_dsm o' = o_dsm o /\ o_mack o' = o_mack o /\ o_slow o' = o_slow o /\
    (forall k svn' d, getter k o' svn' = Ok (Some d) -> authenticated root user slow h k svn' (nd_data d) (nd_authbits d)) /\
    forall k e', In e' (nv_arr k (o_nav o')) -> e_authbits e' = 0 \/
      exists e, In e (nv_arr k (o_nav o)) /\ e_svn e' = e_svn e /\ e_data e' = e_data e /\ e_authbits e' = e_authbits e.
Proof.
  intros C B S HC HS root user slow h o word svn g b Hok Hx Hrun.
  destruct (feed_inav_total HC HS root user slow h o word svn g b Hok Hx Hrun) as (o' & E & H1 & H2).
  exists o'. split; [exact E|]. unfold feed_inav in E. destruct (nav_feed _ _ _ _ _); [|discriminate E].
  injection E as <-. split; [now repeat split|]. do 4 (split; [reflexivity|]). split; [exact H1|exact H2].
Qed.
(** The same data again keeps its bits, other data has none. *)
Example C36_example :
  tx_get (run tx_new (tx_nominal ++ tx_nav (tx_t0 + 30))) Ced 2 = Ok (Some (80, gst_at (tx_t0 + 30))) /\
  (exists o, run tx_new tx_nominal = Ok o) /\ op_ok (FeedInav (nth 0 demo_nav2 []) 2 (gst_at (tx_t0 + 30)) E1B) /\
  tx_get (run tx_new (tx_nominal ++ [FeedInav (firstn 15 (nth 0 demo_nav2 []) ++ [85]) 2 (gst_at (tx_t0 - 2)) E1B])) Ced 2 = Ok None.
Proof.
  split; [vm_compute; reflexivity|]. split; [|split].
  - destruct (tx_held_run _ _ tx_nominal_held) as (o & _). 
    assert (H : tx_get (run tx_new tx_nominal) Ced 2 = Ok (Some (80, gst_at (tx_t0 - 30)))) by (vm_compute; reflexivity).
    destruct (run tx_new tx_nominal) as [o'|]; [now exists o'|discriminate H].
  - assert (H : Forall op_ok [FeedInav (nth 0 demo_nav2 []) 2 (gst_at (tx_t0 + 30)) E1B]) by (apply op_okb_ok; vm_compute; reflexivity).
    now apply Forall_cons_iff in H.
  - vm_compute. reflexivity.
Qed.

(** ** C47 *)

(** A KROOT that verifies and announces the revocation of the chain leaves no key of it; as long
    as no KROOT of the chain verifies after that, there is none. *)
Theorem C47_revocation_removes_the_chain :
  forall (C : crypto) (B : build) (S : storage), crypto_ok C -> storage_ok S ->
  forall root user slow h o d hd g f pk k, Forall op_ok h -> run (osnma_new root user slow) h = Ok o ->
  is_byte hd -> Forall is_byte (dm_data d) -> dm_type d = DsmKroot ->
  kroot_verifies o (dm_data d) hd f pk -> kroot_key f k -> gst_ok (k_gst k) ->
  (overflow_checks = true -> 30 <= 604800 * kf_wn f + 3600 * kf_towh f) ->
  (forall k521, pk_key pk = VkP521 k521 -> feature_p521 = true) ->
  header_status hd = status_dont_use -> header_cpks hd = cpks_chain_revoked ->
  exists o', process_dsm o d hd g = Ok o' /\ forall q, held (o_keys o') q -> chain_of q <> header_chain hd.
Proof.
  intros C B S HC HS root user slow h o d hd g f pk k Hok Hrun Hb Hd Ht Hv Hk Hg Hu Hf Hs Hc.
  destruct (reachable_inv HC HS root user slow h o Hok Hrun) as (_ & Hst & _).
  destruct (kroot_revokes HC o d hd g f pk k Hst Hb Hd Ht Hv Hk Hg Hu Hf Hs (or_introl Hc)) as (o' & H1 & H2 & _).
  now exists o'.
Qed.

Theorem C47_revoked_until_new_kroot :
  forall (C : crypto) (B : build) (S : storage), crypto_ok C -> storage_ok S ->
  forall root user slow h1 h2 o1 o2 c, Forall op_ok (h1 ++ h2) -> run (osnma_new root user slow) h1 = Ok o1 ->
  run o1 h2 = Ok o2 -> (forall k, held (o_keys o1) k -> chain_of k <> c) ->
  (forall k, held (o_keys o2) k -> chain_of k <> c) \/
  exists p x q o id d svn g hk mk f pk, h2 = p ++ x :: q /\ run o1 p = Ok o /\ id < 12 /\
    dsm_received (h1 ++ p ++ [x]) id d /\ subframe_received (h1 ++ p ++ [x]) svn g hk mk /\
    kroot_verifies o d (nth 0 hk 0) f pk /\ kf_cid f = c.
Proof. intros C B S HC HS root user slow h1 h2. exact (run_chain_back HC HS root user slow h1 h2). Qed.

(** The property is false: the KROOT that was sent before the revocation still verifies, and
    brings the chain back.  Chain 1 is revoked by a KROOT for chain 2; then the old KROOT of
    chain 1 is sent again, and data is authenticated with chain 1. *)
Definition revoked : Z := tx_header 3 1 3.
Definition revoke_ops : list op :=
Eval vm_compute in (  tx_nav (tx_t0 - 30) ++ tx_kroot_ops tx_t0 7 nominal 3 chain1 (fun _ => tx_mack1 chain1 tx_t0)
  ++ tx_kroot_ops (tx_t0 + 30) 8 revoked 3 chain2 junk).
Definition replay_ops : list op :=
Eval vm_compute in (  tx_nav (tx_t0 + 90) ++ tx_kroot_ops (tx_t0 + 120) 7 nominal 3 chain1 (fun _ => tx_mack1 chain1 (tx_t0 + 120))
  ++ tx_one (tx_t0 + 150) nominal 7 (tx_kroot nominal 3 chain1) (tx_mack1 chain1 (tx_t0 + 150))).
Lemma tx_held_keys r m p k0 k1 c : tx_held r = Ok (m, p, (k0, k1), c) ->
  exists o, r = Ok o /\ (forall k, held (o_keys o) k -> Some (chain_of k, k_gst k) = k0 \/ Some (chain_of k, k_gst k) = k1) /\
    (forall x, k0 = Some x \/ k1 = Some x -> exists k, held (o_keys o) k /\ (chain_of k, k_gst k) = x).
Proof.
  destruct r as [o|]; [|discriminate]. cbn [tx_held bind]. intros H. exists o. split; [reflexivity|].
  apply (f_equal (fun x => match x with Ok (_, _, q, _) => q | Panic => (None, None) end)) in H.
  apply pair_equal_spec in H. destruct H as (<- & <-). split.
  - intros k [E|E]; rewrite E; cbn [option_map]; auto.
  - intros x [E|E].
    + destruct (ks_k0 (o_keys o)) as [k|] eqn:Ek; [|discriminate E]. exists k. split; [now left|]. now injection E.
    + destruct (ks_k1 (o_keys o)) as [k|] eqn:Ek; [|discriminate E]. exists k. split; [now right|]. now injection E.
Qed.
Lemma run_last o h p x oa o1 : h = p ++ [x] -> run o p = Ok oa -> run o h = Ok o1 -> step oa x = Ok o1.
Proof. intros -> H1 H2. rewrite run_snoc, H1 in H2. exact H2. Qed.
Definition c47_new : osnma := osnma_new None (Some (tx_pub 3)) false.
Definition c47_before : list op := Eval vm_compute in (removelast revoke_ops).
Definition c47_call : op := Eval vm_compute in (last revoke_ops (FeedOsnma [] 1 (gst_at 0))).
Lemma c47_held0 : tx_held (run c47_new c47_before)
  = Ok (false, (Some 3, None), (Some (1, gst_at tx_t0), None), Some (mkCif 1 None)).
Proof. vm_compute. reflexivity. Qed.
Lemma c47_held1 : tx_held (run c47_new (c47_before ++ [c47_call]))
  = Ok (false, (Some 3, None), (None, Some (2, gst_at (tx_t0 - 30))), Some (mkCif 1 None)).
Proof. vm_compute. reflexivity. Qed.
Lemma c47_get1 : tx_get (run c47_new (c47_before ++ [c47_call])) Ced 2 = Ok None.
Proof. vm_compute. reflexivity. Qed.
Lemma c47_held2 : tx_held (run c47_new ((c47_before ++ [c47_call]) ++ replay_ops))
  = Ok (false, (Some 3, None), (Some (1, gst_at (tx_t0 + 150)), Some (2, gst_at (tx_t0 - 30))), Some (mkCif 1 None)).
Proof. vm_compute. reflexivity. Qed.
Lemma c47_get2 : tx_get (run c47_new ((c47_before ++ [c47_call]) ++ replay_ops)) Ced 2 = Ok (Some (80, gst_at (tx_t0 + 90))).
Proof. vm_compute. reflexivity. Qed.
Lemma c47_ops_ok : Forall op_ok (c47_before ++ [c47_call] ++ replay_ops).
Proof. apply op_okb_ok. vm_compute. reflexivity. Qed.
Lemma c47_order : in_time_order (c47_before ++ [c47_call] ++ replay_ops).
Proof. apply in_time_orderb. vm_compute. reflexivity. Qed.
Lemma c47_kroot o : held_pub (o_pub o) (tx_pub 3) -> exists f, kroot_verifies o (tx_kroot revoked 3 chain2) revoked f (tx_pub 3).
Proof.
  intros H. destruct (kroot_example o revoked 3 chain2) as (_ & f & k & Hv & _);
    [exact H|vm_compute; intuition congruence|vm_compute; reflexivity|vm_compute; reflexivity|]. now exists f.
Qed.
Lemma tx_held_pub pk slow h m n ks c : tx_held (run (osnma_new None (Some pk) slow) h) = Ok (m, (Some n, None), ks, c) ->
  exists o, run (osnma_new None (Some pk) slow) h = Ok o /\ held_pub (o_pub o) pk.
Proof.
  destruct (run _ h) as [o|] eqn:E; [|discriminate]. intros H. exists o. split; [reflexivity|]. cbn [tx_held bind] in H.
  apply (f_equal (fun x => match x with Ok (_, p, _, _) => fst p | Panic => None end)) in H. cbn [fst] in H.
  destruct (ps_current (o_pub o)) as [p|] eqn:Ep; [|discriminate H].
  rewrite <- (proj2 (run_only pk slow _ o E) p (or_introl Ep)). now left.
Qed.
Lemma tx_get_none r k svn : tx_get r k svn = Ok None -> exists o, r = Ok o /\ getter k o svn = Ok None.
Proof.
  destruct r as [o|]; [|discriminate]. cbn [tx_get bind]. destruct (getter k o svn) as [[d|]|] eqn:E; try discriminate.
  intros _. now exists o.
Qed.
Lemma tx_get_some r k svn n g : tx_get r k svn = Ok (Some (n, g)) ->
  exists o d, r = Ok o /\ getter k o svn = Ok (Some d) /\ nd_authbits d = n /\ nd_gst d = g.
Proof.
  destruct r as [o|]; [|discriminate]. cbn [tx_get bind]. destruct (getter k o svn) as [[d|]|] eqn:E; try discriminate.
  cbn [bind option_map]. intros H. exists o, d. split; [reflexivity|]. split; [exact E|]. now injection H as <- <-.
Qed.
Theorem C47_refuted : exists root user p x h2 oa o1 o2 c d f pk,
  Forall op_ok (p ++ [x] ++ h2) /\ in_time_order (p ++ [x] ++ h2) /\
  (** the call [x] completes a KROOT that revokes chain [c], of which a key was held: *)
  run (osnma_new root user false) p = Ok oa /\ step oa x = Ok o1 /\ kroot_verifies oa d revoked f pk /\
  header_status revoked = status_dont_use /\ header_cpks revoked = cpks_chain_revoked /\ header_chain revoked = c /\
  (exists k, held (o_keys oa) k /\ chain_of k = c) /\
  (forall k, held (o_keys o1) k -> chain_of k <> c) /\ getter Ced o1 2 = Ok None /\
  (** and data is authenticated with chain [c] afterwards: *)
  run o1 h2 = Ok o2 /\
  (exists k, held (o_keys o2) k /\ chain_of k = c) /\ exists d, getter Ced o2 2 = Ok (Some d) /\ nd_authbits d = 80.
Proof.
  exists None, (Some (tx_pub 3)), c47_before, c47_call, replay_ops.
  generalize c47_held0 c47_held1 c47_get1 c47_held2 c47_get2 c47_ops_ok c47_order.
  generalize replay_ops c47_before c47_call. intros h2 p x H0 H1 G1 H2 G2 Hops Hord.
  rewrite run_app in H2, G2.
  destruct (tx_held_keys _ _ _ _ _ _ H0) as (oa & Ea & _ & Ka).
  destruct (tx_held_pub _ _ _ _ _ _ _ H0) as (oa' & Ea' & Hp). change (run c47_new p = Ok oa') in Ea'.
  rewrite Ea in Ea'. injection Ea' as <-.
  destruct (tx_held_keys _ _ _ _ _ _ H1) as (o1 & E1 & K1 & _). rewrite E1 in G1, H2, G2. cbn [bind] in H2, G2.
  destruct (tx_held_keys _ _ _ _ _ _ H2) as (o2 & E2 & _ & K2). rewrite E2 in G2.
  destruct (c47_kroot oa Hp) as (f & Hv).
  destruct (tx_get_none _ _ _ G1) as (o1' & G1' & Q1). injection G1' as <-.
  destruct (tx_get_some _ _ _ _ _ G2) as (o2' & d2 & G2' & Q2 & Q3 & _). injection G2' as <-.
  exists oa, o1, o2, 1, (tx_kroot revoked 3 chain2), f, (tx_pub 3).
  split; [exact Hops|]. split; [exact Hord|]. split; [exact Ea|]. split; [exact (run_last _ _ _ _ _ _ eq_refl Ea E1)|].
  split; [exact Hv|]. split; [reflexivity|]. split; [reflexivity|]. split; [reflexivity|]. split.
  { destruct (Ka _ (or_introl eq_refl)) as (q & Hq & E). exists q. split; [exact Hq|].
    apply pair_equal_spec in E. apply E. }
  split.
  { intros q Hq. destruct (K1 q Hq) as [E|E]; [discriminate E|].
    apply (f_equal (option_map fst)) in E. cbn [option_map fst] in E. injection E as E. rewrite E. discriminate. }
  split; [exact Q1|]. split; [exact E2|]. split.
  - destruct (K2 _ (or_introl eq_refl)) as (q & Hq & E). exists q. split; [exact Hq|]. apply pair_equal_spec in E. apply E.
  - now exists d2.
Qed.

(** ** C48 *)

(** A KROOT that announces the revocation of the public key is verified with the new key [pk]:
    after it [pk] is in use, exactly the held keys with the same or a greater id remain, and the
    keys of the chain named in the header are gone. *)
Theorem C48_public_key_revocation :
  forall (C : crypto) (B : build) (S : storage), crypto_ok C -> storage_ok S ->
  forall root user slow h o d hd g f pk k, Forall op_ok h -> run (osnma_new root user slow) h = Ok o ->
  is_byte hd -> Forall is_byte (dm_data d) -> dm_type d = DsmKroot ->
  kroot_verifies o (dm_data d) hd f pk -> kroot_key f k -> gst_ok (k_gst k) ->
  (overflow_checks = true -> 30 <= 604800 * kf_wn f + 3600 * kf_towh f) ->
  (forall k521, pk_key pk = VkP521 k521 -> feature_p521 = true) ->
  header_status hd = status_dont_use -> header_cpks hd = cpks_public_key_revoked ->
  exists o', process_dsm o d hd g = Ok o' /\ ps_current (o_pub o') = Some pk /\
    (forall p, held_pub (o_pub o') p <-> held_pub (o_pub o) p /\ pk_id pk <= pk_id p) /\
    forall q, held (o_keys o') q -> chain_of q <> header_chain hd.
Proof.
  intros C B S HC HS root user slow h o d hd g f pk k Hok Hrun Hb Hd Ht Hv Hk Hg Hu Hf Hs Hc.
  destruct (reachable_inv HC HS root user slow h o Hok Hrun) as (_ & Hst & _).
  destruct (kroot_revokes HC o d hd g f pk k Hst Hb Hd Ht Hv Hk Hg Hu Hf Hs (or_intror Hc)) as (o' & H1 & H2 & H3 & H4).
  exists o'. auto.
Qed.

(** Key 3 in use, key 4 received; key 4 announces the revocation of key 3, with a new chain. *)
Definition pk_revoked : Z := tx_header 3 1 5.
Definition pk_revoke_ops : list op := Eval vm_compute in (tx_nominal ++ tx_dsm (tx_t0 + 60) (tx_header 3 1 5) 13 (pkr_msg tx_leaves 3) junk).
Definition kroot42_ops : list op := Eval vm_compute in (tx_kroot_ops (tx_t0 + 90) 8 pk_revoked 4 chain2 junk).
Example C48_example : Forall op_ok pk_revoke_ops /\
  tx_held (run tx_new pk_revoke_ops)
  = Ok (true, (Some 3, Some 4), (Some (1, gst_at (tx_t0 + 30)), None), Some (mkCif 1 None)) /\
  tx_held (run tx_new (pk_revoke_ops ++ kroot42_ops))
  = Ok (true, (Some 4, None), (None, Some (2, gst_at (tx_t0 - 30))), Some (mkCif 1 None)) /\
  header_status pk_revoked = status_dont_use /\ header_cpks pk_revoked = cpks_public_key_revoked.
Proof. split; [apply op_okb_ok; vm_compute; reflexivity|]. vm_compute. repeat split. Qed.

(** ** C49 *)

(** Feeding OSNMA data changes nothing in the stored data but the authentication bits, which do
    not decrease and stay within 16 bits. *)
Theorem C49_authbits_never_decrease :
  forall (C : crypto) (B : build) (S : storage), crypto_ok C -> storage_ok S ->
  forall root user slow h o data svn g o' k, Forall op_ok h -> run (osnma_new root user slow) h = Ok o ->
  feed_osnma o data svn g = Ok o' ->
  Forall2 (fun e e' => e_data e' = e_data e /\ e_age e' = e_age e /\ e_svn e' = e_svn e /\
                       0 <= e_authbits e <= e_authbits e' /\ e_authbits e' <= 65535)
    (nv_arr k (o_nav o)) (nv_arr k (o_nav o')).
Proof.
  intros C B S HC HS root user slow h o data svn g o' k Hok Hrun H.
  destruct (feed_osnma_grown o data svn g o' H) as (_ & _ & Hg). specialize (Hg k).
  destruct (reachable_has HC HS root user slow h o Hok Hrun) as (hs & Hr & Hn & _).
  assert (Hb : forall e, In e (nv_arr k (o_nav o)) -> 0 <= e_authbits e <= 65535).
  { intros e He. pose proof (arr_entry_ok HS k hs _ e Hr Hn He) as Hok'. apply Hok'. }
  clear Hr Hn. revert Hg Hb. generalize (nv_arr k (o_nav o)) (nv_arr k (o_nav o')). intros l l' Hg.
  induction Hg as [|e e' l l' (G1 & G2 & G3 & G4) Hg IH]; intros Hb; constructor.
  - specialize (Hb e (or_introl eq_refl)). specialize (G4 (proj2 Hb)). repeat split; auto; lia.
  - apply IH. intros x Hx. apply Hb. now right.
Qed.

Definition mack60_ops : list op := Eval vm_compute in (tx_one (tx_t0 + 60) nominal 7 (tx_kroot nominal 3 chain1) (tx_mack1 chain1 (tx_t0 + 60))).
Definition mack90_ops : list op := Eval vm_compute in (tx_one (tx_t0 + 90) nominal 7 (tx_kroot nominal 3 chain1) (tx_mack1 chain1 (tx_t0 + 90))).
(** The tags of the MACK message add 80 bits. *)
Example C49_example :
  tx_get (run tx_new (tx_nominal ++ mack60_ops)) Ced 2
  = Ok (Some (80, gst_at (tx_t0 - 30))) /\
  tx_get (run tx_new (tx_nominal ++ tx_nav (tx_t0 + 30)
     ++ mack60_ops
     ++ mack90_ops)) Ced 2
  = Ok (Some (160, gst_at (tx_t0 + 30))).
Proof. vm_compute. repeat split. Qed.

Print Assumptions C06_pkr_alert_clears.
Print Assumptions C06_kroot_alert_clears.
Print Assumptions C06_alert_is_permanent.
Print Assumptions C07_only_the_configured_key.
Print Assumptions C08_rejected_changes_nothing.
Print Assumptions C08_changes_need_a_verified_message.
Print Assumptions C10_getters_never_panic.
Print Assumptions C11_store_assertions_hold.
Print Assumptions C12_one_key_per_chain.
Print Assumptions C12_kroot_keeps_chain_in_force.
Print Assumptions C12_keys_move_forward.
Print Assumptions C13_pkid_never_decreases.
Print Assumptions C13_only_newer_keys_are_stored.
Print Assumptions C13_kroot_names_its_key.
Print Assumptions C35_zeros_are_ignored.
Print Assumptions C36_feeding_inav_authenticates_nothing.
Print Assumptions C47_revocation_removes_the_chain.
Print Assumptions C47_revoked_until_new_kroot.
Print Assumptions C47_refuted.
Print Assumptions C48_public_key_revocation.
Print Assumptions C49_authbits_never_decrease.

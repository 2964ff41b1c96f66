(** Alerts, messages that do not verify, and getters that do not panic. *)
From Coq Require Import ZArith List Bool Lia ZifyBool ZifyNat.
From Verif Require Import Model.Prelude Model.Params Model.Gst Model.Svn Model.Bitfields
  Model.Tesla Model.Merkle Model.Subframe Model.Dsm Model.MackStore Model.Nav Model.Osnma
  Spec.TimeSpec Spec.CollectSpec Spec.NavSpec Spec.TeslaSpec Spec.KrootSpec Spec.MerkleSpec Spec.KeySpec Spec.SystemSpec
  Proofs.Base Proofs.Ring Proofs.Rows Proofs.GstProofs Proofs.NavProofs Proofs.EntryProofs Proofs.NavInv Proofs.NavHistory
  Proofs.TeslaProofs Proofs.KrootProofs Proofs.MerkleProofs Proofs.LayoutProofs Proofs.SystemProofs
  Proofs.GetterProofs Proofs.KeyStoreProofs Proofs.StepProofs.
Import ListNotations.
Open Scope Z_scope.
Ltac Zify.zify_post_hook ::= Z.div_mod_to_equations.

(** ** The NMA header *)

Lemma byte_cases (P : Z -> bool) : forallb P (map Z.of_nat (seq 0 256)) = true -> forall b, is_byte b -> P b = true.
Proof.
  intros H b Hb. rewrite forallb_forall in H. apply H. unfold is_byte in Hb.
  apply in_map_iff. exists (Z.to_nat b). split; [lia|]. apply in_seq. lia.
Qed.

Definition cpks_code (c : cpks_t) : Z :=
  match c with
  | CpksReserved => 0 | CpksNominal => 1 | CpksEndOfChain => 2 | CpksChainRevoked => 3
  | CpksNewPublicKey => 4 | CpksPublicKeyRevoked => 5 | CpksNewMerkleTree => 6 | CpksAlertMessage => 7
  end.
Definition status_code (s : nma_status_t) : Z :=
  match s with NmaReserved => 0 | NmaTest => 1 | NmaOperational => 2 | NmaDontUse => 3 end.

Lemma header_fields hd : is_byte hd ->
  status_code (nma_status hd) = header_status hd /\ nma_chain_id hd = header_chain hd /\
  cpks_code (nma_cpks hd) = header_cpks hd.
Proof.
  intros H. apply (byte_cases (fun b => (status_code (nma_status b) =? header_status b) &&
    (nma_chain_id b =? header_chain b) && (cpks_code (nma_cpks b) =? header_cpks b))) in H; [|vm_compute; reflexivity].
  rewrite !andb_true_iff, !Z.eqb_eq in H. tauto.
Qed.

Lemma header_alert hd : is_byte hd -> (nma_cpks hd = CpksAlertMessage <-> header_cpks hd = cpks_alert).
Proof.
  intros H. destruct (header_fields hd H) as (_ & _ & H3). rewrite <- H3. unfold cpks_alert.
  destruct (nma_cpks hd); cbn [cpks_code]; split; congruence.
Qed.

Section Crypto.
Context {C : crypto} {B : build} {S : storage}.
Hypothesis HC : crypto_ok C.
Hypothesis HS : storage_ok S.

(** ** Accepted messages verify *)

Lemma effect_verifies o d hd g o' : is_byte hd -> Forall is_byte (dm_data d) -> process_dsm o d hd g = Ok o' ->
  o' = o \/ dsm_verifies o d hd.
Proof.
  intros Hhd Hd H. apply process_dsm_effect in H.
  destruct H as [->|pk key ps Et Hpk Hkey Hps Hid ->|root pk ps Et Hm Hv Hps ->|root Et Hm Hv ->]; [now left| | |];
    right; unfold dsm_verifies; rewrite Et.
  - destruct (key_from_dsm_kroot_sound HC hd _ _ _ Hhd Hd Hkey) as (f & HL & Hver & Hk & Hok).
    exists f, pk. split; [exact HL|]. split; [exact Hpk|]. split; [|exact Hver].
    rewrite (kroot_pkid_layout _ _ HL) in Hid. congruence.
  - destruct (validate_pkr_sound root _ _ Hd Hv) as (f & HL & Hr & _). exists f, root. auto.
  - destruct (validate_alert_sound root _ _ Hd Hv) as (f & HL & Hr & _). exists f, root. auto.
Qed.

(** ** Alerts *)

Lemma pkr_alert_clears o d hd g f : dm_type d = DsmPkr ->
  pkr_verifies o (dm_data d) f -> pf_npkt f = 4 ->
  exists o', process_dsm o d hd g = Ok o' /\ no_trust o'.
Proof.
  intros Et (root & Hm & HL & Hr) Hn. exists (alert_message_received o). split; [|apply alert_no_trust].
  unfold process_dsm. rewrite Et. unfold process_dsm_pkr. rewrite (pkr_type_layout _ _ HL), Hn. cbn [bind].
  change (npkt_of 4) with NpktAlert. cbv iota. unfold process_dsm_pkr_alert_message. rewrite Hm.
  now rewrite (validate_alert_complete root _ f HL Hr Hn).
Qed.

(** A KROOT that verifies is accepted. *)
Lemma kroot_accepted o d hd g f pk k : stores_ok o -> is_byte hd -> Forall is_byte (dm_data d) -> dm_type d = DsmKroot ->
  kroot_verifies o (dm_data d) hd f pk -> kroot_key f k -> gst_ok (k_gst k) ->
  (overflow_checks = true -> 30 <= 604800 * kf_wn f + 3600 * kf_towh f) ->
  (forall k521, pk_key pk = VkP521 k521 -> feature_p521 = true) ->
  exists ps, make_pkid_current (o_pub o) (pk_id pk) = Ok ps /\
    process_dsm o d hd g =
    Ok (process_nma_header (set_keys (store_kroot (o_keys o) k hd g) (set_pub ps o)) hd (pk_id pk)).
Proof.
  intros (Hp & Hks) Hhd Hd Et (HL & Hpk & Hid & Hv) Hk Hg Hov H521.
  destruct (make_current_spec _ _ Hp Hpk) as (ps & Eps & _). exists ps. split; [exact Eps|].
  unfold process_dsm. rewrite Et. unfold process_dsm_kroot. rewrite (kroot_pkid_layout _ _ HL). cbn [bind].
  destruct (applicable_spec _ (kf_pkid f) Hp) as (r & Er & Hr). rewrite Er. cbn [bind].
  destruct r as [pk'|]; [|now elim (Hr pk Hpk)].
  assert (pk' = pk).
  { destruct Hr as (Hr & Hr'). destruct Hpk as [Hpk|Hpk], Hr as [Hr|Hr]; try congruence.
    - destruct (Hp _ Hr) as (c & Hc & Hlt). assert (c = pk) by congruence. subst. lia.
    - destruct (Hp _ Hpk) as (c & Hc & Hlt). assert (c = pk') by congruence. subst. lia. }
  subst pk'. rewrite (key_from_dsm_kroot_complete HC hd _ _ f k Hhd Hd HL Hv Hk Hg Hov H521). cbn [bind].
  rewrite <- Hid, Eps. reflexivity.
Qed.

Lemma kroot_alert_clears o d hd g f pk k : stores_ok o -> is_byte hd -> Forall is_byte (dm_data d) -> dm_type d = DsmKroot ->
  kroot_verifies o (dm_data d) hd f pk -> kroot_key f k -> gst_ok (k_gst k) ->
  (overflow_checks = true -> 30 <= 604800 * kf_wn f + 3600 * kf_towh f) ->
  (forall k521, pk_key pk = VkP521 k521 -> feature_p521 = true) ->
  header_cpks hd = cpks_alert ->
  exists o', process_dsm o d hd g = Ok o' /\ no_trust o'.
Proof.
  intros Hs Hhd Hd Et Hv Hk Hg Hov H521 Ha.
  destruct (kroot_accepted o d hd g f pk k Hs Hhd Hd Et Hv Hk Hg Hov H521) as (ps & _ & E).
  eexists. split; [exact E|]. apply (header_alert hd Hhd) in Ha. unfold process_nma_header. rewrite Ha.
  destruct (nma_status hd); apply alert_no_trust.
Qed.

(** ** What was authenticated before *)

Lemma arr_entry_ok k hs n e : represents_nav hs n -> nav_ok hs -> In e (nv_arr k n) -> entry_ok k e.
Proof.
  intros Hrep Hok He. pose proof (nv_sizes HS) as (Hs1 & Hs2 & Hs3).
  destruct (row_in num_sats nav_depth _ e (nv_arr_length k hs n Hrep) He) as (i & Hi & Hin).
  destruct Hrep as (L1 & L2 & L3 & L4 & L5 & Hring).
  destruct (ring_get nav_depth nv_default Hs2 _ _ i Hring Hi) as [(_ & E)|(a & Ha & _ & _)].
  - unfold nv_get, nv_default in E. assert (Er : row num_sats (nv_arr k n) i = fresh_row k) by (destruct k; cbn [nv_arr]; congruence).
    rewrite Er in Hin. unfold fresh_row in Hin. apply repeat_spec in Hin. subst e. apply entry_new_ok.
  - rewrite nth_error_map in Ha. destruct (nth_error hs a) as [s|] eqn:Es; [|discriminate Ha].
    cbn [option_map] in Ha. unfold of_snap, nv_get in Ha.
    assert (Er : row num_sats (nv_arr k n) i = s_row k s) by (destruct k; cbn [nv_arr s_row]; congruence).
    rewrite Er in Hin. unfold nav_ok in Hok. rewrite Forall_forall in Hok. apply nth_error_In in Es.
    exact (row_ok_in k _ e (Hok s Es k) Hin).
Qed.

Section Fixed.
Variable V : nav_kind -> Z -> list bool -> list bool -> Prop.
Definition nav_has (ws : list nword) (n : nav) : Prop :=
  exists hs, represents_nav hs n /\ nav_ok hs /\ nav_inv V (nav_stretches ws) hs.

Lemma nav_has_feed ws n word svn g b n' : bytes_ok 16 word -> 1 <= svn <= 36 -> nav_has ws n ->
  nav_feed n word svn g b = Ok n' -> nav_has (ws ++ [mkNWord word svn g b]) n'.
Proof.
  intros Hw Hsvn (hs & Hn1 & Hn2 & Hn3) E.
  destruct (nav_feed_spec HS hs n word svn g b Hn1) as (n'' & En & Hn'). rewrite En in E. injection E as <-.
  exists (abs_feed hs word svn g b). split; [exact Hn'|].
  assert (Hsn : Forall snap_ok hs) by apply Hn1.
  split; [apply abs_feed_ok; auto|]. rewrite nav_stretches_snoc. apply abs_feed_inv; auto.
Qed.

Lemma nav_has_getter ws o k svn d : nav_has ws (o_nav o) -> getter k o svn = Ok (Some d) ->
  40 <= nd_authbits d /\ exists tags, nd_authbits d = Z.min 65535 (Z.of_nat (length (concat tags))) /\
    forall tag, In tag tags -> V k svn (nd_data d) tag.
Proof.
  intros (hs & Hrep & Hok & Hn) Hget.
  destruct (getter_entry HS _ _ _ _ _ Hrep Hget) as (s & e & H1 & H2 & H3 & H4 & -> & ->).
  apply In_nth_error in H1. destruct H1 as (a & Ha). destruct Hn as (_ & Hn).
  destruct (ei_auth _ _ _ _ _ (Hn _ _ _ _ Ha H2) _ H3) as (ts & T1 & T2).
  split; [exact H4|]. exists ts. rewrite <- total_concat. split; [exact T1|]. now apply Forall_forall.
Qed.

(** Without keys, nothing is added. *)
Lemma run_no_trust_has h : forall ws o o', Forall op_ok h -> no_trust o -> nav_has ws (o_nav o) -> run o h = Ok o' ->
  no_trust o' /\ exists ws', nav_has ws' (o_nav o').
Proof.
  induction h as [|x h IH]; intros ws o o' Hops Hn Hnav H; unfold run in H; cbn [fold_outcome] in H.
  - injection H as <-. eauto.
  - rewrite Forall_cons_iff in Hops. destruct Hops as (Hx & Hops). bind_inv H.
    pose proof (step_no_trust _ _ _ Hn E) as Hn1. pose proof (step_no_trust_same _ _ _ Hn E) as (_ & Hsame).
    destruct x as [word svn g b|data svn g].
    + cbn [step] in E. unfold feed_inav in E. bind_inv E. injection E as <-.
      destruct Hx as (Hw & Hsvn & Hg).
      apply (IH (ws ++ [mkNWord word svn g b]) _ _ Hops Hn1); [|exact H]. now apply (nav_has_feed ws (o_nav o)).
    + apply (IH ws _ _ Hops Hn1); [|exact H]. now rewrite (Hsame data svn g eq_refl).
Qed.
End Fixed.

Section Run.
Variables (root : option (list Z)) (user : option public_key) (slow : bool).

Lemma reachable_has h o : Forall op_ok h -> run (osnma_new root user slow) h = Ok o ->
  nav_has (verified root user slow h) (inav_words h) (o_nav o).
Proof.
  intros Hops Hrun. destruct (run_inv HC HS root user slow h Hops o Hrun) as (_ & Hinv).
  destruct (ri_nav _ _ _ _ _ Hinv) as (hs & H). now exists hs.
Qed.

Theorem alert_permanent h1 o1 h2 o2 : Forall op_ok h1 -> Forall op_ok h2 ->
  run (osnma_new root user slow) h1 = Ok o1 -> no_trust o1 -> run o1 h2 = Ok o2 ->
  no_trust o2 /\ forall k svn d, getter k o2 svn = Ok (Some d) ->
    authenticated root user slow h1 k svn (nd_data d) (nd_authbits d).
Proof.
  intros H1 H2 R1 Hn R2.
  destruct (run_no_trust_has _ h2 _ _ _ H2 Hn (reachable_has _ _ H1 R1) R2) as (Hn2 & ws & Hw).
  split; [exact Hn2|]. intros k svn d Hg. exact (nav_has_getter _ _ _ _ _ _ Hw Hg).
Qed.

Theorem feed_inav_total h o word svn g b : Forall op_ok h -> op_ok (FeedInav word svn g b) ->
  run (osnma_new root user slow) h = Ok o ->
  exists o', feed_inav o word svn g b = Ok o' /\
    (forall k svn' d, getter k o' svn' = Ok (Some d) -> authenticated root user slow h k svn' (nd_data d) (nd_authbits d)) /\
    forall k e', In e' (nv_arr k (o_nav o')) -> e_authbits e' = 0 \/
      exists e, In e (nv_arr k (o_nav o)) /\ e_svn e' = e_svn e /\ e_data e' = e_data e /\ e_authbits e' = e_authbits e.
Proof.
  intros Hops (Hw & Hsvn & Hg) Hrun. pose proof (reachable_has _ _ Hops Hrun) as Hnav.
  pose proof Hnav as (hs & Hrep & Hok & Hn).
  destruct (nav_feed_spec HS hs (o_nav o) word svn g b Hrep) as (n' & En & Hn').
  exists (set_nav n' o). split; [unfold feed_inav; now rewrite En|]. split.
  - intros k svn' d Hget.
    apply (nav_has_getter _ (inav_words h ++ [mkNWord word svn g b]) (set_nav n' o) k svn' d); [|exact Hget].
    now apply (nav_has_feed _ _ (o_nav o)).
  - intros k e' He'. cbn [set_nav o_nav] in He'. pose proof (nav_feed_from _ _ _ _ _ _ En k) as Hf.
    rewrite Forall_forall in Hf. destruct (Hf e' He') as [H|(e & I1 & I2 & I3 & I4)]; [now left|].
    destruct I4 as [I4|I4]; [right; exists e; auto|]. left. rewrite I3.
    apply (eo_none k e); [|exact I4]. exact (arr_entry_ok k hs (o_nav o) e Hrep Hok I1).
Qed.

(** ** Getters *)

Lemma abs_get_total k svn l : (forall s, In s l -> gst_ok (s_gst s) /\ 7650 <= time_of (s_gst s)) ->
  Forall snap_rows_ok l -> exists r, abs_get k svn l = Ok r.
Proof.
  induction l as [|s l IH]; intros Hg Hl; [now exists None|]. cbn [abs_get].
  rewrite Forall_cons_iff in Hl. destruct Hl as (Hs & Hl).
  destruct (find (authentic svn) (s_row k s)) as [e|] eqn:E.
  - apply find_some in E. destruct E as (Hin & _). pose proof (row_ok_in k _ e (Hs k) Hin) as He.
    pose proof (min_age_range k e He) as Hm. destruct (Hg s (or_introl eq_refl)) as (G1 & G2).
    destruct (add_subframes_in (s_gst s) (- min_age e)) as (g' & Eg & _); try lia; auto.
    { unfold representable. pose proof (gst_time_bound _ G1). lia. }
    rewrite Eg. cbn [bind]. eauto.
  - apply IH; [|exact Hl]. intros s' H. apply Hg. now right.
Qed.

Theorem getter_total h o k svn : Forall op_ok h -> (forall w, In w (inav_words h) -> 1 <= g_wn (nw_gst w)) ->
  run (osnma_new root user slow) h = Ok o -> exists r, getter k o svn = Ok r.
Proof.
  intros Hops Hwn Hrun. destruct (reachable_has _ _ Hops Hrun) as (hs & Hrep & Hok & Hg & _).
  rewrite getter_eq. unfold nav_get. rewrite (nav_get_from_spec HS k hs _ svn nav_depth 0 Hrep) by lia.
  apply abs_get_total.
  - intros s Hs. assert (Hin : In s hs).
    { apply in_rev. rewrite <- (firstn_skipn nav_depth (rev hs)). apply in_or_app. left. exact Hs. }
    apply (in_map s_gst) in Hin. rewrite Hg in Hin. apply in_map_iff in Hin. destruct Hin as ((g & l) & E & Hin).
    cbn [fst] in E. subst g. apply In_nth_error in Hin. destruct Hin as (a & Ha).
    destruct (stretch_words _ _ _ _ Ha) as (Hne & Hw). destruct l as [|w l]; [now elim Hne|].
    destruct (Hw w (or_introl eq_refl)) as (Hw1 & Hw2). rewrite <- Hw2.
    pose proof (Hwn w Hw1) as Hwk.
    assert (Hgok : gst_ok (nw_gst w)).
    { apply in_flat_map in Hw1. destruct Hw1 as (x & Hx & Hxw). rewrite Forall_forall in Hops. specialize (Hops x Hx).
      destruct x; [|destruct Hxw]. destruct Hxw as [<-|[]]. apply Hops. }
    unfold gst_ok, subframe_of, time_of in *. cbn [g_wn g_tow]. lia.
  - cbn [skipn]. apply Forall_forall. intros s Hs. unfold nav_ok in Hok. rewrite Forall_forall in Hok. apply Hok.
    apply in_rev. rewrite <- (firstn_skipn nav_depth (rev hs)). apply in_or_app. now left.
Qed.
End Run.

End Crypto.

(** The invariant of the receiver: everything it holds comes from what was fed and was
    verified. *)
From Coq Require Import ZArith List Bool Lia ZifyBool ZifyNat.
From Verif Require Import Model.Prelude Model.Params Model.Gst Model.Svn Model.Bitfields
  Model.Maclt Model.Tesla Model.Merkle Model.Subframe Model.Dsm Model.MackStore Model.Nav Model.Osnma
  Spec.TimeSpec Spec.CollectSpec Spec.StoreSpec Spec.NavSpec Spec.TeslaSpec Spec.KrootSpec
  Spec.MerkleSpec Spec.MacltSpec Spec.SystemSpec
  Proofs.Base Proofs.GstProofs Proofs.LayoutProofs Proofs.SubframeProofs Proofs.DsmProofs
  Proofs.MackProofs Proofs.NavProofs Proofs.EntryProofs Proofs.NavInv Proofs.TeslaProofs
  Proofs.KrootProofs Proofs.MackValidProofs Proofs.MerkleProofs Proofs.TagProofs Proofs.NavHistory.
Import ListNotations.
Open Scope Z_scope.
Ltac Zify.zify_post_hook ::= Z.div_mod_to_equations.

(** ** Histories *)

Lemma osnma_words_app h q : osnma_words (h ++ q) = osnma_words h ++ osnma_words q.
Proof. apply flat_map_app. Qed.
Lemma inav_words_app h q : inav_words (h ++ q) = inav_words h ++ inav_words q.
Proof. apply flat_map_app. Qed.

Lemma subsequence_app_r {A} (s l q : list A) : subsequence s l -> subsequence s (l ++ q).
Proof. induction 1; cbn [app]; constructor; auto. Qed.

Lemma osnma_words_ok h : Forall op_ok h -> Forall word_ok (osnma_words h).
Proof.
  intros H. apply Forall_forall. intros w Hw. unfold osnma_words in Hw. apply in_flat_map in Hw.
  destruct Hw as (x & Hx & Hw). rewrite Forall_forall in H. specialize (H x Hx).
  destruct x as [|d svn g]; [destruct Hw|]. destruct (forallb (Z.eqb 0) d); [destruct Hw|].
  destruct Hw as [<-|[]]. destruct H as ((H1 & H2) & H3 & H4). split; [exact H1|]. split; auto.
Qed.

Lemma osnma_words_bytes h w : Forall op_ok h -> In w (osnma_words h) -> bytes_ok 5 (w_data w).
Proof.
  intros H Hw. unfold osnma_words in Hw. apply in_flat_map in Hw.
  destruct Hw as (x & Hx & Hw). rewrite Forall_forall in H. specialize (H x Hx).
  destruct x as [|d svn g]; [destruct Hw|]. destruct (forallb (Z.eqb 0) d); [destruct Hw|].
  destruct Hw as [<-|[]]. apply H.
Qed.

Lemma subframe_received_mono h q svn g hk mk :
  subframe_received h svn g hk mk -> subframe_received (h ++ q) svn g hk mk.
Proof.
  intros (ws & (H1 & H2 & H3) & H4 & H5 & H6). exists ws. split; [|auto].
  split; auto. split; auto. rewrite osnma_words_app. now apply subsequence_app_r.
Qed.

Lemma flat_map_bytes (f : oword -> list Z) ws n :
  Forall (fun w => bytes_ok n (f w)) ws -> bytes_ok (n * length ws) (flat_map f ws).
Proof.
  induction 1 as [|w ws (H1 & H2) _ (IH1 & IH2)]; cbn [flat_map length].
  - split; [cbn; lia|constructor].
  - split; [rewrite app_length; lia|]. apply Forall_app. auto.
Qed.

(** The messages of a received subframe have the right sizes. *)
Lemma subframe_received_bytes h svn g hk mk : Forall op_ok h -> subframe_received h svn g hk mk ->
  bytes_ok 15 hk /\ bytes_ok 60 mk /\ gst_ok g /\ is_subframe g = true /\ 1 <= svn <= 36.
Proof.
  intros Hok (ws & (H1 & H2 & H3) & H4 & -> & ->).
  assert (Hin : forall w, In w ws -> bytes_ok 5 (w_data w)).
  { intros w Hw. apply osnma_words_bytes with (h := h); auto. eapply subsequence_in; eauto. }
  assert (Hb : bytes_ok (1 * length ws) (hkroot_of ws) /\ bytes_ok (4 * length ws) (mack_of ws)).
  { split; apply flat_map_bytes; apply Forall_forall; intros w Hw; destruct (Hin w Hw) as (L & F).
    - split; [rewrite firstn_length; lia|]. rewrite Forall_forall in F |- *. intros x Hx. apply F. eapply In_firstn; eauto.
    - split; [rewrite skipn_length; lia|]. rewrite Forall_forall in F |- *. intros x Hx. apply F. eapply In_skipn; eauto. }
  rewrite H1 in Hb. split; [apply Hb|]. split; [apply Hb|].
  destruct ws as [|w ws]; [discriminate|].
  pose proof (osnma_words_ok h Hok) as Hwk. rewrite Forall_forall in Hwk.
  destruct (Hwk w) as (_ & Hsvn & Hg). { eapply subsequence_in; eauto. now left. }
  specialize (H4 w (or_introl eq_refl)). subst g. rewrite subframe_of_eq.
  split; [now apply gst_subframe_ok|]. split.
  - apply is_subframe_fixed. apply gst_subframe_idem.
  - destruct (H3 0%nat w eq_refl) as (<- & _). exact Hsvn.
Qed.

Lemma dsm_received_mono h q id d : dsm_received h id d -> dsm_received (h ++ q) id d.
Proof.
  intros (bl & H1 & H2 & H3). exists bl. split; auto. split; auto. intros i b Hb.
  destruct (H3 i b Hb) as (svn & g & hk & mk & Hr & H). exists svn, g, hk, mk. split; auto.
  now apply subframe_received_mono.
Qed.

Lemma dsm_received_bytes h id d : Forall op_ok h -> dsm_received h id d -> Forall is_byte d.
Proof.
  intros Hok (bl & -> & _ & H3). apply Forall_concat. apply Forall_forall. intros b Hb.
  apply In_nth_error in Hb. destruct Hb as (i & Hi).
  destruct (H3 i b Hi) as (svn & g & hk & mk & Hr & _ & <-).
  destruct (subframe_received_bytes _ _ _ _ _ Hok Hr) as ((_ & F) & _).
  rewrite Forall_forall in F |- *. intros x Hx. apply F. eapply In_skipn; eauto.
Qed.

Lemma status_of_eq hk h0 : is_byte h0 -> nth 0 hk 0 = h0 -> status_of hk = nma_status h0.
Proof.
  intros Hb E. unfold status_of. rewrite E. unfold nma_status.
  assert (forall h, is_byte h -> (h / 64 =? load_be (sub 0 2 (bits_of_byte h))) = true) as H.
  { apply byte_cases. vm_compute. reflexivity. }
  specialize (H h0 Hb). apply Z.eqb_eq in H. rewrite H. reflexivity.
Qed.

Section Crypto.
Context {C : crypto} {B : build} {S : storage}.
Hypothesis HC : crypto_ok C.
Hypothesis HS : storage_ok S.
Variables (root : option (list Z)) (user : option public_key) (slow : bool).

Notation trusted_pub h := (trusted_pubkey root user h).
Notation trusted h := (trusted_key root user h).

Lemma trusted_pubkey_mono h q pk : trusted_pub h pk -> trusted_pub (h ++ q) pk.
Proof.
  intros [H|(r & id & d & f & H1 & H2 & H3 & H)]; [now left|]. right. exists r, id, d, f.
  split; auto. split; auto. split; auto. now apply dsm_received_mono.
Qed.

Lemma verified_root_mono h q kr : verified_root root user h kr -> verified_root root user (h ++ q) kr.
Proof.
  intros (id & d & f & pk & svn & g & hk & mk & H1 & H2 & H3 & H4 & H5 & H6).
  exists id, d, f, pk, svn, g, hk, mk. split; auto. split; [now apply dsm_received_mono|].
  split; auto. split; [now apply subframe_received_mono|]. split; auto. now apply trusted_pubkey_mono.
Qed.

Lemma trusted_key_mono h q k : trusted h k -> trusted (h ++ q) k.
Proof. intros (kr & n & H1 & H2). exists kr, n. split; auto. now apply verified_root_mono. Qed.

Lemma verified_mono h q k svn bits tag : verified root user slow h k svn bits tag ->
  verified root user slow (h ++ q) k svn bits tag.
Proof.
  intros (h1 & h2 & -> & H). exists h1, (h2 ++ q). split; auto. now rewrite app_assoc.
Qed.

(** ** The invariant *)

Definition block_received (h : list op) (b : block) : Prop :=
  block_ok b /\ exists svn g hk mk, subframe_received h svn g hk mk /\
    nth 1 hk 0 = b_header b /\ skipn 2 hk = b_data b.
Definition item_received (h : list op) (x : item) : Prop :=
  exists hk, subframe_received h (it_svn x) (it_gst x) hk (it_message x) /\ it_status x = status_of hk.

Definition dsm_inv (h : list op) (o : osnma) : Prop :=
  exists bl, represents_dsm (dsm_run bl) (o_dsm o) /\ Forall (block_received h) bl.
Definition mack_inv (h : list op) (o : osnma) : Prop :=
  exists its, represents_ms (stretches its) (o_mack o) /\ Forall (item_received h) its.
Definition merkle_inv (o : osnma) : Prop := o_merkle o = None \/ o_merkle o = root.
Definition pub_inv (h : list op) (ps : pubkey_store) : Prop :=
  forall pk, ps_current ps = Some pk \/ ps_next ps = Some pk -> trusted_pub h pk.
Definition keys_inv (h : list op) (ks : key_store) : Prop :=
  forall k, ks_k0 ks = Some k \/ ks_k1 ks = Some k -> key_ok k /\ trusted h k.
Definition navs_inv (h : list op) (n : nav) : Prop :=
  exists hs, represents_nav hs n /\ nav_ok hs /\
    nav_inv (verified root user slow h) (nav_stretches (inav_words h)) hs.

Record rest_inv (h : list op) (o : osnma) : Prop := {
  ri_dsm : dsm_inv h o;
  ri_mack : mack_inv h o;
  ri_merkle : merkle_inv o;
  ri_pub : pub_inv h (o_pub o);
  ri_keys : keys_inv h (o_keys o);
  ri_slow : o_slow o = slow;
  ri_nav : navs_inv h (o_nav o)
}.
Definition sub_inv (h : list op) (o : osnma) : Prop := represents (current_run (osnma_words h)) (o_sub o).
Definition inv (h : list op) (o : osnma) : Prop := sub_inv h o /\ rest_inv h o.

Lemma block_received_mono h q b : block_received h b -> block_received (h ++ q) b.
Proof.
  intros (Hb & svn & g & hk & mk & H1 & H2). split; auto. exists svn, g, hk, mk. split; auto.
  now apply subframe_received_mono.
Qed.
Lemma item_received_mono h q x : item_received h x -> item_received (h ++ q) x.
Proof. intros (hk & H1 & H2). exists hk. split; auto. now apply subframe_received_mono. Qed.

Lemma keys_inv_mono h q ks : keys_inv h ks -> keys_inv (h ++ q) ks.
Proof. intros H k Hk. destruct (H k Hk). split; auto. now apply trusted_key_mono. Qed.
Lemma pub_inv_mono h q ps : pub_inv h ps -> pub_inv (h ++ q) ps.
Proof. intros H k Hk. apply trusted_pubkey_mono. auto. Qed.

(** Calls that do not feed INAV words. *)
Lemma rest_inv_mono h q o : inav_words q = [] -> rest_inv h o -> rest_inv (h ++ q) o.
Proof.
  intros Hq [(bl & Hd1 & Hd2) (its & Hm1 & Hm2) H3 H4 H5 H6 (hs & Hn1 & Hn2 & Hn3)]. constructor.
  - exists bl. split; auto. eapply Forall_impl; [|exact Hd2]. intros. now apply block_received_mono.
  - exists its. split; auto. eapply Forall_impl; [|exact Hm2]. intros. now apply item_received_mono.
  - exact H3.
  - now apply pub_inv_mono.
  - now apply keys_inv_mono.
  - exact H6.
  - exists hs. split; [exact Hn1|]. split; [exact Hn2|]. rewrite inav_words_app, Hq, app_nil_r.
    eapply nav_inv_weaken; [|exact Hn3]. intros. now apply verified_mono.
Qed.

Lemma inv_new : inv [] (osnma_new root user slow).
Proof.
  split; [apply represents_new|]. constructor; cbn [osnma_new o_dsm o_mack o_merkle o_pub o_keys o_slow o_nav].
  - exists []. split; [apply represents_dsm_new|constructor].
  - exists []. split; [apply represents_ms_new; auto|constructor].
  - now right.
  - intros pk Hpk. left. destruct user as [u|]; cbn in Hpk; destruct Hpk as [E|E]; congruence.
  - intros k [E|E]; discriminate E.
  - reflexivity.
  - exists []. split; [apply represents_nav_new; auto|]. split; [constructor|]. apply nav_inv_new.
Qed.

(** ** INAV words *)

Lemma feed_inav_inv h o o' word svn g b : op_ok (FeedInav word svn g b) ->
  inv h o -> feed_inav o word svn g b = Ok o' -> inv (h ++ [FeedInav word svn g b]) o'.
Proof.
  intros (Hw & Hsvn & Hg) (Hsub & [(bl & Hd1 & Hd2) (its & Hm1 & Hm2) H3 H4 H5 H6 (hs & Hn1 & Hn2 & Hn3)]) H.
  unfold feed_inav in H. bind_inv H. injection H as <-. set (q := [FeedInav word svn g b]).
  split.
  { unfold sub_inv. rewrite osnma_words_app. cbn [q osnma_words flat_map]. rewrite app_nil_r. exact Hsub. }
  constructor; cbn [set_nav o_dsm o_mack o_merkle o_pub o_keys o_slow o_nav].
  - exists bl. split; auto. eapply Forall_impl; [|exact Hd2]. intros. now apply block_received_mono.
  - exists its. split; auto. eapply Forall_impl; [|exact Hm2]. intros. now apply item_received_mono.
  - exact H3.
  - now apply pub_inv_mono.
  - now apply keys_inv_mono.
  - exact H6.
  - destruct (nav_feed_spec HS hs (o_nav o) word svn g b Hn1) as (n' & En & Hn'). rewrite En in E. injection E as <-.
    exists (abs_feed hs word svn g b). split; [exact Hn'|].
    assert (Hsn : Forall snap_ok hs) by apply Hn1.
    split; [apply abs_feed_ok; auto|].
    rewrite inav_words_app. cbn [q inav_words flat_map app]. rewrite nav_stretches_snoc.
    apply abs_feed_inv; auto. eapply nav_inv_weaken; [|exact Hn3]. intros. now apply verified_mono.
Qed.

(** ** DSM messages *)

Lemma revoke_inv h ks cid : keys_inv h ks -> keys_inv h (keys_revoke ks cid).
Proof.
  intros H k Hk. apply H. unfold keys_revoke in Hk. cbn [ks_k0 ks_k1] in Hk.
  destruct Hk as [Hk|Hk]; [left; destruct (has_chain_id (ks_k0 ks) cid)|right; destruct (has_chain_id (ks_k1 ks) cid)];
    congruence.
Qed.

Lemma pubs_revoke_inv h ps pkid : pub_inv h ps -> pub_inv h (pubs_revoke ps pkid).
Proof.
  intros H pk Hpk. apply H. unfold pubs_revoke in Hpk.
  destruct ps as [[c|] [n|]]; cbn [ps_current ps_next] in *;
    repeat match type of Hpk with
    | context [if ?b then _ else _] => destruct b; cbn [ps_current ps_next] in Hpk
    end; destruct Hpk as [Hpk|Hpk]; auto; discriminate Hpk.
Qed.

(** Changes of the public keys, the keys and the Merkle tree only. *)
Lemma rest_inv_set h o o' : rest_inv h o ->
  o_dsm o' = o_dsm o -> o_mack o' = o_mack o -> o_slow o' = o_slow o -> o_nav o' = o_nav o ->
  merkle_inv o' -> pub_inv h (o_pub o') -> keys_inv h (o_keys o') -> rest_inv h o'.
Proof.
  intros [H1 H2 H3 H4 H5 H6 H7] E1 E2 E3 E4 Hm Hp Hk.
  constructor; auto; unfold dsm_inv, mack_inv; rewrite ?E1, ?E2, ?E3, ?E4; auto.
Qed.

Lemma empty_keys_inv h : keys_inv h keys_empty.
Proof. intros k [E|E]; discriminate E. Qed.
Lemma empty_pubs_inv h : pub_inv h pubs_empty.
Proof. intros k [E|E]; discriminate E. Qed.

Lemma alert_inv h o : rest_inv h o -> rest_inv h (alert_message_received o).
Proof.
  intros H. eapply rest_inv_set; [exact H|reflexivity..|now left|apply empty_pubs_inv|apply empty_keys_inv].
Qed.

Lemma process_nma_header_inv h o hd pkid : rest_inv h o -> rest_inv h (process_nma_header o hd pkid).
Proof.
  intros H. unfold process_nma_header.
  set (o1 := match nma_status hd with
             | NmaDontUse => _
             | _ => o
             end).
  assert (H1 : rest_inv h o1).
  { subst o1. destruct (nma_status hd); auto. destruct (nma_cpks hd); auto.
    - eapply rest_inv_set; [exact H|reflexivity..|apply H|apply H|]. apply revoke_inv. apply H.
    - eapply rest_inv_set; [exact H|reflexivity..|apply H| |].
      + apply pubs_revoke_inv. apply H.
      + apply revoke_inv. apply H. }
  destruct (nma_cpks hd); auto. now apply alert_inv.
Qed.

Lemma applicable_pubkey_in ps pkid pk : applicable_pubkey ps pkid = Ok (Some pk) ->
  (ps_current ps = Some pk \/ ps_next ps = Some pk) /\ pk_id pk = pkid.
Proof.
  unfold applicable_pubkey. intros H. bind_inv H. injection H as H.
  destruct (has_pkid (ps_current ps) pkid) eqn:E1.
  - split; auto. rewrite H in E1. cbn in E1. lia.
  - destruct (has_pkid (ps_next ps) pkid) eqn:E2; [|discriminate].
    split; auto. rewrite H in E2. cbn in E2. lia.
Qed.

Lemma make_pkid_current_in ps pkid ps' : make_pkid_current ps pkid = Ok ps' ->
  forall pk, ps_current ps' = Some pk \/ ps_next ps' = Some pk -> ps_current ps = Some pk \/ ps_next ps = Some pk.
Proof.
  unfold make_pkid_current. intros H pk Hpk. bind_inv H.
  destruct (has_pkid (ps_current ps) pkid); [injection H as <-; auto|].
  destruct (has_pkid (ps_next ps) pkid); [|discriminate].
  bind_inv H. bind_inv H. injection H as <-. cbn [ps_current ps_next] in Hpk.
  destruct Hpk as [Hpk|Hpk]; [auto|discriminate].
Qed.

Lemma store_kroot_in ks key hd g k :
  (ks_k0 (store_kroot ks key hd g) = Some k \/ ks_k1 (store_kroot ks key hd g) = Some k) ->
  k = key \/ ks_k0 ks = Some k \/ ks_k1 ks = Some k.
Proof.
  unfold store_kroot. intros H.
  destruct (has_chain_id (ks_k0 ks) _); [cbn [ks_k0 ks_k1] in H; auto|].
  destruct (has_chain_id (ks_k1 ks) _); [cbn [ks_k0 ks_k1] in H; auto|].
  destruct (ks_k0 ks) as [k0|] eqn:E0.
  2: { cbn [ks_k0 ks_k1] in H. destruct H as [H|H]; auto. injection H as <-. auto. }
  destruct (ks_k1 ks) as [k1|] eqn:E1.
  2: { cbn [ks_k0 ks_k1] in H. destruct H as [H|H]; auto. injection H as <-. auto. }
  destruct (ch_id (k_chain k0) =? _); cbn [ks_k0 ks_k1] in H; destruct H as [H|H]; auto;
    injection H as <-; auto.
Qed.

Lemma key_after_refl k : key_ok k -> key_after k k 0.
Proof. intros H. split; auto. split; [lia|]. reflexivity. Qed.

Lemma kroot_pkid_layout d f : kroot_layout d f -> kroot_public_key_id d = Ok (kf_pkid f).
Proof. intros HL. apply (kroot_param_at d f HL 1 4 (kf_pkid f)); reflexivity. Qed.

Lemma process_dsm_kroot_inv h o o' d id svn g hk mk : Forall op_ok h ->
  rest_inv h o -> id < 12 -> dsm_received h id d -> subframe_received h svn g hk mk ->
  process_dsm_kroot o d (nth 0 hk 0) g = Ok o' -> rest_inv h o'.
Proof.
  intros Hok Hinv Hid Hd Hsf H.
  destruct (subframe_received_bytes _ _ _ _ _ Hok Hsf) as ((Hlen & Hhk) & _).
  assert (Hb0 : is_byte (nth 0 hk 0)).
  { rewrite Forall_forall in Hhk. apply Hhk. apply nth_In. lia. }
  unfold process_dsm_kroot in H. bind_inv H. bind_inv H.
  destruct x0 as [pk|]; [|injection H as <-; auto].
  bind_inv H. destruct x0 as [key|]; [|injection H as <-; auto].
  bind_inv H. injection H as <-.
  destruct (applicable_pubkey_in _ _ _ E0) as (Hpk & Hpkid).
  destruct (key_from_dsm_kroot_sound HC _ _ _ _ Hb0 (dsm_received_bytes _ _ _ Hok Hd) E1)
    as (f & HL & Hver & Hkk & Hkok).
  rewrite (kroot_pkid_layout _ _ HL) in E. injection E as <-.
  apply process_nma_header_inv. eapply rest_inv_set; [exact Hinv|reflexivity..|apply Hinv| |].
  - intros pk' Hpk'. apply Hinv. cbn [set_keys set_pub o_pub] in Hpk'. eapply make_pkid_current_in; eauto.
  - intros k Hk. cbn [set_keys set_pub o_keys] in Hk. apply store_kroot_in in Hk. destruct Hk as [->|Hk].
    + split; [exact Hkok|]. exists key, 0%nat. split; [|now apply key_after_refl].
      exists id, d, f, pk, svn, g, hk, mk. split; [exact Hid|]. split; [exact Hd|]. split; [exact HL|].
      split; [exact Hsf|]. split; [apply Hinv; exact Hpk|]. split; [exact Hpkid|]. split; auto.
    + apply Hinv. exact Hk.
Qed.

Lemma store_new_pubkey_in ps pk ps' : store_new_pubkey ps pk = Ok ps' ->
  forall k, ps_current ps' = Some k \/ ps_next ps' = Some k -> k = pk \/ ps_current ps = Some k \/ ps_next ps = Some k.
Proof.
  unfold store_new_pubkey. intros H k Hk. bind_inv H. injection H as <-.
  destruct (ps_current ps) as [c|] eqn:Ec; cbn [ps_current ps_next] in Hk.
  - destruct (pk_id pk <? pk_id c); [rewrite Ec in Hk; auto|].
    destruct (pk_id pk =? pk_id c); [rewrite Ec in Hk; auto|].
    destruct (ps_next ps) as [n|] eqn:En.
    + destruct (pk_id n <? pk_id pk); [|rewrite ?Ec, ?En in Hk; auto].
      cbn [ps_current ps_next] in Hk. destruct Hk as [Hk|Hk]; auto. injection Hk as <-. auto.
    + cbn [ps_current ps_next] in Hk. destruct Hk as [Hk|Hk]; auto. injection Hk as <-. auto.
  - destruct Hk as [Hk|Hk]; auto. injection Hk as <-. auto.
Qed.

Lemma process_dsm_pkr_inv h o o' d id : Forall op_ok h ->
  rest_inv h o -> 12 <= id -> dsm_received h id d -> process_dsm_pkr o d = Ok o' -> rest_inv h o'.
Proof.
  intros Hok Hinv Hid Hd H. pose proof (dsm_received_bytes _ _ _ Hok Hd) as Hb.
  unfold process_dsm_pkr in H. bind_inv H. destruct x as [fn| |].
  - unfold process_dsm_pkr_npk in H. destruct (o_merkle o) as [r|] eqn:Er; [|injection H as <-; auto].
    bind_inv H. destruct x as [pk|]; [|injection H as <-; auto]. bind_inv H. injection H as <-.
    destruct (validate_pkr_sound _ _ _ Hb E0) as (f & HL & Hroot & Hpkid & Hkey).
    eapply rest_inv_set; [exact Hinv|reflexivity..|apply Hinv| |apply Hinv].
    intros k Hk. cbn [set_pub o_pub] in Hk. eapply store_new_pubkey_in in Hk; [|exact E1].
    destruct Hk as [->|Hk]; [|apply Hinv; exact Hk].
    right. exists r, id, d, f. split.
    { destruct (ri_merkle _ _ Hinv) as [Hm|Hm]; congruence. }
    split; [exact Hid|]. split; [exact Hd|]. split; [exact HL|]. split; [exact Hroot|]. split; [congruence|].
    destruct (pk_key pk); intuition.
  - unfold process_dsm_pkr_alert_message in H. destruct (o_merkle o); [|injection H as <-; auto].
    bind_inv H. destruct x; injection H as <-; auto. now apply alert_inv.
  - injection H as <-. exact Hinv.
Qed.

(** ** Keys and tags *)

Lemma find_key_in p ks k : find_key p ks = Some k -> ks_k0 ks = Some k \/ ks_k1 ks = Some k.
Proof.
  unfold find_key. destruct (ks_k0 ks) as [k0|]; [destruct (p k0)|];
    try (destruct (ks_k1 ks) as [k1|]; [destruct (p k1)|]); intros H; auto; discriminate H.
Qed.

Lemma current_key_in ks k : current_key ks = Some k -> ks_k0 ks = Some k \/ ks_k1 ks = Some k.
Proof. unfold current_key. destruct (ks_cif ks); [|discriminate]. apply find_key_in. Qed.

Lemma key_past_chain_in ks g k : key_past_chain ks g = Some k -> ks_k0 ks = Some k \/ ks_k1 ks = Some k.
Proof.
  unfold key_past_chain. destruct (ks_cif ks) as [cif|]; [|discriminate].
  destruct (cif_start cif) as [g0|]; [destruct (gst_ltb g g0)|]; intros H;
    eauto using find_key_in, current_key_in.
Qed.

Lemma store_key_in ks key ks' : store_key ks key = Ok ks' ->
  forall k, ks_k0 ks' = Some k \/ ks_k1 ks' = Some k -> k = key \/ ks_k0 ks = Some k \/ ks_k1 ks = Some k.
Proof.
  unfold store_key. intros H k Hk.
  destruct (has_chain_id (ks_k0 ks) _).
  - injection H as <-. cbn [ks_k0 ks_k1] in Hk. destruct Hk as [Hk|Hk]; auto. injection Hk as <-. auto.
  - destruct (has_chain_id (ks_k1 ks) _); [|discriminate]. injection H as <-. cbn [ks_k0 ks_k1] in Hk.
    destruct Hk as [Hk|Hk]; auto. injection Hk as <-. auto.
Qed.

Lemma mac_usable_dec k : {mac_usable k} + {~ mac_usable k}.
Proof.
  unfold mac_usable. destruct (ch_mac (k_chain k)).
  - left. discriminate.
  - destruct (Nat.eq_dec (ch_key_bytes (k_chain k)) 16) as [E|E]; [left|right]; auto.
Qed.

Lemma flx_in_range_dec data ks ts c g : {flx_in_range data ks ts c g} + {~ flx_in_range data ks ts c g}.
Proof.
  unfold flx_in_range. destruct (icd_sequence (ch_maclt c) (half_minute g)) as [codes|].
  - destruct (Forall_dec (fun i => (i < mack_num_tags (mack_new data ks ts))%nat)
                         (fun i => lt_dec i (mack_num_tags (mack_new data ks ts))) (flx_positions codes)) as [H|H].
    + left. intros codes' E. injection E as <-. exact H.
    + right. intros H'. apply H. apply H'. reflexivity.
  - left. discriminate.
Qed.

(** An accepted MACK message is valid. *)
Lemma validate_mack_sound message key mkey prna g m : length message = 60%nat ->
  key_ok key -> key_ok mkey -> gst_ok g -> 1 <= prna <= 36 ->
  validate_mack (mack_of_chain message key) mkey prna g = Ok (Some m) ->
  m = mack_of_chain message key /\
  mack_valid (k_chain mkey) (key_bytes mkey) prna (time_of g) message
             (8 * ch_key_bytes (k_chain key)) (ch_tag_bits (k_chain key)).
Proof.
  intros Hlen Hkey Hmkey Hg Hprna H. unfold validate_mack in H. bind_inv H.
  destruct x as [m'|]; [|discriminate]. injection H as <-.
  unfold mack_of_chain in *. rewrite (Nat.mul_comm 8).
  set (ks := (ch_key_bytes (k_chain key) * 8)%nat) in *. set (ts := ch_tag_bits (k_chain key)) in *.
  assert (Hsz : sizes_ok ks ts) by (apply announced_sizes_ok; apply Hkey).
  assert (Hp : is_byte prna) by (unfold is_byte; lia).
  assert (Hnp : ~ (~ mac_usable mkey \/ ~ flx_in_range message ks ts (k_chain mkey) g)).
  { intros Hc. apply (mack_validate_panic HC message ks ts Hlen Hsz mkey prna g Hmkey Hg Hp) in Hc. congruence. }
  destruct (mac_usable_dec mkey) as [Hu|Hu]; [|exfalso; apply Hnp; auto].
  destruct (flx_in_range_dec message ks ts (k_chain mkey) g) as [Hf|Hf]; [|exfalso; apply Hnp; auto].
  destruct (mack_validate_exact HC message ks ts Hlen Hsz mkey prna g Hmkey Hu Hg Hp Hf) as (r & Er & Hr1 & Hr2).
  rewrite Er in E. injection E as ->. split; [exact Hr1|]. apply Hr2. eauto.
Qed.

Lemma seconds_before_n g g' s : gst_ok g -> 0 <= s < 604800 -> add_seconds g (- s) = Ok g' ->
  seconds_after g' g s.
Proof.
  intros Hg Hs H. apply add_seconds_exact in H; [|auto|lia]. destruct H as (Hg' & Ht & _).
  split; auto. split; auto. rewrite Ht.
  replace (((time_of g + - s) mod (65536 * 604800)) + s - time_of g)
    with ((((time_of g + - s) mod (65536 * 604800)) - (time_of g + - s))) by lia.
  pose proof (Z.div_mod (time_of g + - s) (65536 * 604800) ltac:(lia)) as Hdm.
  replace ((time_of g + - s) mod (65536 * 604800) - (time_of g + - s))
    with ((- ((time_of g + - s) / (65536 * 604800))) * (65536 * 604800)) by lia.
  apply Z.mod_mul. lia.
Qed.

(** Histories whose last call completed the subframe of the key. *)
Definition last_call_at (h : list op) (svn : Z) (g : gst) : Prop :=
  exists h0 d gk, h = h0 ++ [FeedOsnma d svn gk] /\ subframe_of gk = g.

Definition nav_at (h : list op) (hs : list snap) (n : nav) : Prop :=
  represents_nav hs n /\ nav_ok hs /\ nav_inv (verified root user slow h) (nav_stretches (inav_words h)) hs.

Section Disclosed.
Variables (h : list op) (key : tkey) (prnk : Z) (hkk mkk : list Z).
Hypothesis Hops : Forall op_ok h.
Hypothesis Hkok : key_ok key.
Hypothesis Htrust : trusted h key.
Hypothesis Hlast : last_call_at h prnk (k_gst key).
Hypothesis Hsfk : subframe_received h prnk (k_gst key) hkk mkk.
Hypothesis Hkin : key_in_mack mkk key.

Lemma item_found its st svn g message s : represents_ms (stretches its) st -> Forall (item_received h) its ->
  mack_get st svn g = Ok (Some (message, s)) ->
  exists hk, subframe_received h svn g hk message /\ s = status_of hk.
Proof.
  intros Hms Hits H. destruct (mack_get_total HS _ _ svn g Hms) as (r & Er & Hr).
  rewrite Er in H. injection H as ->. destruct Hr as (a & l & Ha & _ & Hf); [discriminate|].
  unfold find_item in Hf. destruct (find (fun x => it_svn x =? svn) (firstn num_sats l)) as [x|] eqn:Ex; [|discriminate].
  cbn in Hf. injection Hf as <- <-. apply find_some in Ex. destruct Ex as (Hx & Hsvn). apply Z.eqb_eq in Hsvn.
  apply In_firstn in Hx. destruct (stretches_in its g l x) as (Hin & Hg); auto.
  { eapply nth_error_In; eauto. }
  rewrite Forall_forall in Hits. destruct (Hits x Hin) as (hk & H1 & H2). exists hk. subst. auto.
Qed.

(** All tags of one MACK message. *)
Lemma verified_tags hs hs' n' delay prna g hk message :
  (delay = 30 /\ slow = false \/ delay = 330) ->
  seconds_after g (k_gst key) delay ->
  subframe_received h prna g hk message ->
  mack_checked root user h key prna g message ->
  nav_ok hs -> nav_inv (verified root user slow h) (nav_stretches (inav_words h)) hs ->
  represents_nav hs' n' ->
  tag_steps (tag_facts message key prna g (status_of hk) delay) hs hs' ->
  nav_at h hs' n'.
Proof.
  intros Hdelay Hg Hsf Hchk Hok Hinv Hrep Hst. split; [exact Hrep|].
  apply tag_steps_inv with (V := verified root user slow h)
    (Q := tag_facts message key prna g (status_of hk) delay) (hs := hs); auto.
  intros k svn adkd cop gn bits tag (F1 & F2 & F3 & F4 & F5) Hseen.
  exists h, []. split; [now rewrite app_nil_r|].
  exists adkd, delay, cop, prna, gn, g, key. split.
  - exists prnk, hkk, mkk, hk, message.
    split; [exact Hlast|]. split; [exact Hsfk|]. split; [exact Hkin|]. split; [exact Htrust|].
    split; [exact F2|]. split; [exact Hg|].
    split; [exact Hsf|]. split; [exact F1|]. split; [exact F5|]. split; [exact Hchk|].
    split; [exact F3|]. split; [exact F4|]. exact Hseen.
  - intros Hs. destruct F2 as [(_ & _ & Ed)|[(_ & _ & Ed)|(Ea & _)]]; [| |exact Ea].
    + destruct Hdelay as [(_ & Hd)|Hd]; [congruence|lia].
    + destruct Hdelay as [(_ & Hd)|Hd]; [congruence|lia].
Qed.

Lemma process_tags_fast_inv its st g svn n n' hs :
  represents_ms (stretches its) st -> Forall (item_received h) its ->
  seconds_after g (k_gst key) 30 -> nav_at h hs n ->
  process_tags_fast st slow key g svn n = Ok n' -> exists hs', nav_at h hs' n'.
Proof.
  intros Hms Hits Hg Hn H. pose proof Hn as (Hn1 & Hn2 & Hn3).
  unfold process_tags_fast in H.
  destruct (bool_dec slow true) as [Es|Es].
  { rewrite Es in H. injection H as <-. eauto. }
  apply not_true_is_false in Es. rewrite Es in H.
  bind_inv H. destruct x as [(message, s)|]; [|injection H as <-; eauto].
  destruct (item_found _ _ _ _ _ _ Hms Hits E) as (hk & Hsf & ->).
  destruct (subframe_received_bytes _ _ _ _ _ Hops Hsf) as (_ & (Hlen & _) & Hgok & _ & Hsvn).
  bind_inv H. destruct x as [m|]; [|injection H as <-; eauto].
  destruct (validate_mack_sound _ _ _ _ _ _ Hlen Hkok Hkok Hgok Hsvn E0) as (-> & Hval).
  destruct (process_mack_steps HC HS message key svn g (status_of hk) Hlen Hkok Hgok Hsvn n n' hs Hn1 Hn2 H)
    as (hs' & A1 & A2 & A3).
  exists hs'. apply verified_tags with (hs := hs) (delay := 30) (prna := svn) (g := g) (hk := hk) (message := message);
    try assumption; [left; auto|].
  exists key, key, 0%nat. split; [exact Htrust|]. split; [reflexivity|]. split; [lia|]. split; [reflexivity|].
  split; [exact Hg|]. exact Hval.
Qed.

Lemma process_tags_slow_inv its st mkey held nd g svn n n' hs :
  represents_ms (stretches its) st -> Forall (item_received h) its ->
  seconds_after g (k_gst key) 330 -> nav_at h hs n ->
  (forall k, mkey = Some k -> key_ok k /\ seconds_after g (k_gst k) 30 /\
     trusted h held /\ k_chain k = k_chain held /\
     time_of (k_gst held) = time_of (k_gst k) + 30 * Z.of_nat nd /\
     key_before (k_chain held) nd (key_bytes held) (time_of (k_gst held)) (key_bytes k)) ->
  process_tags_slow st mkey key g svn n = Ok n' -> exists hs', nav_at h hs' n'.
Proof.
  intros Hms Hits Hg Hn Hmk H. pose proof Hn as (Hn1 & Hn2 & Hn3).
  unfold process_tags_slow in H. destruct mkey as [mkey|]; [|injection H as <-; eauto].
  destruct (Hmk mkey eq_refl) as (M1 & M2 & M3 & M4 & M5 & M6).
  bind_inv H. destruct x as [(message, s)|]; [|injection H as <-; eauto].
  destruct (item_found _ _ _ _ _ _ Hms Hits E) as (hk & Hsf & ->).
  destruct (subframe_received_bytes _ _ _ _ _ Hops Hsf) as (_ & (Hlen & _) & Hgok & _ & Hsvn).
  bind_inv H. destruct x as [m|]; [|injection H as <-; eauto].
  destruct (validate_mack_sound _ _ _ _ _ _ Hlen Hkok M1 Hgok Hsvn E0) as (-> & Hval).
  destruct (process_mack_slowmac_steps HC HS message key svn g (status_of hk) Hlen Hkok Hgok Hsvn n n' hs Hn1 Hn2 H)
    as (hs' & A1 & A2 & A3).
  exists hs'. apply verified_tags with (hs := hs) (delay := 330) (prna := svn) (g := g) (hk := hk) (message := message);
    try assumption; [right; auto|].
  exists mkey, held, nd. split; [exact M3|]. split; [exact M4|]. split; [exact M5|]. split; [exact M6|].
  split; [exact M2|]. exact Hval.
Qed.

Lemma slowmac_key_facts ks gk mkey : keys_inv h ks -> gst_ok gk -> is_subframe gk = true ->
  slowmac_key_of ks gk = Ok mkey ->
  exists held nd, forall k, mkey = Some k -> key_ok k /\ k_gst k = gk /\
     trusted h held /\ k_chain k = k_chain held /\
     time_of (k_gst held) = time_of (k_gst k) + 30 * Z.of_nat nd /\
     key_before (k_chain held) nd (key_bytes held) (time_of (k_gst held)) (key_bytes k).
Proof.
  intros Hks Hgk Hsub H. unfold slowmac_key_of in H.
  destruct (key_past_chain ks gk) as [held|] eqn:Eh.
  2: { injection H as <-. exists key, 0%nat. discriminate. }
  destruct (Hks held (key_past_chain_in _ _ _ Eh)) as (Hhok & Hht).
  destruct (0 <=? subframes_difference (k_gst held) gk) eqn:E0.
  2: { injection H as <-. exists key, 0%nat. discriminate. }
  pose proof (subframes_difference_exact (k_gst held) gk (ko_gst _ Hhok) Hgk (ko_sub _ Hhok) Hsub) as Hd.
  set (nd := Z.to_nat (subframes_difference (k_gst held) gk)) in *.
  assert (Hge : 0 <= time_of gk) by (destruct gk as [wg tg], Hgk; unfold time_of; cbn [g_wn g_tow] in *; lia).
  destruct (derive_spec HC nd held Hhok ltac:(lia)) as (k' & Ek & K1 & K2 & K3 & K4).
  bind_inv H. rewrite Ek in E. injection E as <-. injection H as <-.
  exists held, nd. intros k E. injection E as <-.
  split; [exact K1|]. split.
  { apply time_of_inj; [apply K1|exact Hgk|]. lia. }
  split; [exact Hht|]. split; [exact K2|]. split; [lia|exact K4].
Qed.

Lemma seconds_after_trans g1 g2 g3 a b : seconds_after g1 g2 a -> seconds_after g2 g3 b -> seconds_after g1 g3 (a + b).
Proof.
  intros (H1 & H2 & H3) (_ & H4 & H5). split; auto. split; auto.
  apply Z.mod_divide in H3; [|lia]. apply Z.mod_divide in H5; [|lia]. apply (proj2 (Z.mod_divide _ (65536 * 604800) ltac:(lia))).
  replace (time_of g1 + (a + b) - time_of g3) with ((time_of g1 + a - time_of g2) + (time_of g2 + b - time_of g3)) by lia.
  now apply Z.divide_add_r.
Qed.

(** What [process_tags] goes through. *)
Lemma process_tags_parts o o' : rest_inv h o -> process_tags o key = Ok o' ->
  exists gm gs mkey held nd n', seconds_after gm (k_gst key) 30 /\ seconds_after gs (k_gst key) 330 /\
    (forall k, mkey = Some k -> key_ok k /\ seconds_after gs (k_gst k) 30 /\
       trusted h held /\ k_chain k = k_chain held /\
       time_of (k_gst held) = time_of (k_gst k) + 30 * Z.of_nat nd /\
       key_before (k_chain held) nd (key_bytes held) (time_of (k_gst held)) (key_bytes k)) /\
    fold_outcome (fun n svn => n0 <- process_tags_fast (o_mack o) slow key gm svn n ;;
                               process_tags_slow (o_mack o) mkey key gs svn n0) svn_iter (o_nav o) = Ok n' /\
    o' = set_nav n' o.
Proof.
  intros Hinv H. unfold process_tags in H.
  bind_inv H. rename x into gm. bind_inv H. rename x into gs. bind_inv H. rename x into gk.
  bind_inv H. rename x into mkey. bind_inv H. rename x into n'. injection H as <-.
  rewrite (ri_slow _ _ Hinv) in E3.
  pose proof (ko_gst _ Hkok) as Hgok.
  apply (seconds_before_n _ _ 30) in E; [|auto|lia].
  apply (seconds_before_n _ _ 300) in E0; [|apply E|lia].
  pose proof E1 as E1'. apply add_seconds_exact in E1'; [|auto|lia]. destruct E1' as (Hgk & Hgkt & _).
  apply (seconds_before_n _ _ 300) in E1; [|auto|lia].
  assert (Hsub : is_subframe gk = true).
  { apply is_subframe_start. pose proof (ko_sub _ Hkok) as Hks. apply is_subframe_start in Hks.
    destruct Hks as (nk & Hnk). rewrite Hgkt, Hnk.
    exists (nk - 10 - 65536 * 20160 * ((30 * nk + -300) / (65536 * 604800))).
    pose proof (Z.div_mod (30 * nk + -300) (65536 * 604800) ltac:(lia)). lia. }
  destruct (slowmac_key_facts _ _ _ (ri_keys _ _ Hinv) Hgk Hsub E2) as (held & nd & Hmk).
  assert (Hslow : seconds_after gs (k_gst key) 330).
  { apply (seconds_after_trans gs gm (k_gst key) 300 30); auto. }
  assert (Hslow30 : seconds_after gs gk 30).
  { destruct Hslow as (S1 & S2 & S3), E1 as (T1 & _ & T3). split; auto. split; auto.
    apply Z.mod_divide in S3; [|lia]. apply Z.mod_divide in T3; [|lia]. apply (proj2 (Z.mod_divide _ (65536 * 604800) ltac:(lia))).
    replace (time_of gs + 30 - time_of gk)
      with ((time_of gs + 330 - time_of (k_gst key)) - (time_of gk + 300 - time_of (k_gst key))) by lia.
    now apply Z.divide_sub_r. }
  exists gm, gs, mkey, held, nd, n'. split; [exact E|]. split; [exact Hslow|]. split; [|split; [exact E3|reflexivity]].
  intros k Ek. destruct (Hmk k Ek) as (M1 & M2 & M3). rewrite M2 in *. auto.
Qed.

Lemma process_tags_inv o o' : rest_inv h o -> process_tags o key = Ok o' -> rest_inv h o'.
Proof.
  intros Hinv H.
  destruct (process_tags_parts o o' Hinv H) as (gm & gs & mkey & held & nd & n' & E & Hslow & Hmk & E3 & ->).
  destruct (ri_mack _ _ Hinv) as (its & Hms & Hits).
  assert (Hn : exists hs', nav_at h hs' n').
  { revert E3. apply fold_outcome_inv with (P := fun n => exists hs, nav_at h hs n).
    - intros n svn n2 Hsvn (hs & Hn) H2. bind_inv H2.
      destruct (process_tags_fast_inv _ _ _ _ _ _ _ Hms Hits E Hn E0) as (hs1 & Hn').
      apply (process_tags_slow_inv its (o_mack o) mkey held nd gs svn x n2 hs1); assumption.
    - destruct (ri_nav _ _ Hinv) as (hs & Hn). exists hs. exact Hn. }
  destruct Hinv as [H1 H2 H3 H4 H5 H6 H7]. constructor; auto.
Qed.

End Disclosed.

(** ** The key of a subframe *)

Lemma osnma_validate_key_cases h o o' svn g hk mk : Forall op_ok h ->
  rest_inv h o -> subframe_received h svn g hk mk ->
  osnma_validate_key o mk g = Ok o' ->
  o' = o \/
  exists cur new ks, current_key (o_keys o) = Some cur /\ gst_cmp (k_gst cur) (k_gst new) = Lt /\
    key_ok new /\ trusted h new /\ k_gst new = g /\ k_chain new = k_chain cur /\ key_in_mack mk new /\
    store_key (o_keys o) new = Ok ks /\ rest_inv h (set_keys ks o) /\ process_tags (set_keys ks o) new = Ok o'.
Proof.
  intros Hok Hinv Hsf H.
  destruct (subframe_received_bytes _ _ _ _ _ Hok Hsf) as (_ & (Hlen & _) & Hg & Hsub & Hsvn).
  unfold osnma_validate_key in H. destruct (current_key (o_keys o)) as [cur|] eqn:Ec; [|injection H as <-; auto].
  destruct (ri_keys _ _ Hinv cur (current_key_in _ _ Ec)) as (Hcok & kr & n0 & Hroot & Haft).
  assert (Hsz : sizes_ok (ch_key_bytes (k_chain cur) * 8) (ch_tag_bits (k_chain cur))).
  { apply announced_sizes_ok; apply Hcok. }
  destruct (num_tags_bounds mk _ _ Hlen Hsz) as (_ & Hfit & _).
  unfold mack_of_chain in H. rewrite mack_key_ok in H by auto. cbn [bind] in H.
  set (nt := mack_num_tags (mack_new mk (ch_key_bytes (k_chain cur) * 8) (ch_tag_bits (k_chain cur)))) in *.
  destruct (key_from_bitslice_ok
    (sub ((ch_tag_bits (k_chain cur) + 16) * nt)
         ((ch_tag_bits (k_chain cur) + 16) * nt + ch_key_bytes (k_chain cur) * 8) (bits_of_bytes mk))
    g (k_chain cur) (ko_chain _ Hcok) Hg Hsub) as (new & En & Hnok & Hnch & Hng & Hnb).
  { rewrite length_sub by (rewrite length_bits_of_bytes; lia). lia. }
  rewrite En in H. cbn [bind] in H.
  destruct (gst_cmp (k_gst cur) (k_gst new)) eqn:Ecmp; [injection H as <-; auto| |injection H as <-; auto].
  bind_inv H. destruct x as [k|]; [|injection H as <-; auto].
  destruct (validate_key_exact HC cur new Hcok Hnok) as (r & Er & Hr1 & Hr2).
  rewrite Er in E. injection E as ->. subst k.
  destruct (proj1 Hr2 ltac:(eauto)) as (_ & n1 & _ & Htime & Hbef).
  bind_inv H. right. exists cur, new, x.
  assert (Htrust : trusted h new).
  { exists kr, (n1 + n0)%nat. split; [exact Hroot|]. destruct Haft as (A1 & A2 & A3).
    split; [congruence|]. split; [lia|]. apply key_before_app. exists (key_bytes cur).
    rewrite <- A1. split; [exact Hbef|]. rewrite A1.
    replace (time_of (k_gst new) - 30 * Z.of_nat n1) with (time_of (k_gst cur)) by lia. exact A3. }
  split; [reflexivity|]. split; [exact Ecmp|]. split; [exact Hnok|]. split; [exact Htrust|]. split; [exact Hng|].
  split; [exact Hnch|]. split.
  { unfold key_in_mack. rewrite Hnch, Hnb. unfold nt, mack_num_tags, mack_new. cbn [mk_data mk_key_size mk_tag_size].
    rewrite (Nat.mul_comm 8 (ch_key_bytes (k_chain cur))). reflexivity. }
  split; [exact E|]. split; [|exact H].
  eapply rest_inv_set; [exact Hinv|reflexivity..|apply Hinv|apply Hinv|].
  intros k Hk. cbn [set_keys o_keys] in Hk. eapply store_key_in in Hk; [|exact E].
  destruct Hk as [->|Hk]; [split; auto|]. apply Hinv. exact Hk.
Qed.

Lemma osnma_validate_key_inv h o o' svn g hk mk : Forall op_ok h ->
  rest_inv h o -> last_call_at h svn g -> subframe_received h svn g hk mk ->
  osnma_validate_key o mk g = Ok o' -> rest_inv h o'.
Proof.
  intros Hok Hinv Hlast Hsf H.
  destruct (osnma_validate_key_cases _ _ _ _ _ _ _ Hok Hinv Hsf H)
    as [->|(cur & new & ks & _ & _ & Hnok & Htrust & Hng & _ & Hin & _ & Hinv' & Ht)]; [exact Hinv|].
  rewrite <- Hng in Hlast, Hsf.
  exact (process_tags_inv h new svn hk mk Hok Hnok Htrust Hlast Hsf Hin _ _ Hinv' Ht).
Qed.

(** The storing of the MACK message and of the DSM block of a subframe, and the DSM that this
    completes, if any. *)
Lemma subframe_stored h o svn g hk mk ms cd d : Forall op_ok h ->
  rest_inv h o -> subframe_received h svn g hk mk ->
  mack_store (o_mack o) mk svn g (nma_status (nth 0 hk 0)) = Ok ms ->
  dsm_feed (o_dsm o) (nth 1 hk 0) (skipn 2 hk) = Ok (cd, d) ->
  rest_inv h (set_dsm cd (set_mack ms o)) /\
  forall m, d = Some m -> dsm_received h (dm_id m) (dm_data m) /\
    dm_type m = if dm_id m <? 12 then DsmKroot else DsmPkr.
Proof.
  intros Hok Hinv Hsf E0 E2.
  destruct (subframe_received_bytes _ _ _ _ _ Hok Hsf) as ((Hlen & Hhk) & _).
  assert (Hbyte : forall i, (i < 15)%nat -> is_byte (nth i hk 0)).
  { intros i Hi. rewrite Forall_forall in Hhk. apply Hhk. apply nth_In. lia. }
  destruct (ri_mack _ _ Hinv) as (its & Hms & Hits). destruct (ri_dsm _ _ Hinv) as (bl & Hbl & Hblr).
  (* the MACK storage *)
  set (x := mkItem mk svn g (nma_status (nth 0 hk 0))).
  destruct (store_item_spec HS _ _ x Hms) as (ms' & Em & Hms'). unfold store_item in Em. cbn [x it_message it_svn it_gst it_status] in Em.
  rewrite Em in E0. injection E0 as <-.
  assert (Hx : item_received h x).
  { exists hk. split; [exact Hsf|]. cbn [x it_status]. symmetry. apply status_of_eq; auto.
    apply Hbyte. lia. }
  (* the DSM collector *)
  set (b := mkBlock (nth 1 hk 0) (skipn 2 hk)).
  assert (Hb : block_received h b).
  { split.
    - split; cbn [b b_header b_data]; [apply Hbyte; lia|rewrite skipn_length; lia].
    - exists svn, g, hk, mk. auto. }
  assert (Hbok : Forall block_ok (dsm_run bl)).
  { apply Forall_dsm_run. eapply Forall_impl; [|exact Hblr]. intros y Hy. apply Hy. }
  destruct (dsm_feed_spec bl (o_dsm o) b Hbok (proj1 Hb) Hbl) as (cd' & out & Ed & Hout & Hcd).
  cbn [b b_header b_data] in Ed. rewrite Ed in E2. apply (f_equal (fun z => match z with Ok p => p | Panic => (cd, d) end)) in E2.
  apply pair_equal_spec in E2. destruct E2 as (-> & ->).
  split.
  { destruct Hinv as [I1 I2 I3 I4 I5 I6 I7]. constructor; auto.
    - exists (bl ++ [b]). split; [exact Hcd|]. apply Forall_app. split; auto.
    - exists (its ++ [x]). split; [|apply Forall_app; split; auto].
      rewrite stretches_snoc. exact Hms'. }
  intros m ->.
  (* a complete DSM *)
  cbn [option_map] in Hout. symmetry in Hout. unfold dsm_out in Hout.
  destruct (expected_dsm_sound _ _ _ _ _ Hout) as (Hid & Hpkr & bs & b0 & B1 & B2 & B3 & B4).
  split.
  { exists (map b_data bs). split; [now rewrite B2, flat_map_concat_map|]. split.
    - rewrite map_length. rewrite <- B3. f_equal.
      rewrite B2. destruct bs as [|b0' bs]; [discriminate|]. injection B1 as ->. cbn [flat_map].
      rewrite app_nth1; [reflexivity|].
      destruct (B4 0%nat b0 eq_refl) as (Hin & _). apply in_app_or in Hin.
      assert (block_ok b0) as (_ & ->); [|lia].
      destruct Hin as [Hin|[<-|[]]]; [|apply Hb]. rewrite Forall_forall in Hblr. apply Hblr. exact Hin.
    - intros i c Hc. rewrite nth_error_map in Hc. destruct (nth_error bs i) as [c'|] eqn:Ec; [|discriminate].
      cbn in Hc. injection Hc as <-. destruct (B4 i c' Ec) as (Hin & Hcid & Hnum).
      assert (Hcr : block_received h c').
      { apply in_app_or in Hin. destruct Hin as [Hin|[<-|[]]]; [|exact Hb]. rewrite Forall_forall in Hblr. auto. }
      destruct Hcr as (_ & svn' & g' & hk' & mk' & C1 & C2 & C3). exists svn', g', hk', mk'.
      split; [exact C1|]. split; [|exact C3]. rewrite C2. unfold b_dsm, b_num in Hcid, Hnum. lia. }
  destruct (dm_type m) eqn:Et; cbn [dsm_type_eqb] in Hpkr; destruct (dm_id m <? 12) eqn:E; auto; lia.
Qed.

Lemma process_subframe_cases o o' svn g hk mk : process_subframe o hk mk svn g = Ok o' ->
  exists ms cd d o2, mack_store (o_mack o) mk svn g (nma_status (nth 0 hk 0)) = Ok ms /\
    dsm_feed (o_dsm o) (nth 1 hk 0) (skipn 2 hk) = Ok (cd, d) /\
    match d with
    | Some m => process_dsm (set_dsm cd (set_mack ms o)) m (nth 0 hk 0) g = Ok o2
    | None => o2 = set_dsm cd (set_mack ms o)
    end /\ osnma_validate_key o2 mk g = Ok o'.
Proof.
  unfold process_subframe. intros H.
  bind_inv H. rename x into h0. bind_inv H. rename x into ms. bind_inv H. rename x into h1.
  apply index_ok in E, E1. assert (E' : nth 0 hk 0 = h0) by now apply nth_error_nth.
  assert (E1' : nth 1 hk 0 = h1) by now apply nth_error_nth.
  bind_inv H. destruct x as (cd, d). bind_inv H. rename x into o2. subst h0 h1.
  exists ms, cd, d, o2. repeat split; auto. destruct d; [exact E3|]. now injection E3 as <-.
Qed.

(** What is held before the key of the subframe is looked at. *)
Lemma subframe_dsm_inv h o o2 svn g hk mk ms cd d : Forall op_ok h ->
  rest_inv h o -> subframe_received h svn g hk mk ->
  mack_store (o_mack o) mk svn g (nma_status (nth 0 hk 0)) = Ok ms ->
  dsm_feed (o_dsm o) (nth 1 hk 0) (skipn 2 hk) = Ok (cd, d) ->
  match d with
  | Some m => process_dsm (set_dsm cd (set_mack ms o)) m (nth 0 hk 0) g = Ok o2
  | None => o2 = set_dsm cd (set_mack ms o)
  end -> rest_inv h o2.
Proof.
  intros Hok Hinv Hsf E0 E1 E2.
  destruct (subframe_stored _ _ _ _ _ _ _ _ _ Hok Hinv Hsf E0 E1) as (Hinv2 & Hd).
  destruct d as [d|]; [|now rewrite E2]. destruct (Hd d eq_refl) as (Hdr & Ht).
  unfold process_dsm in E2. destruct (dm_id d <? 12) eqn:El; rewrite Ht in E2.
  - eapply process_dsm_kroot_inv; [exact Hok|exact Hinv2| |exact Hdr|exact Hsf|exact E2]. lia.
  - eapply process_dsm_pkr_inv; [exact Hok|exact Hinv2| |exact Hdr|exact E2]. lia.
Qed.

Lemma process_subframe_inv h o o' svn g hk mk : Forall op_ok h ->
  rest_inv h o -> last_call_at h svn g -> subframe_received h svn g hk mk ->
  process_subframe o hk mk svn g = Ok o' -> rest_inv h o'.
Proof.
  intros Hok Hinv Hlast Hsf H.
  destruct (process_subframe_cases _ _ _ _ _ _ H) as (ms & cd & d & o2 & E0 & E1 & E2 & E3).
  eapply osnma_validate_key_inv; [exact Hok| |exact Hlast|exact Hsf|exact E3].
  exact (subframe_dsm_inv _ _ _ _ _ _ _ _ _ _ Hok Hinv Hsf E0 E1 E2).
Qed.

(** The subframe collector is not touched by the processing of a subframe. *)
Lemma process_nma_header_sub o hd pkid : o_sub (process_nma_header o hd pkid) = o_sub o.
Proof. unfold process_nma_header. destruct (nma_status hd), (nma_cpks hd); reflexivity. Qed.

Lemma process_dsm_sub o d hd g o' : process_dsm o d hd g = Ok o' -> o_sub o' = o_sub o.
Proof.
  unfold process_dsm. destruct (dm_type d); intros H.
  - unfold process_dsm_kroot in H. bind_inv H. bind_inv H. destruct x0; [|injection H as <-; auto].
    bind_inv H. destruct x0; [|injection H as <-; auto]. bind_inv H. injection H as <-.
    rewrite process_nma_header_sub. reflexivity.
  - unfold process_dsm_pkr in H. bind_inv H. destruct x as [fn| |].
    + unfold process_dsm_pkr_npk in H. destruct (o_merkle o); [|injection H as <-; auto].
      bind_inv H. destruct x; [|injection H as <-; auto]. bind_inv H. injection H as <-. reflexivity.
    + unfold process_dsm_pkr_alert_message in H. destruct (o_merkle o); [|injection H as <-; auto].
      bind_inv H. destruct x; injection H as <-; reflexivity.
    + injection H as <-. reflexivity.
Qed.

Lemma osnma_validate_key_sub o mk g o' : osnma_validate_key o mk g = Ok o' -> o_sub o' = o_sub o.
Proof.
  unfold osnma_validate_key. destruct (current_key (o_keys o)); [|intros H; injection H as <-; auto].
  intros H. bind_inv H. bind_inv H. destruct (gst_cmp _ _); [injection H as <-; auto| |injection H as <-; auto].
  bind_inv H. destruct x1; [|injection H as <-; auto]. bind_inv H. unfold process_tags in H.
  bind_inv H. bind_inv H. bind_inv H. bind_inv H. bind_inv H. injection H as <-. reflexivity.
Qed.

Lemma process_subframe_sub o hk mk svn g o' : process_subframe o hk mk svn g = Ok o' -> o_sub o' = o_sub o.
Proof.
  unfold process_subframe. intros H. bind_inv H. bind_inv H. bind_inv H. bind_inv H. destruct x2 as (cd, d).
  bind_inv H. apply osnma_validate_key_sub in H. rewrite H.
  destruct d; [|injection E3 as <-; reflexivity]. apply process_dsm_sub in E3. rewrite E3. reflexivity.
Qed.

(** ** Steps *)

(** What feeding a word leads to. *)
Lemma feed_osnma_cases h o o' data svn g : Forall op_ok h -> op_ok (FeedOsnma data svn g) ->
  inv h o -> feed_osnma o data svn g = Ok o' ->
  let q := [FeedOsnma data svn g] in
  exists sf, sub_inv (h ++ q) (set_sub sf o) /\ rest_inv (h ++ q) (set_sub sf o) /\
  (o' = set_sub sf o \/
   exists hk mk, subframe_received (h ++ q) svn (subframe_of g) hk mk /\
     process_subframe (set_sub sf o) hk mk svn (subframe_of g) = Ok o').
Proof.
  intros Hok Hx (Hsub & Hrest) H q. unfold feed_osnma in H.
  assert (Hok' : Forall op_ok (h ++ q)) by (apply Forall_app; split; [exact Hok|]; constructor; [exact Hx|constructor]).
  assert (Hmono : rest_inv (h ++ q) o) by (apply rest_inv_mono; auto).
  assert (Hz : forallb (fun x => x =? 0) data = forallb (Z.eqb 0) data).
  { clear. induction data as [|x l IH]; cbn [forallb]; [reflexivity|]. now rewrite IH, Z.eqb_sym. }
  rewrite Hz in H. destruct (forallb (Z.eqb 0) data) eqn:Ez.
  { injection H as <-. exists (o_sub o). assert (set_sub (o_sub o) o = o) as -> by (destruct o; reflexivity).
    split; [|split; auto]. unfold sub_inv. rewrite osnma_words_app. cbn [q osnma_words flat_map]. rewrite Ez, !app_nil_r. auto. }
  set (w := mkWord data svn g).
  assert (Hw : osnma_words (h ++ q) = osnma_words h ++ [w]).
  { rewrite osnma_words_app. cbn [q osnma_words flat_map]. now rewrite Ez. }
  assert (Hwok : word_ok w) by (destruct Hx as ((X1 & _) & X2 & X3); split; auto).
  pose proof (osnma_words_ok h Hok) as Hwords.
  destruct (subframe_feed_spec (current_run (osnma_words h)) (o_sub o) w) as (sf & Esf & Hsf); auto.
  { now apply Forall_current_run. }
  { intros; eapply current_run_same; eauto. }
  change (subframe_feed (o_sub o) data svn g = Ok (sf, expected_subframe (osnma_words h) w)) in Esf.
  rewrite Esf in H. cbn [bind] in H.
  rewrite <- current_run_snoc, <- Hw in Hsf.
  set (r := expected_subframe (osnma_words h) w) in H.
  assert (Hr : r = expected_subframe (osnma_words h) w) by reflexivity.
  exists sf. split; [exact Hsf|]. split.
  { destruct Hmono as [I1 I2 I3 I4 I5 I6 I7]. constructor; auto. }
  assert (Hsf' : forall hk mk g', r = Some (hk, mk, g') -> subframe_received (h ++ q) svn g' hk mk /\ g' = subframe_of g).
  { intros hk mk g' Er. rewrite Hr in Er. apply expected_subframe_sound in Er.
    destruct Er as (ws & W1 & W2 & W3 & W4 & W5). split; [|exact W4]. exists (ws ++ [w]). rewrite Hw. split; [exact W1|].
    split; [|auto]. intros x Hxin. apply in_app_or in Hxin. destruct Hxin as [Hxin|[<-|[]]]; [|now rewrite W4].
    specialize (W5 x Hxin). unfold same_subframe in W5. apply andb_true_iff in W5. rewrite !Z.eqb_eq in W5.
    rewrite W4. unfold subframe_of. destruct W5 as (-> & ->). reflexivity. }
  clearbody r. destruct r as [((hk, mk), g')|].
  - right. destruct (Hsf' hk mk g' eq_refl) as (Hrec & ->). exists hk, mk. auto.
  - left. now injection H as <-.
Qed.

Lemma feed_osnma_inv h o o' data svn g : Forall op_ok h -> op_ok (FeedOsnma data svn g) ->
  inv h o -> feed_osnma o data svn g = Ok o' -> inv (h ++ [FeedOsnma data svn g]) o'.
Proof.
  intros Hok Hx Hinv H. destruct (feed_osnma_cases _ _ _ _ _ _ Hok Hx Hinv H) as (sf & Hsub & Hrest & [->|(hk & mk & Hrec & Hp)]).
  - now split.
  - set (q := [FeedOsnma data svn g]) in *.
    assert (Hok' : Forall op_ok (h ++ q)) by (apply Forall_app; split; [exact Hok|]; constructor; [exact Hx|constructor]).
    assert (Hlast : last_call_at (h ++ q) svn (subframe_of g)).
    { exists h, data, g. split; auto. }
    split.
    + unfold sub_inv in *. rewrite (process_subframe_sub _ _ _ _ _ _ Hp). exact Hsub.
    + eapply process_subframe_inv; eauto.
Qed.

Lemma step_inv h o o' x : Forall op_ok h -> op_ok x -> inv h o -> step o x = Ok o' -> inv (h ++ [x]) o'.
Proof.
  intros Hok Hx Hinv H. destruct x; cbn [step] in H.
  - eapply feed_inav_inv; eauto.
  - eapply feed_osnma_inv; eauto.
Qed.

Lemma run_snoc o h x : run o (h ++ [x]) = (o' <- run o h ;; step o' x).
Proof.
  unfold run. rewrite fold_outcome_app. destruct (fold_outcome step h o); cbn [bind fold_outcome]; [|reflexivity].
  destruct (step a x); reflexivity.
Qed.

Lemma run_inv h : Forall op_ok h -> forall o, run (osnma_new root user slow) h = Ok o -> inv h o.
Proof.
  induction h as [|x h IH] using rev_ind; intros Hok o H.
  - injection H as <-. apply inv_new.
  - apply Forall_app in Hok. destruct Hok as (Hok & Hx). apply Forall_cons_iff in Hx.
    rewrite run_snoc in H. bind_inv H. eapply step_inv; eauto. apply Hx.
Qed.
End Crypto.

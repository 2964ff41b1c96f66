(** Changes of what is trusted and the lines of the log. *)
From Coq Require Import ZArith List Bool Lia ZifyBool.
From Verif Require Import Model.Prelude Model.Params Model.Gst Model.Svn Model.Bitfields
  Model.Maclt Model.Tesla Model.Merkle Model.Subframe Model.Dsm Model.MackStore Model.Nav Model.Osnma
  Model.Logging Spec.KeySpec Spec.SystemSpec Spec.PanicSpec Spec.TraceSpec
  Proofs.Base Proofs.SystemProofs Proofs.KeyStoreProofs Proofs.LoggingProofs.
Import ListNotations.
Open Scope Z_scope.

Section Crypto.
Context {C : crypto} {B : build} {S : storage}.
Variable mx : option level.

Notation acc := (accounted mx).

Lemma written_l l1 l2 l m : written mx l1 l m -> written mx (l1 ++ l2) l m.
Proof. intros H E. apply in_or_app. left. now apply H. Qed.
Lemma written_r l1 l2 l m : written mx l2 l m -> written mx (l1 ++ l2) l m.
Proof. intros H E. apply in_or_app. right. now apply H. Qed.
Hint Resolve written_l written_r : core.

Lemma acc_same o o' ls : same_trust o o' -> acc o ls o'.
Proof. intros (H1 & H2 & H3). constructor; rewrite ?H1, ?H2, ?H3; auto. Qed.

Lemma acc_refl o ls : acc o ls o.
Proof. apply acc_same. repeat split. Qed.

Lemma acc_trans o l1 o1 l2 o2 : acc o l1 o1 -> acc o1 l2 o2 -> acc o (l1 ++ l2) o2.
Proof.
  intros [A1 A2 A3 A4 A5 A6] [B1 B2 B3 B4 B5 B6]. constructor.
  - destruct B1 as [->|(-> & B1)]; [|right; auto]. destruct A1 as [->|(-> & A1)]; auto.
  - intros i k Hk. destruct (B2 i k Hk) as [H|[(x & H)|[H|H]]]; [|right; eauto|right; eauto|right; eauto 6].
    destruct (A2 i k H) as [H'|[(x & H')|[H'|H']]]; [auto|right; eauto|right; eauto|right; eauto 6].
  - intros i k Hk. destruct (A3 i k Hk) as [H|[H|[H|[(x & H)|(x & H)]]]]; [|right; eauto|right; eauto|right; eauto 6|right; eauto 8].
    destruct (B3 i k H) as [H'|[H'|[H'|[(x & H')|(x & H')]]]]; [auto|right; eauto|right; eauto|right; eauto 6|right; eauto 8].
  - destruct B4 as [->|[(x & H)|H]]; [|right; eauto|right; eauto].
    destruct A4 as [->|[(x & H)|H]]; [auto|right; eauto|right; eauto].
  - intros k Hk. destruct (B5 k Hk) as [H|(x & H1 & H)]; [|right; eauto].
    destruct (A5 k H) as [H'|(x & H1 & H')]; [auto|right; eauto].
  - intros k Hk. destruct (A6 k Hk) as [H|[H|[(x & H1 & H)|(H & x & H1 & H2)]]]; [|right; eauto|right; eauto 6|right; right; right; eauto 6].
    destruct (B6 k H) as [H'|[H'|[(x & H1 & H')|(H' & x & H1 & H2)]]]; [auto|right; eauto|right; eauto 6|right; right; right; eauto 6].
Qed.

Lemma acc_more o l1 l2 o' : acc o l2 o' -> acc o (l1 ++ l2) o'.
Proof. intros H. exact (acc_trans _ _ _ _ _ (acc_refl o l1) H). Qed.

Lemma acc_incl o l1 l2 o' : incl l1 l2 -> acc o l1 o' -> acc o l2 o'.
Proof.
  intros Hi [A1 A2 A3 A4 A5 A6].
  assert (W : forall l m, written mx l1 l m -> written mx l2 l m) by (intros l m H E; apply Hi, H, E). constructor.
  - destruct A1 as [->|(-> & A1)]; auto.
  - intros i k H. destruct (A2 i k H) as [H'|[(x & H')|[H'|H']]]; [auto|right; eauto|right; eauto|right; eauto 6].
  - intros i k H. destruct (A3 i k H) as [H'|[H'|[H'|[(x & H')|(x & H')]]]]; [auto|right; eauto|right; eauto|right; eauto 6|right; eauto 8].
  - destruct A4 as [->|[(x & H)|H]]; [auto|right; eauto|right; eauto].
  - intros k H. destruct (A5 k H) as [H'|(x & H1 & H')]; [auto|right; eauto].
  - intros k H. destruct (A6 k H) as [H'|[H'|[(x & H1 & H')|(H' & x & H1 & H2)]]]; [auto|right; eauto|right; eauto 6|right; right; right; eauto 6].
Qed.
Lemma acc_trans' o l o1 o2 : acc o l o1 -> acc o1 l o2 -> acc o l o2.
Proof. intros H1 H2. apply (acc_incl o (l ++ l)); [intros x H; apply in_app_iff in H; tauto|]. eapply acc_trans; eauto. Qed.

Lemma lbind_inv {A D} (x : logging A) (f : A -> logging D) ls d : lbind x f = Ok (ls, d) ->
  exists l1 a l2, x = Ok (l1, a) /\ f a = Ok (l2, d) /\ ls = l1 ++ l2.
Proof.
  unfold lbind. destruct x as [(l1 & a)|]; [|discriminate]. destruct (f a) as [(l2 & b)|] eqn:E; [|discriminate].
  intros H. injection H as <- <-. exists l1, a, l2. auto.
Qed.
Lemma log_inv l m ls u : log mx l (Ok m) = Ok (ls, u) -> written mx ls l m.
Proof. unfold log, written. destruct (enabled mx l); [|discriminate]. cbn [bind]. intros H _. injection H as <- _. now left. Qed.
Lemma quiet_inv {A} (x : outcome A) ls a : quiet x = Ok (ls, a) -> ls = [] /\ x = Ok a.
Proof. unfold quiet. destruct x as [y|]; [|discriminate]. cbn [bind]. intros H. injection H as <- <-. auto. Qed.
Lemma done_inv {A} (x : A) ls a : done x = Ok (ls, a) -> ls = [] /\ a = x.
Proof. unfold done. intros H. injection H as <- <-. auto. Qed.

Tactic Notation "linv" hyp(H) "as" ident(l1) ident(a) ident(l2) ident(H1) ident(H2) :=
  apply lbind_inv in H; destruct H as (l1 & a & l2 & H1 & H2 & ->).
Ltac dinv H := apply done_inv in H; destruct H as (-> & ->).

(** A function of which the value does not depend on the log keeps what is trusted. *)
Lemma plain_inv {A} (x : logging A) ls a y : x = Ok (ls, a) -> plain x = y -> y = Ok a.
Proof. intros -> <-. reflexivity. Qed.

Lemma alert_acc o ls o' : alert_message_received_log mx o = Ok (ls, o') -> acc o ls o'.
Proof.
  unfold alert_message_received_log. intros H. linv H as l1 u l2 H1 H2. dinv H2. apply log_inv in H1.
  apply (written_l _ []) in H1. constructor; cbn [set_keys set_pub set_merkle o_merkle o_keys o_pub keys_empty pubs_empty ks_cif ks_k0 ks_k1].
  - right. auto.
  - intros [|[|i]] k Hk; [discriminate Hk..|destruct Hk].
  - auto.
  - auto.
  - intros k [Hk|Hk]; discriminate Hk.
  - auto.
Qed.

Lemma keys_acc o ks ls :
  (forall i k, in_place ks i k -> in_place (o_keys o) i k \/ (exists old, written mx ls LInfo (LgKeyValidated k old)) \/
    written mx ls LInfo (LgStoringKroot k i) \/ written mx ls LInfo (LgOverwritingKroot k i)) ->
  (forall i k, in_place (o_keys o) i k -> in_place ks i k \/ written mx ls LWarn LgAlert \/ written mx ls LWarn (LgRevokingKey k) \/
    (exists new, written mx ls LInfo (LgKeyValidated new k)) \/ (exists new, written mx ls LInfo (LgOverwritingKroot new i))) ->
  (ks_cif ks = ks_cif (o_keys o) \/ (exists pkid, written mx ls LInfo (LgKrootVerified pkid)) \/ written mx ls LWarn LgAlert) ->
  acc o ls (set_keys ks o).
Proof. intros H1 H2 H3. constructor; cbn [set_keys o_merkle o_keys o_pub]; auto. Qed.

Lemma keys_revoke_acc o cid ls ks : keys_revoke_log mx (o_keys o) cid = Ok (ls, ks) -> acc o ls (set_keys ks o).
Proof.
  unfold keys_revoke_log. intros H. linv H as l1 k0 l2 H0 H1. linv H1 as l3 k1 l4 H1 H2. dinv H2.
  assert (Hr : forall (k : option tkey) l r, match k with
             | Some key => if ch_id (k_chain key) =? cid
                           then lbind (log mx LWarn (Ok (LgRevokingKey key))) (fun _ => done None)
                           else done k
             | None => done None
             end = Ok (l, r) -> r = k \/ (r = None /\ forall x, k = Some x -> written mx l LWarn (LgRevokingKey x))).
  { intros [k|] l' r H'; [|dinv H'; auto]. destruct (ch_id (k_chain k) =? cid); [|dinv H'; auto].
    linv H' as l5 u l6 H2 H3. apply log_inv in H2. dinv H3. right. split; [reflexivity|].
    intros x Hx. injection Hx as <-. auto. }
  apply Hr in H0. apply Hr in H1. clear Hr.
  apply keys_acc; cbn [ks_cif]; [| |auto]; intros [|[|i]] k; unfold in_place; cbn [ks_k0 ks_k1]; [intros Hk; left..|intros Hk|intros Hk|intros []].
  - destruct H0 as [->|(-> & _)]; [auto|discriminate Hk].
  - destruct H1 as [->|(-> & _)]; [auto|discriminate Hk].
  - destruct Hk.
  - destruct H0 as [->|(-> & H0)]; [auto|]. right. right. left. apply written_l. now apply H0.
  - destruct H1 as [->|(-> & H1)]; [auto|]. right. right. left. apply written_r, written_l. now apply H1.
Qed.

Lemma pubs_revoke_none ps pk ls ps' : pubs_ok ps -> ps_current ps = Some pk ->
  pubs_revoke_log mx ps (pk_id pk) = Ok (ls, ps') -> ps' = ps.
Proof.
  intros Hok Hc H. pose proof (plain_inv _ _ _ _ H (pubs_revoke_plain mx ps (pk_id pk))) as E.
  rewrite (pubs_revoke_id _ _ Hok Hc) in E. congruence.
Qed.

Lemma process_nma_header_acc o hd pk ls o' : pubs_ok (o_pub o) -> ps_current (o_pub o) = Some pk ->
  process_nma_header_log mx o hd (pk_id pk) = Ok (ls, o') -> acc o ls o'.
Proof.
  intros Hok Hc H. unfold process_nma_header_log in H. linv H as l1 o1 l2 H1 H2. apply acc_trans with (o1 := o1).
  - clear H2. destruct (nma_status hd).
    + linv H1 as l3 u l4 H3 H4. dinv H4. apply acc_refl.
    + linv H1 as l3 u l4 H3 H4. dinv H4. apply acc_refl.
    + dinv H1. apply acc_refl.
    + linv H1 as l3 u l4 H3 H4. apply acc_more. clear H3. destruct (nma_cpks hd); try (dinv H4; apply acc_refl).
      * linv H4 as l5 ks l6 H5 H6. dinv H6. rewrite app_nil_r. eapply keys_revoke_acc, H5.
      * linv H4 as l5 ps l6 H5 H6. apply acc_more. cbv zeta in H6. linv H6 as l7 ks l8 H7 H8. dinv H8. rewrite app_nil_r.
        apply (pubs_revoke_none _ _ _ _ Hok Hc) in H5. rewrite H5 in *.
        assert (E : set_pub (o_pub o) o = o) by (destruct o; reflexivity). rewrite E in *. eapply keys_revoke_acc, H7.
  - clear H1. cbv zeta in H2. destruct (nma_cpks hd); try (dinv H2; apply acc_refl);
      linv H2 as l3 u l4 H3 H4; try (dinv H4; apply acc_refl).
    apply acc_more. now apply alert_acc.
Qed.

Lemma store_kroot_acc o key hd g ls ks pkid l : store_kroot_log mx (o_keys o) key hd g = Ok (ls, ks) ->
  written mx l LInfo (LgKrootVerified pkid) -> incl ls l -> acc o l (set_keys ks o).
Proof.
  intros H Hv Hl. unfold store_kroot_log in H. linv H as l1 kk l2 H0 H1. destruct kk as (k0 & k1). dinv H1.
  rewrite app_nil_r in Hl.
  assert (Hw : forall m, written mx l1 LInfo m -> written mx l LInfo m) by (intros m Hm E; apply Hl, Hm, E).
  apply keys_acc; cbn [ks_cif]; [| |right; left; exists pkid; exact Hv];
    intros i k; unfold in_place; cbn [ks_k0 ks_k1]; intros Hk;
    (destruct (has_chain_id (ks_k0 (o_keys o)) (ch_id (k_chain key)));
      [apply done_inv in H0; destruct H0 as (_ & E); apply pair_equal_spec in E; destruct E as (-> & ->); auto|]);
    (destruct (has_chain_id (ks_k1 (o_keys o)) (ch_id (k_chain key)));
      [apply done_inv in H0; destruct H0 as (_ & E); apply pair_equal_spec in E; destruct E as (-> & ->); auto|]);
    (destruct (ks_k0 (o_keys o)) as [x0|] eqn:E0; [destruct (ks_k1 (o_keys o)) as [x1|] eqn:E1; [destruct (ch_id (k_chain x0) =? nma_chain_id hd)|]|]);
      linv H0 as l3 u l4 H2 H3; apply log_inv in H2; apply done_inv in H3; destruct H3 as (-> & E); apply pair_equal_spec in E; destruct E as (-> & ->);
      apply (written_l _ []), Hw in H2;
      (destruct i as [|[|i]]; [| |destruct Hk]); try discriminate Hk; auto; try (injection Hk as <-); eauto 8.
Qed.

Lemma make_current_acc o pkid ps l1 : pubs_ok (o_pub o) ->
  (has_pkid (ps_current (o_pub o)) pkid = false -> written mx l1 LInfo LgNextPubkeySelected) ->
  written mx l1 LInfo (LgKrootVerified pkid) ->
  make_pkid_current (o_pub o) pkid = Ok ps -> acc o l1 (set_pub ps o).
Proof.
  intros Hok Hs Hk H. unfold make_pkid_current in H. bind_inv H. clear E.
  destruct (has_pkid (ps_current (o_pub o)) pkid) eqn:E1.
  { injection H as <-. apply acc_same. repeat split. }
  destruct (has_pkid (ps_next (o_pub o)) pkid) eqn:E2; [|discriminate]. bind_inv H. bind_inv H. injection H as <-.
  unfold unwrap in E. destruct (ps_current (o_pub o)) as [c|] eqn:Ec; [|discriminate]. injection E as <-.
  apply assert_ok' in E0.
  constructor; cbn [set_pub o_merkle o_keys o_pub]; auto; unfold held_pub; cbn [ps_current ps_next]; intros pk [Hpk|Hpk]; auto; try discriminate Hpk.
  rewrite Ec in Hpk. injection Hpk as <-. right. right. right. split; [auto|]. exists pkid. split; [lia|exact Hk].
Qed.

Lemma process_dsm_kroot_acc o d hd g ls o' : stores_ok o -> process_dsm_kroot_log mx o d hd g = Ok (ls, o') -> acc o ls o'.
Proof.
  intros (Hok & _) H. unfold process_dsm_kroot_log in H. linv H as l1 pkid l2 H0 H1. apply quiet_inv in H0. destruct H0 as (-> & _).
  linv H1 as l3 r l4 Hap H2. destruct r as [pk|]; [|dinv H2; apply acc_refl].
  assert (Hsel : held_pub (o_pub o) pk /\ pk_id pk = pkid /\ (has_pkid (ps_current (o_pub o)) pkid = false -> written mx l3 LInfo LgNextPubkeySelected)).
  { pose proof (plain_inv _ _ _ _ Hap (applicable_pubkey_plain mx _ _)) as Hp.
    destruct (applicable_pubkey_in _ _ _ Hp) as (Hpk & Hid). split; [exact Hpk|]. split; [exact Hid|].
    intros E. unfold applicable_pubkey_log in Hap. linv Hap as l5 u l6 H3 H4. apply quiet_inv in H3. destruct H3 as (-> & _). rewrite E in H4.
    destruct (has_pkid (ps_next (o_pub o)) pkid); [linv H4 as l7 u' l8 H5 H6; apply log_inv in H5; apply written_r, written_l, H5|].
    destruct (ps_current (o_pub o)); linv H4 as l7 u' l8 H5 H6; apply done_inv in H6; destruct H6 as (_ & H6); discriminate H6. }
  clear Hap. destruct Hsel as (Hpk & Hid & Hsel).
  linv H2 as l5 r l6 H3 H4. apply quiet_inv in H3. destruct H3 as (-> & _).
  destruct r as [key|e]; [|linv H4 as l7 u l8 H5 H6; dinv H6; apply acc_refl].
  linv H4 as l7 u l8 Hv H5. apply log_inv in Hv. linv H5 as l9 u' l10 H6 H7. clear H6.
  linv H7 as l11 ps l12 H8 H9. apply quiet_inv in H8. destruct H8 as (-> & Hps). cbv zeta in H9. linv H9 as l13 ks l14 H10 H11.
  cbn [app].
  destruct (make_current_spec _ pk Hok Hpk) as (ps' & Eps' & Hpok & Hcur & _). rewrite Hid, Hps in Eps'. injection Eps' as <-.
  rewrite <- Hid in H11. apply process_nma_header_acc in H11; [|exact Hpok|exact Hcur].
  apply (store_kroot_acc (set_pub ps o) _ _ _ _ _ pkid (l3 ++ l7 ++ l9 ++ l13)) in H10; [|auto|].
  2:{ intros x Hx. rewrite !in_app_iff. auto. }
  apply (make_current_acc o pkid ps (l3 ++ l7 ++ l9 ++ l13) Hok) in Hps; [|auto|auto].
  pose proof (acc_trans' _ _ _ _ Hps H10) as Ha. pose proof (acc_trans _ _ _ _ _ Ha H11) as Hb.
  rewrite <- !app_assoc in Hb. exact Hb.
Qed.

Lemma pubs_acc o ps ls :
  (forall pk, held_pub ps pk -> held_pub (o_pub o) pk \/ exists p, sh_id p = pk_id pk /\ written mx ls LInfo (LgPubkeyVerified p)) ->
  (forall pk, held_pub (o_pub o) pk -> held_pub ps pk \/ exists new, new > pk_id pk /\ written mx ls LWarn (LgPubkeyOverwrites new (pk_id pk))) ->
  acc o ls (set_pub ps o).
Proof.
  intros H1 H2. constructor; cbn [set_pub o_merkle o_keys o_pub]; auto.
  intros pk Hpk. destruct (H2 pk Hpk) as [H|(new & Hn & H)]; [auto|]. right. right. left. eauto.
Qed.

Lemma validate_pkr_id root d pk p : validate_pkr root d = Ok (ROk pk) -> pkr_debug d = Ok p -> sh_id p = pk_id pk.
Proof.
  intros H1 H2. assert (H3 : pkr_new_public_key_id d = Ok (sh_id p)).
  { unfold pkr_debug in H2. repeat bind_inv H2. injection H2 as <-. assumption. }
  clear H2. enough (H2 : pkr_new_public_key_id d = Ok (pk_id pk)) by congruence. clear H3.
  unfold validate_pkr in H1. bind_inv H1. destruct x; try discriminate H1. bind_inv H1.
  match goal with H : match ?y with ROk _ => _ | RErr _ => _ end = _ |- _ => destruct y; [|discriminate H] end.
  unfold pubkey_from_pkr in H1. bind_inv H1. bind_inv H1. bind_inv H1.
  match goal with H : match ?y with NpktEcdsaKey _ => _ | _ => _ end = _ |- _ => destruct y as [t| |]; try discriminate H; destruct t end;
    [|destruct feature_p521; [|discriminate H1]];
    bind_inv H1; bind_inv H1; injection H1 as <-; assumption.
Qed.

Lemma process_dsm_pkr_npk_acc o d ls o' : process_dsm_pkr_npk_log mx o d = Ok (ls, o') -> acc o ls o'.
Proof.
  intros H. unfold process_dsm_pkr_npk_log in H. destruct (o_merkle o) as [root|].
  2:{ linv H as l1 u l2 H1 H2. dinv H2. apply acc_refl. }
  linv H as l1 r l2 H1 H2. apply quiet_inv in H1. destruct H1 as (-> & Hr). destruct r as [pk|e].
  2:{ linv H2 as l3 u l4 H3 H4. dinv H4. apply acc_refl. }
  linv H2 as l3 u l4 H3 H4. linv H4 as l5 ps l6 H5 H6. dinv H6. rewrite app_nil_r. cbn [app].
  assert (Hv : exists p, sh_id p = pk_id pk /\ written mx (l3 ++ l5) LInfo (LgPubkeyVerified p)).
  { unfold log in H3. destruct (enabled mx LInfo) eqn:E.
    - bind_inv H3. bind_inv E0. apply (f_equal (fun x => match x with Ok (l, _) => l | Panic => [] end)) in H3. cbn iota in H3.
      injection E0 as <-. exists x0. split; [eapply validate_pkr_id; eauto|]. intros _. rewrite <- H3. now left.
    - exists (mkPkrShown None 0 [] NpktReserved (pk_id pk) None None). split; [reflexivity|]. intros E'. congruence. }
  clear H3. apply pubs_acc; intros x Hx; unfold store_new_pubkey_log in H5;
    linv H5 as l7 u' l8 H7 H8; apply quiet_inv in H7; destruct H7 as (-> & Hcc); cbv zeta in H8;
    (destruct (ps_current (o_pub o)) as [c|] eqn:Ec;
      [destruct (pk_id pk <? pk_id c); [linv H8 as l9 u2 l10 H9 H10; dinv H10; auto|];
       destruct (pk_id pk =? pk_id c); [dinv H8; auto|];
       destruct (ps_next (o_pub o)) as [n|] eqn:En;
         [destruct (pk_id pk ?= pk_id n) eqn:Ecmp; [dinv H8; auto|linv H8 as l9 u2 l10 H9 H10; dinv H10; auto|
            linv H8 as l9 u2 l10 H9 H10; dinv H10]
         |dinv H8]
      |dinv H8]); unfold held_pub in *; cbn [ps_current ps_next] in *.
  - destruct Hx as [Hx|Hx]; [left; left; congruence|]. injection Hx as <-. auto.
  - destruct Hx as [Hx|Hx]; [left; left; congruence|]. injection Hx as <-. auto.
  - destruct Hx as [Hx|Hx]; [|auto]. injection Hx as <-. auto.
  - apply log_inv in H9. rewrite Ec, En in Hx. destruct Hx as [Hx|Hx]; [auto|]. injection Hx as <-. right. exists (pk_id pk).
    split; [exact Ecmp|]. auto.
  - rewrite Ec, En in Hx. destruct Hx as [Hx|Hx]; [auto|discriminate Hx].
  - rewrite Ec in Hx. destruct Hx as [Hx|Hx]; [discriminate Hx|auto].
Qed.

Lemma process_dsm_acc o d hd g ls o' : stores_ok o -> process_dsm_log mx o d hd g = Ok (ls, o') -> acc o ls o'.
Proof.
  intros Hok H. unfold process_dsm_log in H. destruct (dm_type d); [eapply process_dsm_kroot_acc; eauto|].
  unfold process_dsm_pkr_log in H. linv H as l1 t l2 H1 H2. apply acc_more. clear H1. destruct t.
  - now apply process_dsm_pkr_npk_acc in H2.
  - unfold process_dsm_pkr_alert_message_log in H2. destruct (o_merkle o) as [root|].
    2:{ linv H2 as l3 u l4 H3 H4. dinv H4. apply acc_refl. }
    linv H2 as l3 r l4 H3 H4. apply acc_more. destruct r as [u|e].
    2:{ linv H4 as l5 u l6 H5 H6. dinv H6. apply acc_refl. }
    linv H4 as l5 u' l6 H5 H6. apply acc_more. now apply alert_acc.
  - linv H2 as l3 u l4 H3 H4. dinv H4. apply acc_refl.
Qed.

Lemma osnma_validate_key_acc o mk g ls o' : osnma_validate_key_log mx o mk g = Ok (ls, o') -> acc o ls o'.
Proof.
  intros H. unfold osnma_validate_key_log in H. destruct (current_key (o_keys o)) as [cur|] eqn:Ec.
  2:{ linv H as l1 u l2 H1 H2. dinv H2. apply acc_refl. }
  linv H as l1 kb l2 H1 H2. apply acc_more. clear H1. linv H2 as l3 nk l4 H3 H4. apply acc_more.
  apply quiet_inv in H3. destruct H3 as (_ & Hnk). apply key_from_bitslice_fields in Hnk. destruct Hnk as (Hch & _).
  destruct (gst_cmp (k_gst cur) (k_gst nk)); [dinv H4; apply acc_refl| |linv H4 as l5 u l6 H5 H6; dinv H6; apply acc_refl].
  linv H4 as l5 r l6 H5 H6. apply quiet_inv in H5. destruct H5 as (-> & Hv). destruct r as [key|e].
  2:{ linv H6 as l7 u l8 H7 H8. dinv H8. apply acc_refl. }
  assert (key = nk).
  { unfold validate_key in Hv. destruct (negb _); [discriminate|]. destruct (negb _); [discriminate|]. bind_inv Hv.
    destruct (3000 <? _); [discriminate|]. bind_inv Hv. bind_inv Hv. bind_inv Hv. bind_inv Hv.
    match type of Hv with (if ?b then _ else _) = _ => destruct b; [congruence|discriminate] end. }
  subst nk. clear Hv. linv H6 as l7 u l8 H7 H8. apply log_inv in H7. cbn [app].
  linv H8 as l9 ks l10 H9 H10. apply quiet_inv in H9. destruct H9 as (-> & Hs). cbn [app].
  apply acc_trans with (o1 := set_keys ks o).
  - unfold store_key in Hs. rewrite Hch in Hs. unfold current_key in Ec. destruct (ks_cif (o_keys o)) as [cif|] eqn:Ecif; [|discriminate].
    assert (Hcid : ch_id (k_chain cur) = cif_cid cif).
    { unfold find_key in Ec. destruct (ks_k0 (o_keys o)) as [a|]; [destruct (ch_id (k_chain a) =? cif_cid cif) eqn:E; [injection Ec as <-; lia|]|];
        (destruct (ks_k1 (o_keys o)) as [b|]; [destruct (ch_id (k_chain b) =? cif_cid cif) eqn:E'; [injection Ec as <-; lia|]|]); discriminate Ec. }
    rewrite Hcid in Hs. unfold find_key in Ec. unfold has_chain_id in Hs.
    destruct (ks_k0 (o_keys o)) as [a|] eqn:Ea; [destruct (ch_id (k_chain a) =? cif_cid cif) eqn:E|];
      [|destruct (ks_k1 (o_keys o)) as [b|] eqn:Eb; [destruct (ch_id (k_chain b) =? cif_cid cif) eqn:E'|]; try discriminate Hs
       |destruct (ks_k1 (o_keys o)) as [b|] eqn:Eb; [destruct (ch_id (k_chain b) =? cif_cid cif) eqn:E'|]; try discriminate Hs];
      injection Hs as <-; injection Ec as ->; (apply keys_acc; cbn [ks_cif]; [| |left; congruence]); unfold in_place; cbn [ks_k0 ks_k1];
      rewrite ?Ea, ?Eb; (intros [|[|i]] k Hk; [| |destruct Hk]); auto; try discriminate Hk; injection Hk as <-; eauto 8.
  - unfold process_tags_log in H10. linv H10 as m1 a1 n1 J1 K1. linv K1 as m2 a2 n2 J2 K2. linv K2 as m3 a3 n3 J3 K3.
    linv K3 as m4 a4 n4 J4 K4. linv K4 as m5 a5 n5 J5 K5. dinv K5. apply acc_same. repeat split.
Qed.

Lemma step_acc o x ls o' : stores_ok o -> step_log mx o x = Ok (ls, o') -> acc o ls o'.
Proof.
  intros Hok H. destruct x as [word svn g b|data svn g]; cbn [step_log] in H.
  - unfold feed_inav_log in H. linv H as l1 n l2 H1 H2. dinv H2. apply acc_same. repeat split.
  - unfold feed_osnma_log in H. destruct (forallb _ _); [dinv H; apply acc_refl|].
    linv H as l1 sr l2 H1 H2. destruct sr as (sf & r). cbv zeta in H2. apply acc_more. clear H1.
    assert (Hs : same_trust o (set_sub sf o)) by (repeat split). apply (same_trust_stores _ _ Hs) in Hok.
    apply (acc_same _ _ []) in Hs. apply (acc_trans _ [] _ _ _ Hs). clear Hs. generalize dependent (set_sub sf o). clear o. intros o Hok H2.
    destruct r as [((hkroot & mack) & sg)|]; [|dinv H2; apply acc_refl].
    unfold process_subframe_log in H2. linv H2 as l3 hd l4 H3 H4. apply acc_more. clear H3.
    linv H4 as l5 ms l6 H5 H6. cbv zeta in H6. apply acc_more. clear H5.
    linv H6 as l7 dh l8 H7 H8. apply acc_more. clear H7. linv H8 as l9 cdd l10 H9 H10. destruct cdd as (cd & d). cbv zeta in H10. apply acc_more. clear H9.
    assert (Hs : same_trust o (set_dsm cd (set_mack ms o))) by (repeat split). apply (same_trust_stores _ _ Hs) in Hok.
    apply (acc_same _ _ []) in Hs. apply (acc_trans _ [] _ _ _ Hs). clear Hs.
    generalize dependent (set_dsm cd (set_mack ms o)). clear o. intros o Hok H10.
    linv H10 as l11 o1 l12 H11 H12. apply acc_trans with (o1 := o1); [|now apply osnma_validate_key_acc in H12].
    destruct d as [d|]; [|dinv H11; apply acc_refl]. eapply process_dsm_acc; eauto.
Qed.

End Crypto.

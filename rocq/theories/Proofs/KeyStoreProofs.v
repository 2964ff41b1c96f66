(** The public key store and the TESLA key store. *)
From Coq Require Import ZArith List Bool Lia ZifyBool ZifyNat.
From Verif Require Import Model.Prelude Model.Params Model.Gst Model.Svn Model.Bitfields
  Model.Tesla Model.Merkle Model.Subframe Model.Dsm Model.MackStore Model.Nav Model.Osnma
  Spec.TimeSpec Spec.TeslaSpec Spec.KrootSpec Spec.MerkleSpec Spec.KeySpec Spec.SystemSpec
  Proofs.Base Proofs.GstProofs Proofs.TeslaProofs Proofs.KrootProofs Proofs.MerkleProofs
  Proofs.LayoutProofs Proofs.SystemProofs.
Import ListNotations.
Open Scope Z_scope.

(** No two keys of the same chain. *)
Definition keys_distinct (ks : key_store) : Prop :=
  forall k0 k1, ks_k0 ks = Some k0 -> ks_k1 ks = Some k1 -> chain_of k0 <> chain_of k1.

Lemma has_chain_id_iff k c : has_chain_id k c = true <-> exists x, k = Some x /\ chain_of x = c.
Proof.
  unfold has_chain_id, chain_of. destruct k as [x|]; [rewrite Z.eqb_eq|].
  - split; [eauto|]. intros (y & E & H). congruence.
  - split; [discriminate|]. intros (y & E & _). discriminate.
Qed.
Lemma has_chain_id_false k c : has_chain_id k c = false <-> forall x, k = Some x -> chain_of x <> c.
Proof.
  rewrite <- not_true_iff_false, has_chain_id_iff. split.
  - intros H x -> E. apply H. eauto.
  - intros H (x & -> & E). exact (H x eq_refl E).
Qed.

Lemma held_unique ks a b : keys_distinct ks -> held ks a -> held ks b -> chain_of a = chain_of b -> a = b.
Proof.
  intros Hd [Ha|Ha] [Hb|Hb] E; try congruence.
  - now elim (Hd a b Ha Hb).
  - symmetry in E. now elim (Hd b a Hb Ha).
Qed.

(** ** KROOT *)

Lemma store_kroot_distinct ks key hd g : keys_distinct ks -> keys_distinct (store_kroot ks key hd g).
Proof.
  intros H. unfold store_kroot.
  destruct (has_chain_id (ks_k0 ks) _) eqn:E0; [exact H|].
  destruct (has_chain_id (ks_k1 ks) _) eqn:E1; [exact H|].
  rewrite has_chain_id_false in E0, E1.
  destruct (ks_k0 ks) as [k0|] eqn:K0; [destruct (ks_k1 ks) as [k1|] eqn:K1; [destruct (_ =? _)|]|];
    intros a b Ha Hb; cbn [ks_k0 ks_k1] in Ha, Hb.
  - injection Ha as <-. injection Hb as <-. now apply E0.
  - injection Ha as <-. injection Hb as <-. intros E. now apply (E1 k1).
  - injection Ha as <-. injection Hb as <-. now apply E0.
  - injection Ha as <-. intros E. now apply (E1 b).
Qed.

(** The keys after a KROOT. *)
Lemma store_kroot_held ks key hd g k : held (store_kroot ks key hd g) k -> held ks k \/ k = key.
Proof. intros H. apply store_kroot_in in H. unfold held. tauto. Qed.

(** The KROOT of a held chain changes no key. *)
Lemma store_kroot_same ks key hd g k : held ks k -> chain_of k = chain_of key ->
  ks_k0 (store_kroot ks key hd g) = ks_k0 ks /\ ks_k1 (store_kroot ks key hd g) = ks_k1 ks.
Proof.
  intros Hk E. unfold store_kroot.
  destruct (has_chain_id (ks_k0 ks) _) eqn:E0; [tauto|].
  destruct (has_chain_id (ks_k1 ks) _) eqn:E1; [tauto|].
  rewrite has_chain_id_false in E0, E1. destruct Hk as [Hk|Hk].
  - now elim (E0 k Hk).
  - now elim (E1 k Hk).
Qed.

(** After a KROOT the key is held, or there was already one of the chain. *)
Lemma store_kroot_stored ks key hd g : exists k, held (store_kroot ks key hd g) k /\ chain_of k = chain_of key.
Proof.
  unfold store_kroot.
  destruct (has_chain_id (ks_k0 ks) _) eqn:E0.
  { apply has_chain_id_iff in E0. destruct E0 as (x & E0 & E). exists x. split; [now left|exact E]. }
  destruct (has_chain_id (ks_k1 ks) _) eqn:E1.
  { apply has_chain_id_iff in E1. destruct E1 as (x & E1 & E). exists x. split; [now right|exact E]. }
  exists key. split; [|reflexivity].
  destruct (ks_k0 ks) as [k0|]; [destruct (ks_k1 ks) as [k1|]; [destruct (_ =? _)|]|].
  - now right.
  - now left.
  - now right.
  - now left.
Qed.

(** The key of the chain in force is not discarded. *)
Lemma store_kroot_keeps ks key hd g k : keys_distinct ks -> held ks k ->
  chain_of k = nma_chain_id hd -> held (store_kroot ks key hd g) k.
Proof.
  intros Hd Hk E. unfold store_kroot.
  destruct (has_chain_id (ks_k0 ks) _) eqn:E0; [exact Hk|].
  destruct (has_chain_id (ks_k1 ks) _) eqn:E1; [exact Hk|].
  destruct (ks_k0 ks) as [k0|] eqn:K0; [destruct (ks_k1 ks) as [k1|] eqn:K1|].
  - destruct (ch_id (k_chain k0) =? nma_chain_id hd) eqn:Ec.
    + left. cbn [ks_k0]. destruct Hk as [Hk|Hk]; [congruence|].
      apply Z.eqb_eq in Ec. exfalso. apply (Hd k0 k K0 Hk). unfold chain_of in *. lia.
    + right. cbn [ks_k1]. destruct Hk as [Hk|Hk]; [|congruence].
      apply Z.eqb_neq in Ec. exfalso. apply Ec. unfold chain_of in *. congruence.
  - left. cbn [ks_k0]. destruct Hk as [Hk|Hk]; congruence.
  - right. cbn [ks_k1]. destruct Hk as [Hk|Hk]; congruence.
Qed.

(** ** New keys *)

Lemma store_key_held ks key : (exists k, held ks k /\ chain_of k = chain_of key) ->
  exists ks', store_key ks key = Ok ks'.
Proof.
  intros (k & Hk & E). unfold store_key.
  destruct (has_chain_id (ks_k0 ks) _) eqn:E0; [eauto|].
  destruct (has_chain_id (ks_k1 ks) _) eqn:E1; [eauto|].
  rewrite has_chain_id_false in E0, E1. destruct Hk as [Hk|Hk].
  - now elim (E0 k Hk).
  - now elim (E1 k Hk).
Qed.

Lemma store_key_spec ks key ks' : keys_distinct ks -> store_key ks key = Ok ks' ->
  keys_distinct ks' /\ held ks' key /\ ks_cif ks' = ks_cif ks /\
  (forall k, held ks' k -> k = key \/ (held ks k /\ chain_of k <> chain_of key)) /\
  (forall k, held ks k -> chain_of k <> chain_of key -> held ks' k).
Proof.
  intros Hd H. unfold store_key in H.
  destruct (has_chain_id (ks_k0 ks) _) eqn:E0.
  - injection H as <-. apply has_chain_id_iff in E0. destruct E0 as (x & E0 & E).
    assert (Hk1 : forall k, ks_k1 ks = Some k -> chain_of k <> chain_of key).
    { intros k Hk E'. apply (Hd x k E0 Hk). unfold chain_of in *. congruence. }
    split; [|split; [now left|split; [reflexivity|split]]].
    + intros a b Ha Hb. cbn [ks_k0 ks_k1] in *. injection Ha as <-. intros E'. now apply (Hk1 b).
    + intros k [Hk|Hk]; cbn [ks_k0 ks_k1] in Hk; [left; congruence|]. right. split; [now right|auto].
    + intros k [Hk|Hk] Hne; cbn [ks_k0 ks_k1].
      * exfalso. apply Hne. unfold chain_of in *. congruence.
      * now right.
  - destruct (has_chain_id (ks_k1 ks) _) eqn:E1; [|discriminate H]. injection H as <-.
    apply has_chain_id_iff in E1. destruct E1 as (x & E1 & E). rewrite has_chain_id_false in E0.
    split; [|split; [now right|split; [reflexivity|split]]].
    + intros a b Ha Hb. cbn [ks_k0 ks_k1] in *. injection Hb as <-. now apply E0.
    + intros k [Hk|Hk]; cbn [ks_k0 ks_k1] in Hk; [|left; congruence]. right. split; [now left|now apply E0].
    + intros k [Hk|Hk] Hne; cbn [ks_k0 ks_k1].
      * now left.
      * exfalso. apply Hne. unfold chain_of in *. congruence.
Qed.

(** ** Revocation *)

Lemma revoke_slot (k : option tkey) c x :
  (if has_chain_id k c then None else k) = Some x <-> k = Some x /\ chain_of x <> c.
Proof.
  destruct (has_chain_id k c) eqn:E.
  - apply has_chain_id_iff in E. destruct E as (y & -> & E). split; [discriminate|].
    intros (Hy & Hne). elim Hne. congruence.
  - rewrite has_chain_id_false in E. split; [|tauto]. intros ->. split; [reflexivity|now apply E].
Qed.
Lemma keys_revoke_held ks c k : held (keys_revoke ks c) k <-> held ks k /\ chain_of k <> c.
Proof. unfold held, keys_revoke. cbn [ks_k0 ks_k1]. rewrite !revoke_slot. tauto. Qed.
Lemma keys_revoke_distinct ks c : keys_distinct ks -> keys_distinct (keys_revoke ks c).
Proof.
  intros H a b Ha Hb. unfold keys_revoke in *. cbn [ks_k0 ks_k1] in *.
  destruct (has_chain_id (ks_k0 ks) c); [discriminate|]. destruct (has_chain_id (ks_k1 ks) c); [discriminate|].
  now apply H.
Qed.

Lemma find_key_spec p ks k : find_key p ks = Some k -> held ks k /\ p k = true.
Proof.
  unfold find_key, held. intros H. destruct (ks_k0 ks) as [k0|] eqn:E0; [destruct (p k0) eqn:P0|].
  - injection H as <-. tauto.
  - destruct (ks_k1 ks) as [k1|]; [|discriminate]. destruct (p k1) eqn:P1; [|discriminate]. injection H as <-. tauto.
  - destruct (ks_k1 ks) as [k1|]; [|discriminate]. destruct (p k1) eqn:P1; [|discriminate]. injection H as <-. tauto.
Qed.
Lemma find_key_none p ks : find_key p ks = None -> forall k, held ks k -> p k = false.
Proof.
  unfold find_key, held. intros H k Hk. destruct (ks_k0 ks) as [k0|] eqn:E0; [destruct (p k0) eqn:P0|].
  - discriminate.
  - destruct Hk as [Hk|Hk]; [congruence|]. rewrite Hk in H. destruct (p k); [discriminate|reflexivity].
  - destruct Hk as [Hk|Hk]; [congruence|]. rewrite Hk in H. destruct (p k); [discriminate|reflexivity].
Qed.

Section Crypto.
Context {C : crypto} {B : build} {S : storage}.

(** ** Public keys *)

Definition pubs_ok (ps : pubkey_store) : Prop :=
  forall n, ps_next ps = Some n -> exists c, ps_current ps = Some c /\ pk_id c < pk_id n.

Lemma pubs_ok_consistent ps : pubs_ok ps -> check_consistency ps = Ok tt.
Proof.
  intros H. unfold check_consistency, assert_, is_none. destruct (ps_next ps) as [n|] eqn:En; [|reflexivity].
  destruct (H n En) as (c & -> & _). reflexivity.
Qed.

Lemma has_pkid_iff k i : has_pkid k i = true <-> exists x, k = Some x /\ pk_id x = i.
Proof.
  unfold has_pkid. destruct k as [x|]; [rewrite Z.eqb_eq|].
  - split; [eauto|]. intros (y & E & H). congruence.
  - split; [discriminate|]. intros (y & E & _). discriminate.
Qed.

Lemma make_current_spec ps pk : pubs_ok ps -> held_pub ps pk ->
  exists ps', make_pkid_current ps (pk_id pk) = Ok ps' /\ pubs_ok ps' /\ ps_current ps' = Some pk /\
    (forall p, held_pub ps' p -> held_pub ps p /\ pk_id pk <= pk_id p) /\
    (forall p, held_pub ps p -> pk_id pk <= pk_id p -> held_pub ps' p).
Proof.
  intros Hok Hpk. unfold make_pkid_current. rewrite (pubs_ok_consistent ps Hok). cbn [bind].
  destruct (has_pkid (ps_current ps) (pk_id pk)) eqn:E0.
  - apply has_pkid_iff in E0. destruct E0 as (c & Ec & Eid).
    assert (c = pk).
    { destruct Hpk as [Hpk|Hpk]; [congruence|]. destruct (Hok pk Hpk) as (c' & Ec' & Hlt).
      assert (c' = c) by congruence. subst. lia. }
    subst c. exists ps. split; [reflexivity|]. split; [exact Hok|]. split; [exact Ec|]. split.
    + intros p Hp. split; [exact Hp|]. destruct Hp as [Hp|Hp]; [assert (p = pk) by congruence; subst; lia|].
      destruct (Hok p Hp) as (c' & Ec' & Hlt). assert (c' = pk) by congruence. subst. lia.
    + auto.
  - destruct Hpk as [Hpk|Hpk].
    { exfalso. rewrite <- not_true_iff_false, has_pkid_iff in E0. apply E0. eauto. }
    destruct (has_pkid (ps_next ps) (pk_id pk)) eqn:E1.
    2: { exfalso. rewrite <- not_true_iff_false, has_pkid_iff in E1. apply E1. eauto. }
    destruct (Hok pk Hpk) as (c & Ec & Hlt). rewrite Ec. unfold unwrap, assert_. cbn [bind].
    rewrite (proj2 (Z.ltb_lt _ _) Hlt). cbn [bind]. exists (mkPubs (ps_next ps) None).
    split; [reflexivity|]. split; [intros n Hn; discriminate Hn|]. split; [exact Hpk|]. split.
    + intros p [Hp|Hp]; cbn [ps_current ps_next] in Hp; [|discriminate]. split; [now right|].
      assert (p = pk) by congruence. subst. lia.
    + intros p [Hp|Hp] Hle; [|left; exact Hp]. assert (p = c) by congruence. subst. lia.
Qed.

Lemma applicable_spec ps i : pubs_ok ps -> exists r, applicable_pubkey ps i = Ok r /\
  match r with
  | Some pk => held_pub ps pk /\ pk_id pk = i
  | None => forall pk, held_pub ps pk -> pk_id pk <> i
  end.
Proof.
  intros Hok. unfold applicable_pubkey. rewrite (pubs_ok_consistent ps Hok). cbn [bind].
  destruct (has_pkid (ps_current ps) i) eqn:E0.
  - pose proof E0 as E. apply has_pkid_iff in E. destruct E as (c & Ec & Eid). exists (ps_current ps).
    split; [reflexivity|]. rewrite Ec. split; [now left|exact Eid].
  - destruct (has_pkid (ps_next ps) i) eqn:E1.
    + pose proof E1 as E. apply has_pkid_iff in E. destruct E as (c & Ec & Eid). exists (ps_next ps).
      split; [reflexivity|]. rewrite Ec. split; [now right|exact Eid].
    + exists None. split; [reflexivity|]. intros pk Hpk Eid.
      rewrite <- not_true_iff_false, has_pkid_iff in E0, E1. destruct Hpk as [Hpk|Hpk]; [apply E0|apply E1]; eauto.
Qed.

Lemma store_new_spec ps pk : pubs_ok ps -> exists ps', store_new_pubkey ps pk = Ok ps' /\ pubs_ok ps' /\
  (forall p, held_pub ps' p -> held_pub ps p \/ (p = pk /\ forall c, ps_current ps = Some c -> pk_id c < pk_id pk)) /\
  (forall c, ps_current ps = Some c -> ps_current ps' = Some c).
Proof.
  intros Hok. unfold store_new_pubkey. rewrite (pubs_ok_consistent ps Hok). cbn [bind].
  eexists. split; [reflexivity|].
  destruct (ps_current ps) as [c|] eqn:Ec.
  2: { assert (En : ps_next ps = None).
       { destruct (ps_next ps) as [n|] eqn:En; [|reflexivity]. destruct (Hok n En) as (c & E & _). congruence. }
       split; [intros n Hn; cbn [ps_next] in Hn; congruence|]. split; [|intros c Hc; discriminate Hc].
       intros p [Hp|Hp]; cbn [ps_current ps_next] in Hp; [|congruence]. right.
       split; [congruence|]. intros c Hc. discriminate Hc. }
  destruct (pk_id pk <? pk_id c) eqn:E1; [split; [exact Hok|split; [tauto|congruence]]|].
  destruct (pk_id pk =? pk_id c) eqn:E2; [split; [exact Hok|split; [tauto|congruence]]|].
  assert (Hlt : pk_id c < pk_id pk) by lia.
  assert (Hnew : pubs_ok (mkPubs (Some c) (Some pk)) /\
    (forall p, held_pub (mkPubs (Some c) (Some pk)) p ->
       held_pub ps p \/ p = pk /\ (forall c0, Some c = Some c0 -> pk_id c0 < pk_id pk)) /\
    (forall c0, Some c = Some c0 -> Some c = Some c0)).
  { split; [|split].
    - intros n Hn. cbn [ps_next ps_current] in *. injection Hn as <-. eauto.
    - intros p [Hp|Hp]; cbn [ps_current ps_next] in Hp; injection Hp as <-; [left; left; exact Ec|].
      right. split; [reflexivity|]. intros c0 E. now injection E as <-.
    - auto. }
  destruct (ps_next ps) as [n|] eqn:En; [destruct (pk_id n <? pk_id pk)|]; [exact Hnew| |exact Hnew].
  split; [exact Hok|]. split; [tauto|]. congruence.
Qed.

(** Revocation after the key with the id is in use does nothing. *)
Lemma pubs_revoke_id ps pk : pubs_ok ps -> ps_current ps = Some pk -> pubs_revoke ps (pk_id pk) = ps.
Proof.
  intros Hok Hc. unfold pubs_revoke. rewrite Hc, Z.ltb_irrefl. destruct (ps_next ps) as [n|] eqn:En; [|reflexivity].
  destruct (Hok n En) as (c & Ec & Hlt). assert (c = pk) by congruence. subst.
  now rewrite (proj2 (Z.ltb_ge _ _)) by lia.
Qed.

(** ** Both stores *)

Definition stores_ok (o : osnma) : Prop := pubs_ok (o_pub o) /\ keys_distinct (o_keys o).

Lemma alert_no_trust o : no_trust (alert_message_received o).
Proof. split; [reflexivity|]. split; intros k [H|H]; discriminate H. Qed.

Lemma no_trust_stores o : no_trust o -> stores_ok o.
Proof.
  intros (H1 & H2 & H3). split.
  - intros n Hn. elim (H2 n). now right.
  - intros a b Ha. elim (H3 a). now left.
Qed.

(** What [process_dsm] can do. *)
Inductive dsm_effect (o : osnma) (d : dsm) (hd : Z) (g : gst) (o' : osnma) : Prop :=
| eff_none : o' = o -> dsm_effect o d hd g o'
| eff_kroot pk key ps :
    dm_type d = DsmKroot -> held_pub (o_pub o) pk ->
    key_from_dsm_kroot hd (dm_data d) (pk_key pk) = Ok (ROk key) ->
    make_pkid_current (o_pub o) (pk_id pk) = Ok ps -> kroot_public_key_id (dm_data d) = Ok (pk_id pk) ->
    o' = process_nma_header (set_keys (store_kroot (o_keys o) key hd g) (set_pub ps o)) hd (pk_id pk) ->
    dsm_effect o d hd g o'
| eff_pubkey root pk ps :
    dm_type d = DsmPkr -> o_merkle o = Some root -> validate_pkr root (dm_data d) = Ok (ROk pk) ->
    store_new_pubkey (o_pub o) pk = Ok ps -> o' = set_pub ps o -> dsm_effect o d hd g o'
| eff_alert root :
    dm_type d = DsmPkr -> o_merkle o = Some root -> validate_alert_message root (dm_data d) = Ok (ROk tt) ->
    o' = alert_message_received o -> dsm_effect o d hd g o'.

Lemma process_dsm_effect o d hd g o' : process_dsm o d hd g = Ok o' -> dsm_effect o d hd g o'.
Proof.
  unfold process_dsm. destruct (dm_type d) eqn:Et; intros H.
  - unfold process_dsm_kroot in H. bind_inv H. bind_inv H. rename x into pkid.
    destruct x0 as [pk|]; [|injection H as <-; now apply eff_none].
    destruct (applicable_pubkey_in _ _ _ E0) as (Hin & Eid). subst pkid.
    bind_inv H. destruct x as [key|e]; [|injection H as <-; now apply eff_none].
    bind_inv H. injection H as <-. now apply eff_kroot with pk key x.
  - unfold process_dsm_pkr in H. bind_inv H. destruct x as [e| |].
    + unfold process_dsm_pkr_npk in H. destruct (o_merkle o) as [root|] eqn:Em; [|injection H as <-; now apply eff_none].
      bind_inv H. destruct x as [pk|e']; [|injection H as <-; now apply eff_none].
      bind_inv H. injection H as <-. now apply eff_pubkey with root pk x.
    + unfold process_dsm_pkr_alert_message in H. destruct (o_merkle o) as [root|] eqn:Em; [|injection H as <-; now apply eff_none].
      bind_inv H. destruct x as [u|e']; [|injection H as <-; now apply eff_none]. destruct u.
      injection H as <-. now apply eff_alert with root.
    + injection H as <-. now apply eff_none.
Qed.

(** What the key of a subframe can do. *)
Inductive key_effect (o : osnma) (mk : list Z) (g : gst) (o' : osnma) : Prop :=
| keff_none : o' = o -> key_effect o mk g o'
| keff_key cur key ks :
    current_key (o_keys o) = Some cur -> validate_key cur key = Ok (ROk key) ->
    gst_cmp (k_gst cur) (k_gst key) = Lt -> k_chain key = k_chain cur -> k_gst key = g ->
    store_key (o_keys o) key = Ok ks -> process_tags (set_keys ks o) key = Ok o' -> key_effect o mk g o'.

Lemma validate_key_same cur new k : validate_key cur new = Ok (ROk k) -> k = new.
Proof.
  unfold validate_key. intros H.
  destruct (negb (chain_eqb (k_chain cur) (k_chain new))); [discriminate|].
  destruct (negb (gst_ltb (k_gst cur) (k_gst new))); [discriminate|].
  bind_inv H. destruct (3000 <? _); [discriminate|]. bind_inv H. bind_inv H. bind_inv H. bind_inv H.
  destruct (bytes_eqb _ _); [|discriminate]. congruence.
Qed.

Lemma key_from_bitslice_fields s g c k : key_from_bitslice s g c = Ok k -> k_chain k = c /\ k_gst k = g.
Proof. unfold key_from_bitslice. intros H. bind_inv H. bind_inv H. injection H as <-. auto. Qed.

Lemma validate_key_effect o mk g o' : osnma_validate_key o mk g = Ok o' -> key_effect o mk g o'.
Proof.
  unfold osnma_validate_key. intros H.
  destruct (current_key (o_keys o)) as [cur|] eqn:Ec; [|injection H as <-; now apply keff_none].
  bind_inv H. bind_inv H. rename x0 into new. destruct (key_from_bitslice_fields _ _ _ _ E0) as (Hch & Hg).
  destruct (gst_cmp (k_gst cur) (k_gst new)) eqn:Ecmp; [injection H as <-; now apply keff_none| |injection H as <-; now apply keff_none].
  bind_inv H. destruct x0 as [nk|e]; [|injection H as <-; now apply keff_none].
  pose proof (validate_key_same _ _ _ E1) as ->. bind_inv H.
  now apply keff_key with cur new x0.
Qed.

Lemma process_tags_trust o key o' : process_tags o key = Ok o' ->
  same_trust o o' /\ o_slow o' = o_slow o /\ o_mack o' = o_mack o /\ o_dsm o' = o_dsm o /\ o_sub o' = o_sub o.
Proof.
  unfold process_tags. intros H. repeat (apply bind_ok in H; destruct H as (? & ? & H)). injection H as <-.
  repeat split.
Qed.

(** What a call can do to what is trusted. *)
Inductive step_effect (o : osnma) (o' : osnma) : Prop :=
| seff_same : same_trust o o' -> step_effect o o'
| seff_subframe o1 o2 hkroot mack g :
    same_trust o o1 -> o_nav o1 = o_nav o -> o_slow o1 = o_slow o ->
    o2 = o1 \/ (exists d, process_dsm o1 d (nth 0 hkroot 0) g = Ok o2) ->
    osnma_validate_key o2 mack g = Ok o' -> step_effect o o'.

Lemma index_nth {A} (l : list A) i x d : index l i = Ok x -> nth i l d = x.
Proof.
  unfold index. destruct (nth_error l i) eqn:E; [|discriminate]. intros H. injection H as <-.
  now apply nth_error_nth.
Qed.

Lemma feed_osnma_effect o data svn g o' : feed_osnma o data svn g = Ok o' -> step_effect o o'.
Proof.
  unfold feed_osnma. intros H. destruct (forallb _ _); [injection H as <-; now apply seff_same|].
  bind_inv H. destruct x as (sf & [[[hk mk] sg]|]).
  2: { injection H as <-. now apply seff_same. }
  unfold process_subframe in H. bind_inv H. bind_inv H. bind_inv H. bind_inv H. destruct x2 as (cd & d).
  bind_inv H. apply seff_subframe with (o1 := set_dsm cd (set_mack x0 (set_sub sf o))) (o2 := x2) (hkroot := hk) (mack := mk) (g := sg);
    try reflexivity; try now repeat split.
  destruct d as [d|]; [|left; congruence]. right. exists d.
  now rewrite (index_nth _ _ _ 0 E0).
Qed.

Lemma step_effects o x o' : step o x = Ok o' -> step_effect o o'.
Proof.
  destruct x as [word svn g b|data svn g]; cbn [step]; intros H.
  - unfold feed_inav in H. bind_inv H. injection H as <-. now apply seff_same.
  - now apply feed_osnma_effect in H.
Qed.

(** ** The invariant of the stores *)

Lemma same_trust_stores o o' : same_trust o o' -> stores_ok o -> stores_ok o'.
Proof. intros (_ & H1 & H2) (Ha & Hb). split; [now rewrite H1|now rewrite H2]. Qed.

Lemma process_nma_header_stores o hd pk : stores_ok o -> ps_current (o_pub o) = Some pk ->
  stores_ok (process_nma_header o hd (pk_id pk)).
Proof.
  intros (Hp & Hk) Hc. unfold process_nma_header.
  destruct (nma_status hd); destruct (nma_cpks hd);
    try (apply no_trust_stores; apply alert_no_trust); try (split; assumption).
  - split; [exact Hp|]. now apply keys_revoke_distinct.
  - split; [|now apply keys_revoke_distinct]. cbn [set_keys set_pub o_pub].
    now rewrite (pubs_revoke_id _ _ Hp Hc).
Qed.

Lemma process_dsm_stores o d hd g o' : stores_ok o -> process_dsm o d hd g = Ok o' -> stores_ok o'.
Proof.
  intros (Hp & Hk) H. apply process_dsm_effect in H.
  destruct H as [->|pk key ps Et Hpk Hkey Hps Hid ->|root pk ps Et Hm Hv Hps ->|root Et Hm Hv ->].
  - now split.
  - destruct (make_current_spec _ _ Hp Hpk) as (ps' & E & Hok & Hcur & _). rewrite E in Hps. injection Hps as <-.
    apply process_nma_header_stores; [|exact Hcur]. split; [exact Hok|]. now apply store_kroot_distinct.
  - destruct (store_new_spec (o_pub o) pk Hp) as (ps' & E & Hok & _). rewrite E in Hps. injection Hps as <-.
    split; [exact Hok|exact Hk].
  - apply no_trust_stores, alert_no_trust.
Qed.

Lemma validate_key_stores o mk g o' : stores_ok o -> osnma_validate_key o mk g = Ok o' -> stores_ok o'.
Proof.
  intros (Hp & Hk) H. apply validate_key_effect in H. destruct H as [->|cur key ks Hc Hv Hlt Hch Hg Hs Ht].
  - now split.
  - apply process_tags_trust in Ht. destruct Ht as (Ht & _). apply (same_trust_stores _ _ Ht).
    split; [exact Hp|]. now apply (store_key_spec _ _ _ Hk Hs).
Qed.

Lemma step_stores o x o' : stores_ok o -> step o x = Ok o' -> stores_ok o'.
Proof.
  intros Hs H. apply step_effects in H. destruct H as [H|o1 o2 hk mk g H1 _ _ H2 H3].
  - now apply same_trust_stores with o.
  - apply (same_trust_stores _ _ H1) in Hs. apply validate_key_stores in H3; [exact H3|].
    destruct H2 as [->|(d & H2)]; [exact Hs|]. now apply process_dsm_stores in H2.
Qed.

Lemma new_stores root user slow : stores_ok (osnma_new root user slow).
Proof. split; [destruct user; intros n H|intros a b H]; discriminate H. Qed.

Lemma run_app o h1 h2 : run o (h1 ++ h2) = (o1 <- run o h1 ;; run o1 h2).
Proof. apply fold_outcome_app. Qed.

Lemma run_ind (P : osnma -> Prop) : (forall o x o', P o -> step o x = Ok o' -> P o') ->
  forall h o o', P o -> run o h = Ok o' -> P o'.
Proof.
  intros Hs h. induction h as [|x h IH]; intros o o' HP H; cbn in H.
  - injection H as <-. exact HP.
  - unfold run in H. cbn [fold_outcome] in H. bind_inv H. apply (IH x0 o'); [now apply (Hs o x)|exact H].
Qed.

Lemma run_stores h o o' : stores_ok o -> run o h = Ok o' -> stores_ok o'.
Proof. apply run_ind. apply step_stores. Qed.

(** ** Nothing is trusted again *)

Lemma no_keys_current ks : (forall k, ~ held ks k) -> current_key ks = None.
Proof.
  intros H. destruct (current_key ks) as [k|] eqn:E; [|reflexivity]. elim (H k). now apply current_key_in.
Qed.

Lemma same_no_trust o o' : same_trust o o' -> no_trust o -> no_trust o'.
Proof. intros (H1 & H2 & H3) (Ha & Hb & Hc). unfold no_trust. rewrite H1, H2, H3. auto. Qed.

Lemma process_dsm_no_trust o d hd g o' : no_trust o -> process_dsm o d hd g = Ok o' -> o' = o.
Proof.
  intros (Hm & Hp & Hk) H. apply process_dsm_effect in H.
  destruct H as [->|pk key ps Et Hpk Hkey Hps Hid ->|root pk ps Et Hm' Hv Hps ->|root Et Hm' Hv ->].
  - reflexivity.
  - now elim (Hp pk).
  - congruence.
  - congruence.
Qed.

Lemma step_no_trust_same o x o' : no_trust o -> step o x = Ok o' ->
  same_trust o o' /\ forall d svn g, x = FeedOsnma d svn g -> o_nav o' = o_nav o.
Proof.
  intros Hn H. destruct x as [word svn g b|data svn g]; cbn [step] in H.
  - unfold feed_inav in H. bind_inv H. injection H as <-. split; [now repeat split|]. intros. discriminate.
  - assert (Hsame : o_nav o' = o_nav o /\ same_trust o o'); [|now split].
    unfold feed_osnma in H. destruct (forallb _ _); [injection H as <-; now repeat split|].
    bind_inv H. destruct x as (sf & [[[hk mk] sg]|]); [|injection H as <-; now repeat split].
    unfold process_subframe in H. bind_inv H. bind_inv H. bind_inv H. bind_inv H. destruct x2 as (cd & d).
    bind_inv H. set (o1 := set_dsm cd (set_mack x0 (set_sub sf o))) in *.
    assert (Hn1 : no_trust o1) by (apply (same_no_trust o); [now repeat split|exact Hn]).
    assert (x2 = o1) by (destruct d as [d|]; [now apply process_dsm_no_trust in E4|congruence]). subst x2.
    unfold osnma_validate_key in H. rewrite no_keys_current in H by apply Hn1. injection H as <-. now repeat split.
Qed.

Lemma step_no_trust o x o' : no_trust o -> step o x = Ok o' -> no_trust o'.
Proof. intros Hn H. apply (same_no_trust o); [|exact Hn]. now apply (step_no_trust_same _ _ _ Hn) in H. Qed.

Lemma run_no_trust h o o' : no_trust o -> run o h = Ok o' -> no_trust o'.
Proof. apply run_ind. apply step_no_trust. Qed.

End Crypto.

(** A receiver of the transmission of one chain and then of the transmission of the next one. *)
From Coq Require Import ZArith List Bool Lia ZifyBool ZifyNat.
From Verif Require Import Model.Prelude Model.Params Model.Gst Model.Svn Model.Bitfields
  Model.Tesla Model.Merkle Model.Dsm Model.MackStore Model.Nav Model.Osnma
  Spec.TimeSpec Spec.CollectSpec Spec.NavSpec Spec.TeslaSpec Spec.KrootSpec
  Spec.MerkleSpec Spec.KeySpec Spec.SystemSpec Spec.StoredSpec Spec.CompleteSpec Spec.PanicSpec
  Spec.HonestSpec Spec.RecoverSpec
  Proofs.Base Proofs.GstProofs Proofs.SystemProofs Proofs.KeyStoreProofs
  Proofs.PanicProofs Proofs.TotalProofs Proofs.HonestKeys Proofs.RecoverKeys.
Import ListNotations.
Open Scope Z_scope.

Section Crypto.
Context {C : crypto} {B : build} {S : storage}.
Hypothesis HC : crypto_ok C.
Hypothesis HS : storage_ok S.
Variables (root : option (list Z)) (user : option public_key) (slow : bool).
Notation new := (osnma_new root user slow).

(** A receiver that has only heard the transmission [tA] has no keys of other chains. *)
Lemma renewal_start pk tA hA : transmission_ok pk tA -> Forall op_ok hA -> hears root user pk tA hA ->
  key_known root user pk (blocks_received (osnma_words hA)) ->
  exists o0, run new hA = Ok o0 /\ ps_current (o_pub o0) = Some pk /\ forall K, held (o_keys o0) K -> k_chain K = tr_chain tA.
Proof.
  intros HA Hok Hh Hkn. destruct (honest_run HC HS pk tA HA root user slow hA Hok Hh) as (o0 & Hr & _ & Hp & Hk).
  exists o0. split; [exact Hr|]. split.
  - destruct Hp as [(_ & Hp)|(Hn & _)]; [exact Hp|]. elim (Hn Hkn).
  - intros K HK. destruct Hk as [(E & _)|(K0 & E & (_ & Hch & _) & _)]; rewrite E in HK.
    + destruct HK as [HK|HK]; discriminate HK.
    + apply (with_key_held tA) in HK. now subst K.
Qed.

Theorem renewal_key pk tA tB hA q x hk mk g : transmission_ok pk tA -> transmission_ok pk tB ->
  ch_id (tr_chain tA) <> ch_id (tr_chain tB) ->
  flx_fits (tr_chain tA) (tr_chain tB) -> flx_fits (tr_chain tB) (tr_chain tA) ->
  Forall op_ok (hA ++ q ++ [x]) -> in_subframe_order (q ++ [x]) ->
  hears root user pk tA hA -> key_known root user pk (blocks_received (osnma_words hA)) ->
  honest_after tB hA (q ++ [x]) -> dsm_changes hA (q ++ [x]) -> no_alert_after root hA (q ++ [x]) -> pkrs_sound_after root hA (q ++ [x]) ->
  no_long_gap_after tB hA new (q ++ [x]) -> completes (hA ++ q) x hk mk g -> kroot_received_after tB hA (q ++ [x]) ->
  exists o key, run new (hA ++ q ++ [x]) = Ok o /\ current_key (o_keys o) = Some key /\ k_gst key = g /\
    k_chain key = tr_chain tB /\ key_bytes key = tr_key tB (time_of g).
Proof.
  intros HA HB Hid HAB HBA Hok Hord Hh Hkn Hha Hdc Hna Hps Hgap Hc Hkr.
  pose proof (proj1 (proj1 (Forall_app _ _ _) Hok)) as Hok0.
  destruct (renewal_start pk tA hA HA Hok0 Hh Hkn) as (o0 & Hr0 & Hp0 & Hk0).
  assert (Hno : forall K, held (o_keys o0) K -> chain_of K <> ch_id (tr_chain tB)).
  { intros K HK E. unfold chain_of in E. rewrite (Hk0 K HK) in E. contradiction. }
  assert (HP : prepared pk tB root hA o0 (q ++ [x])).
  { constructor; [exact Hp0| |exact Hha|exact Hdc|exact Hna]. intros K HK E. elim (Hno K HK E). }
  assert (Hus : chains_usable tB o0).
  { assert (H : forall c, c = tr_chain tB \/ (exists K, held (o_keys o0) K /\ k_chain K = c) -> c = tr_chain tB \/ c = tr_chain tA).
    { intros c [->|(K & HK & <-)]; [now left|right]. exact (Hk0 K HK). }
    pose proof (to_chain _ _ HA) as (M1 & F1). pose proof (to_chain _ _ HB) as (M2 & F2).
    intros c c' Hc1 Hc2. destruct (H c Hc1) as [->| ->], (H c' Hc2) as [->| ->]; auto. }
  destruct (after_total HC HS pk tB HB root user slow hA o0 Hr0 Hok0 (q ++ [x]) Hok HP Hps Hus) as (o & Hr).
  assert (Hgap' : no_long_gap_after tB hA o0 (q ++ [x])).
  { intros p y q' hk' mk' g' E Hc' Hkr'. destruct (Hgap p y q' hk' mk' g' E Hc' Hkr') as [(H1 & _)|H]; [left|right; exact H].
    split; [exact H1|]. intros K HK Hcid. elim (Hno K HK Hcid). }
  destruct (after_key HC HS pk tB HB root user slow hA o0 Hr0 Hok0 q x hk mk g o Hok Hord HP Hgap' Hc Hkr Hr) as (key & H).
  exists o, key. split; [exact Hr|exact H].
Qed.

End Crypto.

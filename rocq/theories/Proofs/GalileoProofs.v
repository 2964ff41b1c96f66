(** Authenticated data is data of the system, or something was forged. *)
From Coq Require Import ZArith List Bool Lia.
From Verif Require Import Model.Prelude Model.Params Model.Gst Model.Bitfields Model.Tesla Model.Merkle
  Model.Nav Model.Osnma
  Spec.TimeSpec Spec.CollectSpec Spec.NavSpec Spec.TeslaSpec Spec.KrootSpec Spec.MerkleSpec Spec.SystemSpec
  Spec.GalileoSpec Proofs.Base Proofs.MerkleProofs Proofs.SystemProofs.
Import ListNotations.
Open Scope Z_scope.

Section Crypto.
Context {C : crypto} {B : build}.
Hypothesis HC : crypto_ok C.
Variable G : galileo.
Hypothesis HG : galileo_ok G.
Variables (root : option (list Z)) (user : option public_key).
Hypothesis Hconf : configured G root user.

Lemma list_Z_dec (a b : list Z) : a = b \/ a <> b.
Proof. destruct (list_eq_dec Z.eq_dec a b); auto. Qed.

Lemma pubkey_genuine h pk : trusted_pubkey root user h pk -> gal_pub G (pk_key pk) \/ merkle_forged G h.
Proof.
  intros [H|(r & id & d & f & Hr & _ & Hd & HL & Hp & _ & Hk)].
  - left. exact (proj2 Hconf _ H).
  - rewrite (proj1 Hconf _ Hr) in Hp. destruct (merkle_binding HC _ _ _ HL Hp) as [E|E].
    2: { right. exists id, d, f. auto. }
    left. assert (Hin : In (pkr_leaf f) (gal_leaves G)).
    { destruct (nth_in_or_default (Z.to_nat (pf_mid f)) (gal_leaves G) []) as [H|H]; rewrite <- E in H; [exact H|discriminate H]. }
    destruct (pl_nibbles _ _ HL) as (_ & _ & _ & Hid). unfold nibble in Hid.
    unfold pkr_leaf in Hin. destruct (pk_key pk) as [k|k]; destruct Hk as [E1 Hk]; rewrite E1 in Hin.
    + exact (go_p256 _ HG _ _ _ Hid Hin Hk).
    + exact (go_p521 _ HG _ _ _ Hid Hin Hk).
Qed.

Lemma root_genuine h kr : Forall op_ok h -> verified_root root user h kr ->
  key_bytes kr = gal_key G (k_chain kr) (time_of (k_gst kr)) \/ signature_forged G h \/ merkle_forged G h.
Proof.
  intros Hok (id & d & f & pk & svn & g & hk & mk & _ & Hd & HL & Hs & Hpk & _ & Hv & Hk).
  assert (Hb : is_byte (nth 0 hk 0)).
  { destruct (subframe_received_bytes _ _ _ _ _ Hok Hs) as ((L & F) & _). rewrite Forall_forall in F. apply F, nth_In. lia. }
  destruct (pubkey_genuine h pk Hpk) as [Hg|Hf]; [|auto].
  destruct Hv as (m & Hm & _ & Hv). destruct (gal_signs G (pk_key pk) m) eqn:E.
  - left. exact (go_root _ HG _ _ _ _ _ _ Hg E Hb HL Hm Hk).
  - right. left. exists id, d, f, (pk_key pk), svn, g, hk, mk, m. do 5 (split; [assumption|]). split; [|exact E].
    destruct (pk_key pk); tauto.
Qed.

(** A key that leads to a key of the system is a key of the system, or there is a second
    preimage on the way. *)
Lemma chain_genuine c n : forall key t, key_before c n key t (gal_key G c (t - 30 * Z.of_nat n)) ->
  key = gal_key G c t \/
  exists m other, (m < n)%nat /\ key_before c m key t other /\
    previous_key c other (t - 30 * Z.of_nat m) (gal_key G c (t - 30 * Z.of_nat m - 30)) /\
    other <> gal_key G c (t - 30 * Z.of_nat m).
Proof.
  induction n as [|n IH]; intros key t H; cbn [key_before] in H.
  - left. rewrite <- H. f_equal. lia.
  - destruct H as (key' & H1 & H2).
    replace (t - 30 * Z.of_nat (S n)) with (t - 30 - 30 * Z.of_nat n) in H2 by lia.
    destruct (IH _ _ H2) as [E|(m & other & Hm & K1 & K2 & K3)].
    + destruct (list_Z_dec key (gal_key G c t)) as [E1|E1]; [auto|]. right. exists 0%nat, key.
      split; [lia|]. split; [reflexivity|]. replace (t - 30 * Z.of_nat 0) with t by lia. split; [|exact E1].
      rewrite <- E. exact H1.
    + right. exists (S m), other. split; [lia|]. replace (t - 30 * Z.of_nat (S m)) with (t - 30 - 30 * Z.of_nat m) by lia.
      split; [|split; [exact K2|exact K3]]. cbn [key_before]. exists key'. auto.
Qed.

Lemma key_genuine h key : Forall op_ok h -> trusted_key root user h key ->
  key_bytes key = gal_key G (k_chain key) (time_of (k_gst key)) \/
  signature_forged G h \/ merkle_forged G h \/ second_preimage G key.
Proof.
  intros Hok (kr & n & Hr & Hc & Ht & Hk). destruct (root_genuine h kr Hok Hr) as [E|[E|E]]; auto.
  rewrite <- Hc in *. rewrite E in Hk. replace (time_of (k_gst kr)) with (time_of (k_gst key) - 30 * Z.of_nat n) in Hk by lia.
  destruct (chain_genuine _ _ _ _ Hk) as [E1|(m & other & _ & K1 & K2 & K3)]; [auto|].
  right. right. right. exists m, other, (time_of (k_gst key) - 30 * Z.of_nat m). auto.
Qed.

(** *** More history *)
Lemma key_forgery_mono h q : key_forgery G h -> key_forgery G (h ++ q).
Proof.
  intros [H|[H|H]].
  - left. destruct H as (id & d & f & pk & svn & g & hk & mk & m & H1 & H2 & H3 & H).
    exists id, d, f, pk, svn, g, hk, mk, m. split; [now apply dsm_received_mono|]. split; [exact H2|].
    split; [now apply subframe_received_mono|exact H].
  - right. left. destruct H as (id & d & f & H1 & H). exists id, d, f. split; [now apply dsm_received_mono|exact H].
  - right. right. destruct H as (key & svn & hk & mk & H1 & H). exists key, svn, hk, mk.
    split; [now apply subframe_received_mono|exact H].
Qed.

Lemma tag_forged_mono h q svn bits tag : tag_forged G h svn bits tag -> tag_forged G (h ++ q) svn bits tag.
Proof.
  intros (c & j & prna & g & hk & mk & delay & H0 & H1 & H).
  exists c, j, prna, g, hk, mk, delay. split; [exact H0|]. split; [now apply subframe_received_mono|exact H].
Qed.

Lemma tag_genuine h k svn bits tag : Forall op_ok h -> verified_in_time root user h k svn bits tag ->
  made_by_system G h k svn bits \/ key_forgery G h \/ tag_forged G h svn bits tag.
Proof.
  intros Hok (h1 & h2 & adkd & delay & cop & prna & gn & g & key & -> & Hv & _ & Ht & _).
  destruct Hv as (prnk & hkk & mkk & hk & mk & (h0 & dk & gk & E0 & Egk) & Hsk & Hkm & Htk & Ha & _ & Hs & Hst & Htag & _).
  destruct (key_genuine h1 key (proj1 (proj1 (Forall_app _ _ _) Hok)) Htk) as [E|[E|[E|E]]].
  2: { right. left. apply key_forgery_mono. left. exact E. }
  2: { right. left. apply key_forgery_mono. right. left. exact E. }
  2: { right. left. apply key_forgery_mono. right. right. exists key, prnk, hkk, mkk. auto. }
  destruct Htag as (j & Hj & Etag & Hm).
  assert (Hm' : (j = O -> adkd = 0 /\ svn = prna) /\
    tag_of (ch_mac (k_chain key)) (key_bytes key) (tag_message j svn prna (time_of g) (status_of hk) bits) tag).
  { destruct j as [|j]; unfold tag_message; [tauto|]. split; [discriminate|tauto]. }
  destruct Hm' as [Hj0 Htag']. rewrite E, <- Ht in Htag'.
  destruct (gal_macs G (k_chain key) (time_of g + delay) (tag_message j svn prna (time_of g) (status_of hk) bits)) eqn:Em.
  - left. exists (k_chain key), j, prna, (time_of g), (status_of hk), adkd, delay. do 4 (split; [assumption|]).
    exists (FeedOsnma dk prnk gk). split; [rewrite E0; apply in_or_app; left; apply in_or_app; right; now left|].
    cbn [op_gst]. rewrite Egk. lia.
  - right. right. apply tag_forged_mono.
    exists (k_chain key), j, prna, g, hk, mk, delay.
    split; [destruct Ha as [Ha|[Ha|Ha]]; lia|]. split; [exact Hs|]. cbn zeta. auto.
Qed.

Lemma tags_genuine h k svn bits tags : Forall op_ok h -> tags <> [] -> (forall tag, In tag tags -> verified_in_time root user h k svn bits tag) ->
  made_by_system G h k svn bits \/ key_forgery G h \/ (forall tag, In tag tags -> tag_forged G h svn bits tag).
Proof.
  intros Hok Hne H. destruct tags as [|t0 l0]; [now elim Hne|]. clear Hne. revert H. generalize (t0 :: l0) as tags. clear t0 l0.
  induction tags as [|t l IH]; intros H; [right; right; intros tag []|].
  destruct (tag_genuine h k svn bits t Hok (H t (or_introl eq_refl))) as [E|[E|E]]; auto.
  destruct IH as [E1|[E1|E1]]; auto. { intros tag Ht. apply H. now right. }
  right. right. intros tag [<-|Ht]; auto.
Qed.

End Crypto.

(** Property C09: panics of the calls that feed the receiver. *)
From Coq Require Import ZArith String List Bool Lia ZifyBool.
From Verif Require Import Model.Prelude Model.Params Model.Gst Model.Bitfields Model.Tesla Model.Merkle
  Model.Dsm Model.MackStore Model.Nav Model.Osnma
  Spec.TimeSpec Spec.CollectSpec Spec.NavSpec Spec.TeslaSpec Spec.KrootSpec Spec.MerkleSpec Spec.MacltSpec
  Spec.KeySpec Spec.SystemSpec Spec.CompleteSpec Spec.PanicSpec
  Proofs.Base Proofs.KrootProofs Proofs.SystemProofs Proofs.KeyStoreProofs Proofs.PanicProofs Proofs.TotalProofs
  Props.MackProps Examples.Vectors Examples.Demo Examples.Toy Examples.Transmit.
Import ListNotations.
Open Scope list_scope.
Open Scope Z_scope.

(** ** C09 *)

(** Feeding an INAV word never panics: whatever the receiver was fed before. *)
Theorem C09_feed_inav_never_panics :
  forall (C : crypto) (B : build) (S : storage), crypto_ok C -> storage_ok S ->
  forall root user slow h o word svn g b, Forall op_ok h -> run (osnma_new root user slow) h = Ok o ->
  exists o', feed_inav o word svn g b = Ok o'.
Proof.
  intros C B S HC HS root user slow h o word svn g b Hok Hrun.
  apply (feed_inav_total HS root user slow h). now apply run_inv.
Qed.

(** Feeding an OSNMA word does not panic if the calls are harmless, as defined in
    Spec/PanicSpec.v.  Missing for the full claim: other calls, some of which do panic (see
    below). *)
Theorem C09_harmless_calls_do_not_panic_partial :
  forall (C : crypto) (B : build) (S : storage), crypto_ok C -> storage_ok S ->
  forall root user slow h, Forall op_ok h -> harmless (osnma_new root user slow) h ->
  exists o, run (osnma_new root user slow) h = Ok o.
Proof. intros C B S HC HS root user slow h. now apply harmless_run. Qed.

(** The condition on the DSM messages is exact: the call that completes a DSM that is not
    harmless panics. *)
Theorem C09_panic_on_dsm :
  forall (C : crypto) (B : build) (S : storage), crypto_ok C -> storage_ok S ->
  forall root user slow h o x hkroot mack g pkr d,
  Forall op_ok (h ++ [x]) -> run (osnma_new root user slow) h = Ok o -> completes h x hkroot mack g ->
  completed_dsm h hkroot = Some (pkr, d) -> dsm_panics o (nth 0 hkroot 0) pkr d -> step o x = Panic.
Proof. intros C B S HC HS root user slow h o x hkroot mack g pkr d. now apply dsm_panics_step. Qed.

(** *** Unsigned messages that panic *)

(** A DSM-KROOT of 7 blocks that announces a key of 256 bits, for which 9 blocks would be
    needed, with the public key id [i]. *)
Definition bad_kroot (i : Z) : list Z := [16 + i; 0; 8 * 16 + 9; 33] ++ repeat 0 87.
(** A DSM-PKR of 13 blocks that announces a P-521 key, which does not fit. *)
Definition bad_pkr : list Z := 7 * 16 :: repeat 0 128 ++ [3 * 16] ++ repeat 0 39.

Definition bad_mack : list Z := repeat 5 60.
Definition bad_kroot_ops (i : Z) : list op := tx_dsm tx_t0 (tx_header 2 1 1) 7 (bad_kroot i) (fun _ => bad_mack).
Definition bad_pkr_ops : list op := Eval vm_compute in tx_dsm tx_t0 (tx_header 2 1 1) 13 bad_pkr (fun _ => bad_mack).

(** The last call of the history completes a DSM, and no other does. *)
Definition ends_with (h : list op) (pkr : bool) (d : list Z) : bool :=
  let h0 := removelast h in
  forallb op_okb h && no_dsm [] [] h0 &&
  match last h (FeedOsnma [] 0 (gst_at 0)) with
  | FeedOsnma data svn g =>
      negb (forallb (Z.eqb 0) data) && 
      match expected_subframe (osnma_words h0) (mkWord data svn g) with
      | Some (hkroot, _, _) =>
          (nth 0 hkroot 0 =? tx_header 2 1 1) &&
          match completed_dsm h0 hkroot with
          | Some (pkr', d') => Bool.eqb pkr pkr' && bytes_eqb d d'
          | None => false
          end
      | None => false
      end
  | _ => false
  end.

Lemma ends_with_panic {C : crypto} {B : build} {S : storage} (HC : crypto_ok C) (HS : storage_ok S) root user slow h pkr d :
  ends_with h pkr d = true -> dsm_panics (osnma_new root user slow) (tx_header 2 1 1) pkr d ->
  Forall op_ok h /\ run (osnma_new root user slow) h = Panic.
Proof.
  intros H Hp. unfold ends_with in H. rewrite !andb_true_iff in H. destruct H as ((H1 & H2) & H3).
  apply op_okb_ok in H1. split; [exact H1|].
  destruct h as [|x0 h']; [discriminate H3|].
  set (dflt := FeedOsnma [] 0 (gst_at 0)) in *.
  assert (E : x0 :: h' = removelast (x0 :: h') ++ [last (x0 :: h') dflt]) by (apply app_removelast_last; discriminate).
  set (h0 := removelast (x0 :: h')) in *. set (x := last (x0 :: h') dflt) in *. clearbody h0 x.
  rewrite E in *. destruct x as [|data svn g]; [discriminate H3|].
  apply andb_true_iff in H3. destruct H3 as (Hz & H3). apply negb_true_iff in Hz.
  destruct (expected_subframe (osnma_words h0) (mkWord data svn g)) as [((hk & mk) & g')|] eqn:Ex; [|discriminate].
  apply andb_true_iff in H3. destruct H3 as (Hhd & H3). apply Z.eqb_eq in Hhd.
  destruct (completed_dsm h0 hk) as [(pkr' & d')|] eqn:Ed; [|discriminate].
  apply andb_true_iff in H3. destruct H3 as (Ep & Eb). apply Bool.eqb_prop in Ep. apply bytes_eqb_eq in Eb. subst pkr' d'.
  apply (first_dsm_panics HC HS root user slow h0 _ hk mk g' pkr d); auto.
  - exists data, svn, g. auto.
  - now rewrite Hhd.
Qed.

Lemma bad_kroot_ends : forallb (fun i => ends_with (bad_kroot_ops i) false (bad_kroot i)) (map Z.of_nat (seq 0 16)) = true.
Proof. vm_compute. reflexivity. Qed.
Lemma bad_pkr_ends : ends_with bad_pkr_ops true bad_pkr = true.
Proof. vm_compute. reflexivity. Qed.
Lemma bad_kroot_panics {C : crypto} {B : build} {S : storage} (i : Z) pk : 0 <= i < 16 ->
  kroot_panics (tx_header 2 1 1) (bad_kroot i) pk.
Proof.
  intros Hi. assert (Hb : Forall is_byte (bad_kroot i)).
  { apply Forall_app. split; [repeat constructor; unfold is_byte; lia|]. apply Forall_forall. intros x Hx.
    apply repeat_spec in Hx. subst. unfold is_byte. lia. }
  split.
  - split; [|split; [|split]]; unfold bad_kroot; cbn [nth app].
    + now left.
    + now left.
    + change (8 * 16 + 9) with 137. cbv. auto 12.
    + change (8 * 16 + 9) with 137. cbv. auto 12.
  - left. intros f HL.
    assert (E : kroot_ecdsa_function (bad_kroot i) = Panic).
    { assert (H : forallb (fun i => match kroot_ecdsa_function (bad_kroot i) with Panic => true | Ok _ => false end)
                    (map Z.of_nat (seq 0 16)) = true) by (vm_compute; reflexivity).
      rewrite forallb_forall in H. specialize (H i). destruct (kroot_ecdsa_function (bad_kroot i)); [|reflexivity].
      discriminate H. apply in_map_iff. exists (Z.to_nat i). split; [lia|]. apply in_seq. lia. }
    rewrite (kroot_ecdsa_layout _ _ HL) in E; [discriminate|exact Hb].
Qed.

(** Anybody who can send OSNMA words can make a receiver panic that has a public key, with a
    DSM-KROOT: no signature is needed.  The receiver may be new, for any key and any root. *)
Theorem C09_unsigned_kroot_refuted :
  forall (C : crypto) (B : build) (S : storage), crypto_ok C -> storage_ok S ->
  forall root pk slow, 0 <= pk_id pk < 16 ->
  exists h, Forall op_ok h /\ run (osnma_new root (Some pk) slow) h = Panic.
Proof.
  intros C B S HC HS root pk slow Hi. exists (bad_kroot_ops (pk_id pk)).
  apply (ends_with_panic HC HS) with (pkr := false) (d := bad_kroot (pk_id pk)).
  - pose proof bad_kroot_ends as H. rewrite forallb_forall in H. apply H. apply in_map_iff.
    exists (Z.to_nat (pk_id pk)). split; [lia|]. apply in_seq. lia.
  - exists pk. split; [now left|]. split; [unfold bad_kroot; cbn [nth app]; lia|]. now apply bad_kroot_panics.
Qed.

(** The same words make any receiver panic that has a Merkle tree root, with a DSM-PKR that
    does not lead to the root. *)
Theorem C09_unverified_pkr_refuted :
  exists h, Forall op_ok h /\
  forall (C : crypto) (B : build) (S : storage), crypto_ok C -> storage_ok S ->
  forall root user slow, run (osnma_new (Some root) user slow) h = Panic.
Proof.
  exists bad_pkr_ops. split; [apply op_okb_ok; vm_compute; reflexivity|].
  intros C B S HC HS root user slow. apply (ends_with_panic HC HS) with (pkr := true) (d := bad_pkr).
  - exact bad_pkr_ends.
  - exists root. split; [reflexivity|]. left. split; [reflexivity|]. apply Nat.ltb_lt. reflexivity.
Qed.

(** *** Example: the nominal transmission is harmless *)

Definition chain_fitsb (c c' : chain) : bool :=
  (match ch_mac c with MacCmacAes => (ch_key_bytes c =? 16)%nat | MacHmacSha256 => true end) &&
  forallb (fun half => match icd_sequence (ch_maclt c) half with
                       | Some codes => forallb (fun i => i <? (480 - 8 * ch_key_bytes c') / (ch_tag_bits c' + 16))%nat (flx_positions codes)
                       | None => true end) [0%nat; 1%nat].
Definition held_list (ks : key_store) : list tkey :=
  (match ks_k0 ks with Some k => [k] | None => [] end) ++ (match ks_k1 ks with Some k => [k] | None => [] end).
Definition keys_fitb (ks : key_store) : bool :=
  forallb (fun k => forallb (fun k' => chain_fitsb (k_chain k) (k_chain k')) (held_list ks)) (held_list ks).
Lemma chain_fitsb_ok c c' : chain_fitsb c c' = true -> mac_fits c /\ flx_fits c c'.
Proof.
  unfold chain_fitsb. rewrite andb_true_iff. intros (H1 & H2). split.
  - intros E. rewrite E in H1. now apply Nat.eqb_eq.
  - intros half codes E. rewrite forallb_forall in H2.
    assert (Hh : half = 0%nat \/ half = 1%nat).
    { unfold icd_sequence in E. destruct (lookup_id _ _) as [(s1 & s2)|]; [|discriminate]. destruct half as [|[|n]]; auto. discriminate. }
    specialize (H2 half ltac:(destruct Hh; subst; cbn [In]; auto)). rewrite E in H2.
    apply Forall_forall. intros x Hx. rewrite forallb_forall in H2. apply Nat.ltb_lt. now apply H2.
Qed.
Lemma held_list_in ks k : held ks k -> In k (held_list ks).
Proof. intros [H|H]; unfold held_list; rewrite H; apply in_or_app; [left|right]; now left. Qed.
Lemma keys_fitb_ok {C : crypto} ks : keys_fitb ks = true -> chains_fit ks.
Proof.
  intros H k k' Hk Hk'. unfold keys_fitb in H. rewrite forallb_forall in H. specialize (H k (held_list_in _ _ Hk)).
  rewrite forallb_forall in H. exact (chain_fitsb_ok _ _ (H k' (held_list_in _ _ Hk'))).
Qed.
Fixpoint fits_alongb {C : crypto} {B : build} {S : storage} (o : osnma) (h : list op) : bool :=
  match h with
  | [] => true
  | x :: h' => match step o x with Ok o' => keys_fitb (o_keys o') && fits_alongb o' h' | Panic => false end
  end.
Lemma fits_alongb_ok {C : crypto} {B : build} {S : storage} h : forall o, fits_alongb o h = true -> fits_along o h.
Proof.
  induction h as [|x h IH]; intros o H; cbn [fits_along fits_alongb] in *; [exact I|].
  destruct (step o x) as [o'|]; [|discriminate]. apply andb_true_iff in H. destruct H as (H1 & H2).
  exists o'. split; [reflexivity|]. split; [now apply keys_fitb_ok|now apply IH].
Qed.

Local Existing Instance toy_crypto.
Lemma c09_fits : fits_alongb (osnma_new None (Some (tx_pub 3)) false) tx_nominal = true.
Proof. vm_compute. reflexivity. Qed.
Example C09_example_harmless : Forall op_ok tx_nominal /\ harmless (osnma_new None (Some (tx_pub 3)) false) tx_nominal.
Proof.
  assert (Hok : Forall op_ok tx_nominal) by (apply op_okb_ok; vm_compute; reflexivity).
  split; [exact Hok|]. apply (fits_along_harmless toy_crypto_ok full_storage_ok None (Some (tx_pub 3)) false); [exact Hok| |].
  - apply fits_alongb_ok. exact c09_fits.
  - assert (H : forallb (fun x => match x with FeedOsnma _ _ g => 390 <=? time_of g | _ => true end) tx_nominal = true)
      by (vm_compute; reflexivity).
    rewrite forallb_forall in H. intros data svn g Hin. specialize (H _ Hin). cbn beta iota in H. now apply Z.leb_le.
Qed.

Print Assumptions C09_feed_inav_never_panics.
Print Assumptions C09_harmless_calls_do_not_panic_partial.
Print Assumptions C09_panic_on_dsm.
Print Assumptions C09_unsigned_kroot_refuted.
Print Assumptions C09_unverified_pkr_refuted.

(** Property C79: only an alert makes the receiver forget what it trusts. *)
From Coq Require Import ZArith List Bool Lia ZifyBool ZifyNat.
From Verif Require Import Model.Prelude Model.Params Model.Gst Model.Bitfields Model.Tesla Model.Merkle Model.Osnma
  Spec.TimeSpec Spec.CollectSpec Spec.NavSpec Spec.TeslaSpec Spec.KrootSpec Spec.MerkleSpec Spec.KeySpec Spec.SystemSpec Spec.LogSpec
  Proofs.Base Proofs.SubframeProofs Proofs.SystemProofs Proofs.AnchorProofs
  Examples.Vectors Examples.Demo Examples.Toy Examples.Transmit Props.SystemProps Props.KeyProps.
Import ListNotations.
Open Scope Z_scope.
Local Existing Instance toy_crypto.

(** * C79 *)

(** Unless an alert has been verified, the Merkle tree root is the one of the beginning, and there
    is a public key, the one given by the user or any that was in use before, or one with a higher
    id. *)
Theorem C79_trust_is_kept :
  forall (C : crypto) (B : build) (S : storage), crypto_ok C -> storage_ok S ->
  forall root user slow h1 h2 o1 o2, Forall op_ok (h1 ++ h2) ->
  run (osnma_new root user slow) h1 = Ok o1 -> run o1 h2 = Ok o2 -> ~ alerted root user (h1 ++ h2) ->
  o_merkle o2 = root /\
  (forall pk, user = Some pk -> exists c, ps_current (o_pub o2) = Some c /\ pk_id pk <= pk_id c) /\
  (forall pk, ps_current (o_pub o1) = Some pk -> exists c, ps_current (o_pub o2) = Some c /\ pk_id pk <= pk_id c).
Proof. intros C B S HC HS. exact (trust_is_kept HC HS). Qed.

(** ** Example *)

(** No header announces an alert, and no block 9 of a DSM-PKR, whose last byte has the type, is of
    an alert message. *)
Definition no_alertb (h : list op) : bool :=
  forallb (fun w => if w_index w =? 0 then negb (header_cpks (nth 0 (w_data w) 0) =? cpks_alert)
    else if (w_index w =? 1) && (12 <=? nth 0 (w_data w) 0 / 16) && (nth 0 (w_data w) 0 mod 16 =? 9)
    then forallb (fun x => negb ((w_index x =? 14) && (w_svn x =? w_svn w) &&
           (time_of (subframe_of (w_gst x)) =? time_of (subframe_of (w_gst w))) && (nth 0 (w_data x) 0 / 16 =? 4)))
           (osnma_words h)
    else true) (osnma_words h).

Lemma nth_firsts (ws : list oword) : Forall (fun w => w_data w <> []) ws -> forall i w, nth_error ws i = Some w ->
  nth i (hkroot_of ws) 0 = nth 0 (w_data w) 0.
Proof.
  induction 1 as [|x ws Hx _ IH]; intros i w H; [destruct i; discriminate H|].
  unfold hkroot_of. cbn [flat_map]. destruct (w_data x) as [|b l] eqn:E; [contradiction|]. cbn [firstn app].
  destruct i as [|i]; cbn [nth_error] in H; [injection H as <-; now rewrite E|]. cbn [nth]. now apply IH.
Qed.

(** The words of a subframe. *)
Lemma word_of h svn g hk mk i : Forall op_ok h -> subframe_received h svn g hk mk -> (i < 15)%nat ->
  exists w, In w (osnma_words h) /\ w_index w = Z.of_nat i /\ w_svn w = svn /\ subframe_of (w_gst w) = g /\
    nth 0 (w_data w) 0 = nth i hk 0.
Proof.
  intros Hok (ws & (Hl & Hsub & Hws) & Hg & -> & _) Hi.
  destruct (nth_error ws i) as [w|] eqn:Ew; [|apply nth_error_None in Ew; lia].
  assert (Hin : forall x, In x ws -> In x (osnma_words h)) by (intros x; exact (subsequence_in _ _ x Hsub)).
  pose proof (nth_error_In _ _ Ew) as Hw. destruct (Hws i w Ew) as (W1 & W2).
  exists w. split; [now apply Hin|]. split; [exact W2|]. split; [exact W1|]. split; [now apply Hg|].
  symmetry. apply nth_firsts; [|exact Ew]. apply Forall_forall. intros x Hx Hn.
  apply Hin in Hx. unfold osnma_words in Hx. apply in_flat_map in Hx. destruct Hx as (y & _ & Hy).
  destruct y as [|d sv gg]; [destruct Hy|]. destruct d; [destruct Hy|].
  destruct (forallb (Z.eqb 0) (z :: d)); [destruct Hy|]. destruct Hy as [<-|[]]. discriminate Hn.
Qed.

Lemma nth_concat (bs : list (list Z)) i b j : (forall i b, nth_error bs i = Some b -> length b = 13%nat) ->
  nth_error bs i = Some b -> (j < 13)%nat -> nth (13 * i + j) (concat bs) 0 = nth j b 0.
Proof.
  revert i. induction bs as [|x bs IH]; intros i Hl Hi Hj; [destruct i; discriminate Hi|].
  assert (Hx : length x = 13%nat) by exact (Hl 0%nat x eq_refl). cbn [concat]. destruct i as [|i]; cbn [nth_error] in Hi.
  - injection Hi as <-. rewrite app_nth1 by lia. reflexivity.
  - rewrite app_nth2 by lia. rewrite Hx. replace (13 * S i + j - 13)%nat with (13 * i + j)%nat by lia.
    apply IH; [|exact Hi|exact Hj]. intros k c Hk. exact (Hl (S k) c Hk).
Qed.

Lemma no_alertb_ok root user h : Forall op_ok h -> no_alertb h = true -> ~ alerted root user h.
Proof.
  intros Hok H. unfold no_alertb in H. rewrite forallb_forall in H.
  intros [(f & (r & id & d & _ & Hid & Hd & HL & _) & Hf)|(hd & f & kr & (id & d & pk & svn & g & hk & mk & _ & _ & _ & Hsf & Hhd & _) & Hal)].
  - destruct Hd as (blocks & Ed & Hn & Hb).
    assert (Hty : nth 129 d 0 / 16 = 4).
    { destruct HL as [Hb' (Hn1 & Hn2) (N1 & N2 & N3 & N4) Hk].
      assert (Hlen : length (concat (pf_nodes f)) = 128%nat).
      { destruct (pf_nodes f) as [|a [|b [|c [|e [|? ?]]]]]; try discriminate Hn1.
        rewrite !Forall_cons_iff in Hn2. destruct Hn2 as (A1 & A2 & A3 & A4 & _). cbn [concat]. rewrite app_nil_r, !app_length. lia. }
      rewrite Hb'. cbn [nth]. rewrite app_nth2 by lia. rewrite Hlen. unfold pkr_leaf. cbn [Nat.sub app nth].
      rewrite Hf. unfold nibble in N4. lia. }
    assert (Hbl : forall i b, nth_error blocks i = Some b -> length b = 13%nat).
    { intros i b Eb. destruct (Hb i b Eb) as (svn & g & hk & mk & Hsf & _ & <-).
      destruct (subframe_received_bytes _ _ _ _ _ Hok Hsf) as ((Hlen & _) & _). rewrite skipn_length. lia. }
    assert (Hge : (10 <= length blocks)%nat).
    { unfold blocks_needed in Hn. cbv zeta in Hn.
      unfold is_pkr in Hn. replace (12 <=? id) with true in Hn by lia.
      destruct ((7 <=? nth 0 d 0 / 16) && (nth 0 d 0 / 16 <=? 10)) eqn:E7; [|discriminate Hn]. injection Hn as Hn. lia. }
    destruct (nth_error blocks 9) as [b|] eqn:E9; [|apply nth_error_None in E9; lia].
    assert (E : nth 129 d 0 = nth 12 b 0).
    { rewrite Ed. exact (nth_concat blocks 9 b 12 Hbl E9 ltac:(lia)). }
    destruct (Hb 9%nat b E9) as (svn & g & hk & mk & Hsf & Hnum & Hsk).
    destruct (word_of _ _ _ _ _ 1 Hok Hsf ltac:(lia)) as (w & W1 & W2 & W3 & W4 & W5).
    destruct (word_of _ _ _ _ _ 14 Hok Hsf ltac:(lia)) as (x & X1 & X2 & X3 & X4 & X5).
    specialize (H w W1). rewrite W2, W3, W4, W5, Hnum in H. cbn [Z.of_nat Pos.of_succ_nat Pos.succ] in H, X2.
    replace (1 =? 0) with false in H by reflexivity. replace ((1 =? 1) && (12 <=? (16 * id + 9) / 16) && ((16 * id + 9) mod 16 =? 9)) with true in H by lia.
    rewrite forallb_forall in H. specialize (H x X1). rewrite X2, X3, X4, X5 in H.
    assert (nth 14 hk 0 = nth 12 b 0).
    { rewrite <- Hsk. destruct hk as [|? [|? hk]]; [destruct b; reflexivity..|reflexivity]. }
    lia.
  - destruct (word_of _ _ _ _ _ 0 Hok Hsf ltac:(lia)) as (w & W1 & W2 & W3 & W4 & W5).
    specialize (H w W1). rewrite W2, W5 in H. change (negb (header_cpks (nth 0 hk 0) =? cpks_alert) = true) in H.
    rewrite <- Hhd, Hal, Z.eqb_refl in H. discriminate H.
Qed.

(** Key 4 is announced, and used when a KROOT comes with it.  An alert instead removes everything. *)
Example C79_example :
  Forall op_ok (pkr4_ops ++ kroot4_ops) /\ ~ alerted (Some (tx_root tx_leaves)) (Some (tx_pub 3)) (pkr4_ops ++ kroot4_ops) /\
  tx_held (run tx_new pkr4_ops) = Ok (true, (Some 3, Some 4), (None, None), None) /\
  tx_held (run tx_new (pkr4_ops ++ kroot4_ops))
  = Ok (true, (Some 4, None), (Some (1, gst_at (tx_t0 - 30)), None), Some (mkCif 1 None)) /\
  exists o, run tx_new (tx_nominal ++ alert_pkr_ops) = Ok o /\ no_trust o.
Proof.
  assert (Hok : Forall op_ok (pkr4_ops ++ kroot4_ops)) by (apply op_okb_ok; vm_compute; reflexivity).
  split; [exact Hok|]. split; [apply no_alertb_ok; [exact Hok|vm_compute; reflexivity]|].
  split; [vm_compute; reflexivity|]. split; [exact (proj1 (proj2 C13_example))|]. exact (proj1 (proj2 C06_example)).
Qed.

Print Assumptions C79_trust_is_kept.

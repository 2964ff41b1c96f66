(** Property C79, continued: what takes the key of the chain in force away; and the line of the
    log that says that there is none (C64). *)
From Coq Require Import ZArith List Bool Lia ZifyBool ZifyNat.
From Verif Require Import Model.Prelude Model.Params Model.Gst Model.Bitfields Model.Tesla Model.Merkle Model.Osnma Model.Logging
  Spec.TimeSpec Spec.CollectSpec Spec.NavSpec Spec.TeslaSpec Spec.KrootSpec Spec.MerkleSpec Spec.KeySpec Spec.SystemSpec Spec.LogSpec
  Spec.KeptKeySpec
  Proofs.Base Proofs.AlertProofs Proofs.SubframeProofs Proofs.SystemProofs Proofs.FieldProofs Proofs.KeptKeyProofs
  Examples.Vectors Examples.Demo Examples.Toy Examples.Transmit Props.SystemProps Props.KeyProps Props.AnchorProps.
From Verif Require Proofs.ErrorProofs Proofs.LogTrueProofs.
Import ListNotations.
Open Scope Z_scope.
Local Existing Instance toy_crypto.
Ltac Zify.zify_post_hook ::= Z.div_mod_to_equations.

(** * C79 *)

(** Once there is a key of the chain in force there always is one, unless an alert was
    authenticated or a verified DSM-KROOT came with a header that revokes the chain or the public
    key or puts another chain in force than that of its root key. *)
Theorem C79_key_is_kept :
  forall (C : crypto) (B : build) (S : storage), crypto_ok C -> storage_ok S ->
  forall root user slow h1 h2 o1 o2, Forall op_ok (h1 ++ h2) ->
  run (osnma_new root user slow) h1 = Ok o1 -> run o1 h2 = Ok o2 ->
  has_key_in_force (o_keys o1) -> ~ key_withdrawn root user (h1 ++ h2) -> has_key_in_force (o_keys o2).
Proof. intros C B S HC HS. exact (key_is_kept HC HS). Qed.

(** There is one as soon as the log says that a DSM-KROOT was verified, with the same exceptions. *)
Theorem C79_kroot_gives_key :
  forall (C : crypto) (B : build) (S : storage), crypto_ok C -> storage_ok S ->
  forall root user slow mx h ls o l pkid, Forall op_ok h ->
  run_log mx (osnma_new root user slow) h = Ok (ls, o) -> In (l, LgKrootVerified pkid) ls ->
  ~ key_withdrawn root user h -> has_key_in_force (o_keys o).
Proof. intros C B S HC HS. exact (kroot_gives_key HC HS). Qed.

(** * C64 *)

(** When the log says that there is no key there is none, and this is said after a DSM-KROOT was
    verified only with one of the exceptions. *)
Theorem C64_no_key_line_is_true :
  forall (C : crypto) (B : build) (S : storage), crypto_ok C -> storage_ok S ->
  forall root user slow mx h ls1 o1 x ls2 o2 l, Forall op_ok (h ++ [x]) ->
  run_log mx (osnma_new root user slow) h = Ok (ls1, o1) -> step_log mx o1 x = Ok (ls2, o2) -> In (l, LgNoKey) ls2 ->
  ~ has_key_in_force (o_keys o2) /\
  forall l' pkid, In (l', LgKrootVerified pkid) (ls1 ++ ls2) -> key_withdrawn root user (h ++ [x]).
Proof. intros C B S HC HS. exact (no_key_line HC HS). Qed.

(** ** Examples *)

(** No alert; all headers have another status than that of a revocation and the id of chain [c],
    which is also in the block 0 of each DSM-KROOT. *)
Definition no_withdrawb (c : Z) (h : list op) : bool :=
  no_alertb h &&
  forallb (fun w => if w_index w =? 0
    then (header_chain (nth 0 (w_data w) 0) =? c) && negb (header_status (nth 0 (w_data w) 0) =? status_dont_use)
    else if (w_index w =? 1) && (nth 0 (w_data w) 0 / 16 <? 12) && (nth 0 (w_data w) 0 mod 16 =? 0)
    then forallb (fun x => negb ((w_index x =? 3) && (w_svn x =? w_svn w) &&
           (time_of (subframe_of (w_gst x)) =? time_of (subframe_of (w_gst w)))) || (nth 0 (w_data x) 0 / 64 =? c))
           (osnma_words h)
    else true) (osnma_words h).

Lemma byte_high x : is_byte x -> load_be (sub 0 2 (bits_of_byte x)) = x / 64.
Proof.
  intros H. apply Z.eqb_eq. revert x H. apply (byte_cases (fun x => load_be (sub 0 2 (bits_of_byte x)) =? x / 64)).
  vm_compute. reflexivity.
Qed.

Lemma kroot_cid_code d f : Forall is_byte d -> (2 <= length d)%nat -> kroot_layout d f -> kf_cid f = nth 1 d 0 / 64.
Proof.
  intros Hd Hl HL. pose proof (proj1 (proj2 (kroot_numbers d f HL))) as H. unfold kroot_chain_id in H.
  rewrite (ErrorProofs.bits_at_one d 1 0 2 8 10 (fun x => x / 64)) in H by (auto using byte_high; lia). congruence.
Qed.

Lemma no_withdrawb_ok c root user h : Forall op_ok h -> no_withdrawb c h = true -> ~ key_withdrawn root user h.
Proof.
  intros Hok H. unfold no_withdrawb in H. apply andb_true_iff in H. destruct H as (Ha & H). rewrite forallb_forall in H.
  intros [Hal|(hd & f & kr & (id & d & pk & svn & g & hk & mk & Hid & Hd & HL & Hsf & -> & _ & _ & _ & Hk) & Hex)].
  { exact (no_alertb_ok root user h Hok Ha Hal). }
  destruct (word_of _ _ _ _ _ 0 Hok Hsf ltac:(lia)) as (w & W1 & W2 & _ & _ & W5).
  pose proof (H w W1) as Hw. rewrite W2, W5 in Hw. cbn [Z.of_nat] in Hw. rewrite Z.eqb_refl in Hw.
  apply andb_true_iff in Hw. destruct Hw as (Hw1 & Hw2). apply Z.eqb_eq in Hw1. apply negb_true_iff, Z.eqb_neq in Hw2.
  destruct Hex as [Hex|(Hex & _)]; [|contradiction]. apply Hex. rewrite Hw1. unfold chain_of. rewrite (kk_id _ _ Hk).
  pose proof (dsm_received_bytes _ _ _ Hok Hd) as Hdb. destruct Hd as (blocks & Ed & Hn & Hb).
  assert (Hbl : forall i b, nth_error blocks i = Some b -> length b = 13%nat).
  { intros i b Eb. destruct (Hb i b Eb) as (svn' & g' & hk' & mk' & Hsf' & _ & <-).
    destruct (subframe_received_bytes _ _ _ _ _ Hok Hsf') as ((Hlen & _) & _). rewrite skipn_length. lia. }
  destruct blocks as [|b bs].
  { exfalso. pose proof (kl_pad _ _ HL) as _. pose proof (kl_bits _ _ HL) as Hbits. rewrite Ed in Hbits. discriminate Hbits. }
  pose proof (Hbl 0%nat b eq_refl) as Hlb.
  assert (Hld : (2 <= length d)%nat) by (rewrite Ed; cbn [concat]; rewrite app_length; lia).
  rewrite (kroot_cid_code d f Hdb Hld HL).
  assert (E : nth 1 d 0 = nth 1 b 0) by (rewrite Ed; cbn [concat]; apply app_nth1; lia). rewrite E.
  destruct (Hb 0%nat b eq_refl) as (svn' & g' & hk' & mk' & Hsf' & Hnum & Hsk).
  destruct (word_of _ _ _ _ _ 1 Hok Hsf' ltac:(lia)) as (y & Y1 & Y2 & Y3 & Y4 & Y5).
  destruct (word_of _ _ _ _ _ 3 Hok Hsf' ltac:(lia)) as (x & X1 & X2 & X3 & X4 & X5).
  pose proof (H y Y1) as Hy. rewrite Y2, Y3, Y4, Y5, Hnum in Hy. cbn [Z.of_nat Pos.of_succ_nat Pos.succ] in Hy, X2.
  replace (1 =? 0) with false in Hy by reflexivity.
  replace ((1 =? 1) && ((16 * id + 0) / 16 <? 12) && ((16 * id + 0) mod 16 =? 0)) with true in Hy by lia.
  rewrite forallb_forall in Hy. specialize (Hy x X1). rewrite X2, X3, X4, X5 in Hy.
  assert (E3 : nth 3 hk' 0 = nth 1 b 0).
  { rewrite <- Hsk. destruct hk' as [|? [|? hk']]; [destruct b; reflexivity..|reflexivity]. }
  rewrite E3 in Hy. rewrite !Z.eqb_refl in Hy. cbn [andb negb orb] in Hy. lia.
Qed.

Lemma tx_in_force r m p k0 k1 cid s : tx_held r = Ok (m, p, (k0, k1), Some (mkCif cid s)) ->
  (exists g, k0 = Some (cid, g) \/ k1 = Some (cid, g)) -> exists o, r = Ok o /\ has_key_in_force (o_keys o).
Proof.
  intros H (g & Hg). destruct (tx_held_keys _ _ _ _ _ _ H) as (o & -> & _ & Hk). exists o. split; [reflexivity|].
  destruct (Hk _ Hg) as (k & Hh & E). exists (mkCif cid s), k. split.
  - cbn [tx_held bind] in H. apply (f_equal (fun x => match x with Ok (_, _, _, c) => c | Panic => None end)) in H. exact H.
  - split; [exact Hh|]. exact (f_equal fst E).
Qed.

(** The nominal signal and more of it: the key is kept.  In the log 1 is that there is no key and 2
    that a DSM-KROOT is verified: when chain 1 is revoked, there is no key any more. *)
Definition c79_codes (r : outcome (lines * osnma)) : list Z :=
  match r with
  | Ok (l, _) => flat_map (fun '(_, m) => match m with LgNoKey => [1] | LgKrootVerified _ => [2] | _ => [] end) l
  | Panic => []
  end.
Example C79_example_key :
  Forall op_ok (tx_nominal ++ after_alert) /\
  ~ key_withdrawn (Some (tx_root tx_leaves)) (Some (tx_pub 3)) (tx_nominal ++ after_alert) /\
  (exists o1, run tx_new tx_nominal = Ok o1 /\ has_key_in_force (o_keys o1)) /\
  c79_codes (run_log (Some LInfo) tx_new tx_nominal) = [1; 1; 1; 1; 1; 1; 1; 2] /\
  c79_codes (run_log (Some LInfo) tx_new revoke_ops) = [1; 1; 1; 1; 1; 1; 1; 2; 2; 1].
Proof.
  assert (Hok : Forall op_ok (tx_nominal ++ after_alert)) by (apply op_okb_ok; vm_compute; reflexivity).
  split; [exact Hok|]. split; [apply (no_withdrawb_ok 1); [exact Hok|vm_compute; reflexivity]|].
  split; [|split; vm_compute; reflexivity].
  eapply tx_in_force; [vm_compute; reflexivity|]. eexists. left. reflexivity.
Qed.

Print Assumptions C79_key_is_kept.
Print Assumptions C79_kroot_gives_key.
Print Assumptions C64_no_key_line_is_true.

(** The DSM collector implements Spec/CollectSpec.v. *)
From Coq Require Import ZArith List Bool Lia ZifyBool ZifyNat.
From Verif Require Import Model.Prelude Model.Params Model.Bitfields Model.Dsm
  Spec.CollectSpec Proofs.Base Proofs.LayoutProofs.
Import ListNotations.
Open Scope Z_scope.

Ltac Zify.zify_post_hook ::= Z.div_mod_to_equations.

Definition block_ok (b : block) : Prop := is_byte (b_header b) /\ length (b_data b) = 13%nat.

Definition feed_block (st : collect_dsm) (b : block) : outcome collect_dsm :=
  r <- dsm_feed st (b_header b) (b_data b) ;; Ok (fst r).
Definition feed_blocks (h : list block) : outcome collect_dsm :=
  fold_outcome feed_block h dsm_new.

(** A returned DSM as in the specification. *)
Definition dsm_out (d : dsm) : Z * bool * list Z :=
  (dm_id d, dsm_type_eqb (dm_type d) DsmPkr, dm_data d).

(** ** Bytes *)

Definition all_bytes : list Z := map Z.of_nat (seq 0 256).
Lemma all_bytes_in h : is_byte h -> In h all_bytes.
Proof.
  intros H. unfold is_byte in H. unfold all_bytes. apply in_map_iff. exists (Z.to_nat h).
  split; [lia|]. apply in_seq. lia.
Qed.

Lemma byte_cases (P : Z -> bool) : forallb P all_bytes = true -> forall h, is_byte h -> P h = true.
Proof. intros H h Hh. rewrite forallb_forall in H. apply H. now apply all_bytes_in. Qed.

Lemma dsm_id_div h : is_byte h -> dsm_id h = h / 16.
Proof.
  intros H. apply Z.eqb_eq. revert h H. apply (byte_cases (fun h => dsm_id h =? h / 16)).
  vm_compute. reflexivity.
Qed.

Lemma dsm_block_id_mod h : is_byte h -> dsm_block_id h = h mod 16.
Proof.
  intros H. apply Z.eqb_eq. revert h H. apply (byte_cases (fun h => dsm_block_id h =? h mod 16)).
  vm_compute. reflexivity.
Qed.

(** ** The specification *)

Lemma dsm_run_snoc h b : dsm_run (h ++ [b]) = dsm_run_for (dsm_run h) b ++ [b].
Proof. unfold dsm_run. now rewrite fold_left_app. Qed.

Lemma find_snoc {A} (p : A -> bool) l x :
  find p (l ++ [x]) = match find p l with Some y => Some y | None => if p x then Some x else None end.
Proof. induction l as [|y l IH]; cbn; [reflexivity|]. destruct (p y); auto. Qed.

Lemma first_copy_snoc n run b :
  first_copy n (run ++ [b]) = match first_copy n run with
                              | Some c => Some c
                              | None => if b_num b =? Z.of_nat n then Some b else None
                              end.
Proof. unfold first_copy. rewrite find_snoc. reflexivity. Qed.

Lemma first_copy_in n run b : first_copy n run = Some b -> In b run /\ b_num b = Z.of_nat n.
Proof. intros H. apply find_some in H. destruct H; split; [auto|lia]. Qed.

Lemma blocks_from_some n k run data :
  blocks_from n k run = Some data ->
  forall i, (k <= i < k + n)%nat -> exists b, first_copy i run = Some b.
Proof.
  revert k data; induction n as [|n IH]; intros k data H i Hi; [lia|].
  cbn in H. destruct (first_copy k run) as [b|] eqn:E; [|discriminate].
  destruct (blocks_from n (S k) run) as [l|] eqn:E2; [|discriminate].
  destruct (Nat.eq_dec i k) as [->|Hne]; [eauto|]. eapply IH; eauto. lia.
Qed.

Lemma blocks_from_all n k run :
  (forall i, (k <= i < k + n)%nat -> exists b, first_copy i run = Some b) ->
  exists data, blocks_from n k run = Some data.
Proof.
  revert k; induction n as [|n IH]; intros k H; [exists []; reflexivity|].
  cbn. destruct (H k) as (b & ->); [lia|].
  destruct (IH (S k)) as (data & ->); [|eauto]. intros i Hi. apply H. lia.
Qed.

(** The data of a complete DSM, from an array that has the blocks in place. *)
Lemma blocks_from_data n k run data arr :
  blocks_from n k run = Some data ->
  (13 * (k + n) <= length arr)%nat ->
  (forall i b, (k <= i < k + n)%nat -> first_copy i run = Some b ->
               sub (13 * i) (13 * i + 13) arr = b_data b) ->
  data = sub (13 * k) (13 * (k + n)) arr.
Proof.
  revert k data; induction n as [|n IH]; intros k data H Hlen Hrows.
  - injection H as <-. unfold sub. replace (13 * (k + 0) - 13 * k)%nat with 0%nat by lia. reflexivity.
  - cbn in H. destruct (first_copy k run) as [b|] eqn:E; [|discriminate].
    destruct (blocks_from n (S k) run) as [l|] eqn:E2; [|discriminate]. injection H as <-.
    rewrite <- (Hrows k b) by (auto; lia).
    rewrite (IH (S k) l) by (auto; try lia; intros; apply Hrows; auto; lia).
    replace (13 * S k)%nat with (13 * k + 13)%nat by lia.
    rewrite sub_app_sub by lia. f_equal. lia.
Qed.

Lemma blocks_from_snoc n k run b data :
  blocks_from n k run = Some data -> blocks_from n k (run ++ [b]) = Some data.
Proof.
  revert k data; induction n as [|n IH]; intros k data H; [exact H|].
  cbn in H |- *. rewrite first_copy_snoc. destruct (first_copy k run) as [c|]; [|discriminate].
  destruct (blocks_from n (S k) run) as [l|] eqn:E2; [|discriminate].
  rewrite (IH _ _ E2). exact H.
Qed.

Lemma complete_snoc id run b data :
  complete_dsm id run = Some data -> complete_dsm id (run ++ [b]) = Some data.
Proof.
  unfold complete_dsm. rewrite first_copy_snoc. destruct (first_copy 0 run) as [c|]; [|discriminate].
  destruct (blocks_needed id _); [|discriminate]. apply blocks_from_snoc.
Qed.

Lemma blocks_needed_eq id v :
  0 <= id ->
  dsm_number_of_blocks (if 12 <=? id then DsmPkr else DsmKroot) (Z.shiftr v 4) = blocks_needed id v.
Proof.
  intros _. rewrite Z.shiftr_div_pow2 by lia. change (2 ^ 4) with 16.
  unfold blocks_needed, is_pkr. set (nb := v / 16). clearbody nb.
  destruct (12 <=? id); unfold dsm_number_of_blocks.
  - destruct ((7 <=? nb) && (nb <=? 10)) eqn:E.
    + assert (nb = 7 \/ nb = 8 \/ nb = 9 \/ nb = 10) as [->|[->|[->| ->]]] by lia; reflexivity.
    + destruct nb as [|p|p]; try reflexivity.
      repeat (destruct p as [p|p|]; try reflexivity; try lia).
  - destruct ((1 <=? nb) && (nb <=? 8)) eqn:E.
    + assert (nb = 1 \/ nb = 2 \/ nb = 3 \/ nb = 4 \/ nb = 5 \/ nb = 6 \/ nb = 7 \/ nb = 8)
        as [->|[->|[->|[->|[->|[->|[->| ->]]]]]]] by lia; reflexivity.
    + destruct nb as [|p|p]; try reflexivity.
      repeat (destruct p as [p|p|]; try reflexivity; try lia).
Qed.

Lemma blocks_needed_range id v n : blocks_needed id v = Some n -> (7 <= n <= 16)%nat.
Proof.
  unfold blocks_needed. destruct (is_pkr id); destruct (_ && _) eqn:E; try discriminate;
    intros H; injection H as <-; lia.
Qed.

(** ** The invariant *)

Definition is_some {A} (x : option A) : bool := match x with Some _ => true | None => false end.

(** Contents of the arrays for a run that is not complete. *)
Definition holds_run (run : list block) (st : collect_dsm) : Prop :=
  forall n, (n < 16)%nat ->
    nth_error (cd_block_valid st) n = Some (is_some (first_copy n run)) /\
    (forall b, first_copy n run = Some b -> sub (13 * n) (13 * n + 13) (cd_dsm st) = b_data b).

Definition represents_dsm (run : list block) (st : collect_dsm) : Prop :=
  length (cd_dsm st) = 208%nat /\ length (cd_block_valid st) = 16%nat /\
  match run with
  | [] => cd_type st = None
  | r :: _ =>
      cd_id st = b_dsm r /\
      cd_type st = Some (if 12 <=? b_dsm r then DsmPkr else DsmKroot) /\
      cd_done st = is_some (complete_dsm (b_dsm r) run) /\
      (cd_done st = false -> holds_run run st)
  end.

Lemma represents_dsm_new : represents_dsm [] dsm_new.
Proof. repeat split. Qed.

Lemma dsm_run_same h r run : dsm_run h = r :: run -> forall b, In b (r :: run) -> b_dsm b = b_dsm r.
Proof.
  revert r run. induction h as [|w h IH] using rev_ind; intros r run E b Hb; [discriminate|].
  rewrite dsm_run_snoc in E. unfold dsm_run_for in E.
  destruct (dsm_run h) as [|r0 run0] eqn:E0.
  - injection E as <- <-. destruct Hb as [<-|[]]; auto.
  - destruct (b_dsm r0 =? b_dsm w) eqn:Ew.
    + injection E as <- <-. destruct Hb as [<-|Hb]; auto.
      apply in_app_or in Hb. destruct Hb as [Hb|[<-|[]]]; [|lia].
      eapply IH; eauto. right; auto.
    + injection E as <- <-. destruct Hb as [<-|[]]; auto.
Qed.

Lemma store_block_spec run st b :
  length (cd_dsm st) = 208%nat -> length (cd_block_valid st) = 16%nat ->
  holds_run run st -> block_ok b ->
  exists st', store_block st (b_num b) (b_data b) = Ok st' /\
    length (cd_dsm st') = 208%nat /\ length (cd_block_valid st') = 16%nat /\
    cd_done st' = cd_done st /\ cd_type st' = cd_type st /\ cd_id st' = cd_id st /\
    holds_run (run ++ [b]) st'.
Proof.
  intros Hl1 Hl2 Hh (Hbyte & Hlen). unfold is_byte in Hbyte.
  unfold store_block, dsm_block_bytes.
  assert (Hn : 0 <= b_num b < 16) by (unfold b_num; lia).
  set (n := Z.to_nat (b_num b)). assert (Hn' : (n < 16)%nat) by lia.
  rewrite slice_in by lia. cbn [bind].
  destruct (Hh n Hn') as (Hv & Hd).
  unfold index. rewrite Hv. cbn [unwrap bind].
  destruct (first_copy n run) as [c|] eqn:Ec; cbn [is_some].
  - exists st. repeat split; auto.
    + rewrite first_copy_snoc. destruct (Hh n0 H) as (Hv' & _). rewrite Hv'.
      destruct (first_copy n0 run) as [d|] eqn:Ed; [reflexivity|].
      destruct (b_num b =? Z.of_nat n0) eqn:E; [|reflexivity].
      assert (n0 = n) by lia. congruence.
    + intros d. rewrite first_copy_snoc. destruct (Hh n0 H) as (_ & Hd').
      destruct (first_copy n0 run) as [e|] eqn:Ed.
      * intros He. injection He as <-. now apply Hd'.
      * destruct (b_num b =? Z.of_nat n0) eqn:E; [|discriminate].
        assert (n0 = n) by lia. congruence.
  - rewrite copy_from_in by lia. cbn [bind]. rewrite set_index_in by lia. cbn [bind].
    eexists. split; [reflexivity|]. cbn [cd_dsm cd_block_valid cd_done cd_type cd_id].
    rewrite length_put by lia. rewrite length_put1 by lia.
    repeat match goal with |- _ /\ _ => split end; auto.
    intros k Hk. destruct (Hh k Hk) as (Hv' & Hd').
    cbn [cd_dsm cd_block_valid]. rewrite first_copy_snoc, nth_error_put1 by lia.
    destruct (n =? k)%nat eqn:E.
    + assert (k = n) as -> by lia. rewrite Ec.
      replace (b_num b =? Z.of_nat n) with true by lia. split; [reflexivity|].
      intros d Hd0. injection Hd0 as <-. replace (13 * n)%nat with (n * 13)%nat by lia.
      apply sub_put_same; lia.
    + replace (b_num b =? Z.of_nat k) with false by lia.
      assert (Esub : sub (13 * k) (13 * k + 13) (put (n * 13) (b_data b) (cd_dsm st))
                     = sub (13 * k) (13 * k + 13) (cd_dsm st))
        by (apply sub_put_other; lia).
      rewrite Esub. destruct (first_copy k run); split; auto; discriminate.
Qed.

Lemma forallb_firstn_valid run l n :
  (n <= 16)%nat -> length l = 16%nat ->
  (forall k, (k < 16)%nat -> nth_error l k = Some (is_some (first_copy k run))) ->
  (forallb (fun x => x) (sub 0 n l) = true <-> exists data, blocks_from n 0 run = Some data).
Proof.
  intros Hn Hl Hv. rewrite forallb_forall. split.
  - intros H. apply blocks_from_all. intros i Hi.
    destruct (first_copy i run) as [b|] eqn:E; [eauto|].
    assert (Hi' : nth_error (sub 0 n l) i = Some false).
    { rewrite nth_error_sub. replace (i <? n - 0)%nat with true by lia.
      cbn [Nat.add]. rewrite Hv by lia. now rewrite E. }
    apply nth_error_In in Hi'. apply H in Hi'. discriminate.
  - intros (data & H) x Hx. apply In_nth_error in Hx. destruct Hx as (i & Hx).
    rewrite nth_error_sub in Hx. destruct (i <? n - 0)%nat eqn:E; [|discriminate].
    cbn [Nat.add] in Hx. rewrite Hv in Hx by lia.
    destruct (blocks_from_some _ _ _ _ H i) as (b & Eb); [lia|]. rewrite Eb in Hx.
    now injection Hx as <-.
Qed.

Lemma done_and_size_spec run st id :
  length (cd_dsm st) = 208%nat -> length (cd_block_valid st) = 16%nat ->
  Forall block_ok run -> holds_run run st -> 0 <= id ->
  exists r, done_and_size st (if 12 <=? id then DsmPkr else DsmKroot) = Ok r /\
    match complete_dsm id run with
    | Some data => exists n, r = Some n /\ slice (cd_dsm st) 0 n = Ok data
    | None => r = None
    end.
Proof.
  intros Hl1 Hl2 Hok Hh Hid. unfold done_and_size, complete_dsm.
  destruct (Hh 0%nat ltac:(lia)) as (Hv0 & Hd0).
  unfold index. rewrite Hv0. cbn [unwrap bind].
  destruct (first_copy 0 run) as [b0|] eqn:E0; cbn [is_some negb]; [|eauto].
  assert (Hb0 : length (b_data b0) = 13%nat).
  { apply first_copy_in in E0. rewrite Forall_forall in Hok. now apply Hok. }
  assert (Hbyte : nth_error (cd_dsm st) 0 = Some (nth 0 (b_data b0) 0)).
  { rewrite <- (Hd0 b0 eq_refl). cbn [Nat.mul Nat.add].
    rewrite <- (nth_error_nth' (sub 0 13 (cd_dsm st)) 0) by (rewrite length_sub; lia).
    rewrite nth_error_sub. reflexivity. }
  rewrite Hbyte. cbn [unwrap bind].
  rewrite blocks_needed_eq by auto.
  destruct (blocks_needed id (nth 0 (b_data b0) 0)) as [n|] eqn:En; [|eauto].
  pose proof (blocks_needed_range _ _ _ En) as Hn.
  rewrite slice_in by lia. cbn [bind].
  pose proof (forallb_firstn_valid run (cd_block_valid st) n ltac:(lia) Hl2
    (fun k Hk => proj1 (Hh k Hk))) as Hf.
  destruct (forallb _ _) eqn:Ef.
  - destruct (proj1 Hf eq_refl) as (data & Hdata). rewrite Hdata.
    eexists. split; [reflexivity|]. exists (n * dsm_block_bytes)%nat. split; [reflexivity|].
    unfold dsm_block_bytes. rewrite slice_in by lia. f_equal. symmetry.
    replace (n * 13)%nat with (13 * (0 + n))%nat by lia.
    change 0%nat with (13 * 0)%nat at 1.
    apply (blocks_from_data n 0 run); auto; [lia|].
    intros i b Hi Hb. apply (Hh i); auto. lia.
  - destruct (blocks_from n 0 run) as [data|] eqn:Eb; [|eauto].
    assert (false = true) by (apply Hf; eauto). discriminate.
Qed.

Lemma dsm_feed_spec h st b :
  Forall block_ok (dsm_run h) -> block_ok b -> represents_dsm (dsm_run h) st ->
  exists st' out, dsm_feed st (b_header b) (b_data b) = Ok (st', out) /\
    option_map dsm_out out = expected_dsm h b /\
    represents_dsm (dsm_run (h ++ [b])) st'.
Proof.
  intros Hok Hb Hrep. pose proof Hb as (Hbyte & Hblen).
  unfold dsm_feed. rewrite dsm_run_snoc. unfold expected_dsm.
  set (before := dsm_run_for (dsm_run h) b).
  unfold dsm_type. rewrite dsm_id_div, dsm_block_id_mod by auto.
  fold (b_dsm b) (b_num b).
  set (st1 := if _ || _ then _ else st).
  assert (Hid0 : 0 <= b_dsm b) by (unfold b_dsm, is_byte in *; lia).
  assert (Hst1 : length (cd_dsm st1) = 208%nat /\ length (cd_block_valid st1) = 16%nat /\
    cd_id st1 = b_dsm b /\ cd_type st1 = Some (if 12 <=? b_dsm b then DsmPkr else DsmKroot) /\
    cd_done st1 = is_some (complete_dsm (b_dsm b) before) /\
    (cd_done st1 = false -> holds_run before st1) /\ Forall block_ok before /\
    (forall x, In x before -> b_dsm x = b_dsm b)).
  { destruct Hrep as (Hl1 & Hl2 & Hrep).
    assert (Hreset : before = [] ->
      st1 = mkCollectDsm (cd_dsm st) (repeat false 16) false
                         (Some (if 12 <=? b_dsm b then DsmPkr else DsmKroot)) (b_dsm b) ->
      length (cd_dsm st1) = 208%nat /\ length (cd_block_valid st1) = 16%nat /\
      cd_id st1 = b_dsm b /\ cd_type st1 = Some (if 12 <=? b_dsm b then DsmPkr else DsmKroot) /\
      cd_done st1 = is_some (complete_dsm (b_dsm b) before) /\
      (cd_done st1 = false -> holds_run before st1) /\ Forall block_ok before /\
      (forall x, In x before -> b_dsm x = b_dsm b)).
    { intros -> ->. cbn [cd_dsm cd_block_valid cd_done cd_type cd_id].
      rewrite repeat_length. repeat match goal with |- _ /\ _ => split end; auto.
      - intros _ n Hn. cbn [cd_block_valid first_copy find is_some cd_dsm].
        rewrite nth_error_repeat by lia. split; [reflexivity|discriminate].
      - intros x []. }
    destruct (dsm_run h) as [|r run] eqn:Erun.
    - apply Hreset; [reflexivity|]. unfold st1. rewrite Hrep, orb_true_r. reflexivity.
    - destruct Hrep as (Hid & Ht & Hd & Hh).
      assert (Est : st1 = if negb (b_dsm b =? b_dsm r)
        then mkCollectDsm (cd_dsm st) (repeat false 16) false
               (Some (if 12 <=? b_dsm b then DsmPkr else DsmKroot)) (b_dsm b) else st)
        by (unfold st1; rewrite Hid, Ht, orb_false_r; reflexivity).
      assert (Eb : before = if b_dsm r =? b_dsm b then r :: run else []) by reflexivity.
      clearbody before st1.
      destruct (b_dsm r =? b_dsm b) eqn:E.
      + assert (E' : b_dsm b = b_dsm r) by lia. rewrite E', Z.eqb_refl in Est. cbn [negb] in Est.
        subst before st1. rewrite E'.
        repeat match goal with |- _ /\ _ => split end; auto.
        intros x Hx. now apply (dsm_run_same h r run Erun).
      + rewrite Z.eqb_sym, E in Est. cbn [negb] in Est. now apply Hreset. }
  clearbody st1. clear Hrep Hok st.
  destruct Hst1 as (Hl1 & Hl2 & Hid & Ht & Hd & Hh & Hok & Hsame).
  rewrite Ht. cbn [unwrap bind].
  assert (Hhead : forall st', length (cd_dsm st') = 208%nat -> length (cd_block_valid st') = 16%nat ->
     cd_id st' = b_dsm b -> cd_type st' = Some (if 12 <=? b_dsm b then DsmPkr else DsmKroot) ->
     cd_done st' = is_some (complete_dsm (b_dsm b) (before ++ [b])) ->
     (cd_done st' = false -> holds_run (before ++ [b]) st') ->
     represents_dsm (before ++ [b]) st').
  { intros st' H1 H2 H3 H4 H5 H6. unfold represents_dsm.
    destruct (before ++ [b]) as [|r l] eqn:El; [destruct before; discriminate|].
    assert (Hr : b_dsm r = b_dsm b).
    { destruct before as [|r' l']; injection El as -> _; [auto|]. apply Hsame. left; auto. }
    rewrite Hr. repeat split; auto; apply H6; auto. }
  rewrite Hd. destruct (complete_dsm (b_dsm b) before) as [data|] eqn:Ec; cbn [is_some].
  - exists st1, None. split; [reflexivity|]. split; [reflexivity|].
    apply Hhead; auto.
    + rewrite Hd, (complete_snoc _ _ b _ Ec). reflexivity.
    + rewrite Hd. discriminate.
  - destruct (store_block_spec before st1 b) as (st2 & E2 & G1 & G2 & G3 & G4 & G5 & G6); auto.
    rewrite E2. cbn [bind].
    assert (Hok2 : Forall block_ok (before ++ [b])) by (apply Forall_app; auto).
    destruct (done_and_size_spec (before ++ [b]) st2 (b_dsm b)) as (r & Er & Hr); auto.
    rewrite Er. cbn [bind].
    destruct (complete_dsm (b_dsm b) (before ++ [b])) as [data|] eqn:Ec2.
    + destruct Hr as (n & -> & Hs). rewrite Hs. cbn [bind].
      eexists _, _. split; [reflexivity|]. split.
      * cbn [option_map dsm_out dm_id dm_type dm_data]. rewrite G5, Hid. unfold is_pkr.
        destruct (12 <=? b_dsm b); reflexivity.
      * apply Hhead; cbn [cd_dsm cd_block_valid cd_done cd_type cd_id]; try congruence.
        reflexivity.
    + subst r. eexists _, _. split; [reflexivity|]. split; [reflexivity|].
      apply Hhead; try congruence; cbn [is_some]; try congruence. auto.
Qed.

Lemma Forall_dsm_run (P : block -> Prop) h : Forall P h -> Forall P (dsm_run h).
Proof.
  induction h as [|b h IH] using rev_ind; intros H; [constructor|].
  apply Forall_app in H. destruct H as (H1 & H2). rewrite dsm_run_snoc. apply Forall_app.
  split; auto. unfold dsm_run_for. destruct (dsm_run h) as [|r run]; [constructor|].
  destruct (_ =? _); auto.
Qed.

Lemma feed_blocks_snoc h b : feed_blocks (h ++ [b]) = (st <- feed_blocks h ;; feed_block st b).
Proof.
  unfold feed_blocks. rewrite fold_outcome_app. cbn [fold_outcome].
  destruct (fold_outcome feed_block h dsm_new) as [s|]; [|reflexivity]. cbn [bind].
  destruct (feed_block s b); reflexivity.
Qed.

Lemma feed_blocks_represents h : Forall block_ok h ->
  exists st, feed_blocks h = Ok st /\ represents_dsm (dsm_run h) st.
Proof.
  induction h as [|b h IH] using rev_ind; intros H.
  - exists dsm_new. split; [reflexivity|]. apply represents_dsm_new.
  - apply Forall_app in H. destruct H as (Hh & Hb). inversion Hb as [|? ? Hb' _]; subst.
    destruct (IH Hh) as (st & E & Hrep).
    destruct (dsm_feed_spec h st b) as (st' & out & E' & _ & Hrep'); auto.
    + now apply Forall_dsm_run.
    + exists st'. rewrite feed_blocks_snoc, E. cbn [bind]. unfold feed_block. rewrite E'. auto.
Qed.

Lemma dsm_exact h : Forall block_ok h ->
  exists st, feed_blocks h = Ok st /\
  forall b, block_ok b ->
  exists st' out, dsm_feed st (b_header b) (b_data b) = Ok (st', out) /\
                  option_map dsm_out out = expected_dsm h b.
Proof.
  intros H. destruct (feed_blocks_represents h H) as (st & E & Hrep).
  exists st. split; [exact E|]. intros b Hb.
  destruct (dsm_feed_spec h st b) as (st' & out & E' & Ho & _); auto.
  - now apply Forall_dsm_run.
  - exists st', out. auto.
Qed.

(** ** Reading the specification *)

Lemma dsm_run_for_in h b x : In x (dsm_run_for (dsm_run h) b) -> In x h /\ b_dsm x = b_dsm b.
Proof.
  assert (Hin : forall y, In y (dsm_run h) -> In y h).
  { induction h as [|c h IH] using rev_ind; intros y; [auto|].
    rewrite dsm_run_snoc. intros Hy. apply in_app_or in Hy. apply in_or_app.
    destruct Hy as [Hy|Hy]; [left|right; auto].
    unfold dsm_run_for in Hy. destruct (dsm_run h) as [|r run] eqn:E; [destruct Hy|].
    destruct (_ =? _); [|destruct Hy]. now apply IH. }
  unfold dsm_run_for. destruct (dsm_run h) as [|r run] eqn:E; [intros []|].
  destruct (b_dsm r =? b_dsm b) eqn:Er; [|intros []].
  intros Hx. split; [now apply Hin|]. pose proof (dsm_run_same h r run E x Hx). lia.
Qed.

Lemma blocks_from_list n k run data :
  blocks_from n k run = Some data ->
  exists bs, length bs = n /\ data = flat_map b_data bs /\
    forall i, (i < n)%nat -> nth_error bs i = first_copy (k + i) run.
Proof.
  revert k data; induction n as [|n IH]; intros k data H.
  - injection H as <-. exists []. repeat split; intros; lia.
  - cbn [blocks_from] in H. destruct (first_copy k run) as [b|] eqn:E; [|discriminate].
    destruct (blocks_from n (S k) run) as [l|] eqn:E2; [|discriminate]. injection H as <-.
    destruct (IH _ _ E2) as (bs & Hl & -> & Hbs).
    exists (b :: bs). split; [cbn [length]; lia|]. split; [reflexivity|].
    intros [|i] Hc; cbn [nth_error].
    + rewrite Nat.add_0_r. now rewrite E.
    + rewrite Hbs by lia. f_equal. lia.
Qed.

Lemma expected_dsm_sound h b id pkr data :
  expected_dsm h b = Some (id, pkr, data) ->
  id = b_dsm b /\ pkr = (12 <=? id) /\
  exists bs b0, nth_error bs 0 = Some b0 /\ data = flat_map b_data bs /\
    blocks_needed id (nth 0 (b_data b0) 0) = Some (length bs) /\
    forall i c, nth_error bs i = Some c ->
      In c (h ++ [b]) /\ b_dsm c = id /\ b_num c = Z.of_nat i.
Proof.
  unfold expected_dsm. set (before := dsm_run_for (dsm_run h) b).
  destruct (complete_dsm (b_dsm b) before) as [d|] eqn:E1; [discriminate|].
  destruct (complete_dsm (b_dsm b) (before ++ [b])) as [d|] eqn:E2; [|discriminate].
  intros H. injection H as <- <- <-. split; [reflexivity|]. split; [reflexivity|].
  unfold complete_dsm in E2. destruct (first_copy 0 (before ++ [b])) as [b0|] eqn:E0; [|discriminate].
  destruct (blocks_needed _ _) as [n|] eqn:En; [|discriminate].
  pose proof (blocks_needed_range _ _ _ En) as Hn.
  destruct (blocks_from_list _ _ _ _ E2) as (bs & Hl & -> & Hbs).
  exists bs, b0. subst n. split; [rewrite Hbs by lia; exact E0|].
  split; [reflexivity|]. split; [exact En|].
  intros i c Hc. rewrite Hbs in Hc by (apply nth_error_Some; congruence).
  apply first_copy_in in Hc. destruct Hc as (Hin & Hnum). rewrite Nat.add_0_l in Hnum.
  apply in_app_or in Hin. destruct Hin as [Hin|[<-|[]]].
  - apply dsm_run_for_in in Hin. destruct Hin as (Hin & Hd). split; [apply in_or_app; auto|auto].
  - split; [apply in_or_app; right; left; auto|auto].
Qed.

(** A DSM is returned at most once until another DSM id comes. *)
Lemma dsm_run_for_extend p q w :
  (forall x, In x q -> b_dsm x = b_dsm w) ->
  dsm_run_for (dsm_run (p ++ q)) w = dsm_run_for (dsm_run p) w ++ q.
Proof.
  induction q as [|x q IH] using rev_ind; intros H; [now rewrite !app_nil_r|].
  rewrite app_assoc, dsm_run_snoc.
  assert (Hx : b_dsm x = b_dsm w) by (apply H; apply in_or_app; right; left; auto).
  assert (Hr : forall r, dsm_run_for r x = dsm_run_for r w)
    by (intros [|r0 r]; cbn [dsm_run_for]; [reflexivity|now rewrite Hx]).
  rewrite Hr, IH by (intros y Hy; apply H; apply in_or_app; auto).
  rewrite <- app_assoc. unfold dsm_run_for at 1.
  destruct (dsm_run_for (dsm_run p) w ++ q ++ [x]) as [|r l] eqn:E; [reflexivity|].
  assert (b_dsm r =? b_dsm w = true) as ->; [|reflexivity].
  assert (Hin : In r (dsm_run_for (dsm_run p) w ++ q ++ [x])) by (rewrite E; left; auto).
  apply in_app_or in Hin. destruct Hin as [Hin|Hin].
  - apply dsm_run_for_in in Hin. lia.
  - apply H in Hin. lia.
Qed.

Lemma complete_app id run q data :
  complete_dsm id run = Some data -> complete_dsm id (run ++ q) = Some data.
Proof.
  revert run; induction q as [|x q IH]; intros run H; [now rewrite app_nil_r|].
  change (x :: q) with ([x] ++ q). rewrite app_assoc. apply IH. now apply complete_snoc.
Qed.

Lemma expected_dsm_once h b q b' :
  expected_dsm h b <> None ->
  (forall x, In x q -> b_dsm x = b_dsm b) -> b_dsm b' = b_dsm b ->
  expected_dsm (h ++ b :: q) b' = None.
Proof.
  intros H Hq Hb. unfold expected_dsm in *. rewrite Hb.
  rewrite dsm_run_for_extend by (intros x [<-|Hx]; [auto|rewrite Hb; auto]).
  assert (E : dsm_run_for (dsm_run h) b' = dsm_run_for (dsm_run h) b)
    by (unfold dsm_run_for; destruct (dsm_run h); [reflexivity|now rewrite Hb]).
  rewrite E. destruct (complete_dsm (b_dsm b) (dsm_run_for (dsm_run h) b)); [congruence|].
  destruct (complete_dsm (b_dsm b) (dsm_run_for (dsm_run h) b ++ [b])) as [d|] eqn:E2; [|congruence].
  change (b :: q) with ([b] ++ q). rewrite app_assoc, (complete_app _ _ q _ E2). reflexivity.
Qed.

(** It is returned as soon as all the blocks are there, whatever their order. *)
Lemma complete_dsm_iff id run :
  (exists data, complete_dsm id run = Some data) <->
  exists b0 n, first_copy 0 run = Some b0 /\ blocks_needed id (nth 0 (b_data b0) 0) = Some n /\
    forall i, (i < n)%nat -> exists b, In b run /\ b_num b = Z.of_nat i.
Proof.
  unfold complete_dsm. split.
  - intros (data & H). destruct (first_copy 0 run) as [b0|] eqn:E0; [|discriminate].
    destruct (blocks_needed _ _) as [n|] eqn:En; [|discriminate].
    exists b0, n. repeat split; auto. intros i Hi.
    destruct (blocks_from_some _ _ _ _ H i) as (b & Hb); [lia|].
    exists b. now apply first_copy_in.
  - intros (b0 & n & -> & -> & H). apply blocks_from_all. intros i Hi.
    destruct (H i) as (b & Hin & Hnum); [lia|].
    destruct (first_copy i run) as [c|] eqn:E; [eauto|].
    apply find_none with (x := b) in E; auto. lia.
Qed.

(** Property C66: how often a call evaluates the one-way function of the TESLA chains. *)
From Coq Require Import ZArith String List Bool Lia.
From Verif Require Import Model.Prelude Model.Params Model.Gst Model.Svn Model.Bitfields Model.Maclt Model.Tesla Model.Merkle
  Model.Subframe Model.Dsm Model.MackStore Model.Nav Model.Osnma Model.Work
  Spec.TimeSpec Spec.CollectSpec Spec.NavSpec Spec.TeslaSpec Spec.KrootSpec Spec.MerkleSpec Spec.MacltSpec Spec.KeySpec
  Spec.SystemSpec Spec.CompleteSpec Spec.PanicSpec Spec.HonestSpec Spec.WorkSpec
  Proofs.Base Proofs.GstProofs Proofs.DsmProofs Proofs.TeslaProofs Proofs.KrootProofs Proofs.SystemProofs Proofs.TotalProofs Proofs.HonestKeys
  Proofs.WorkProofs Proofs.SubframeProofs
  Examples.Sha256 Examples.Vectors Props.SystemProps Examples.Demo Examples.Toy Examples.Transmit Props.KeyProps
  Props.CompleteProps Props.PanicProps Props.HonestProps Props.ColdProps.
Import ListNotations.
Open Scope list_scope.
Open Scope Z_scope.
Local Existing Instance toy_crypto.

(** ** C66 *)

(** The functions that count do the same as those of the model. *)
Theorem C66_counting_changes_nothing :
  forall (C : crypto) (B : build) (S : storage) o x,
  match step_work o x with Ok (_, o') => step o x = Ok o' | Panic => step o x = Panic end.
Proof.
  intros C B S o x. pose proof (step_erase o x) as H. unfold erase in H. destruct (step_work o x) as [(n, o')|]; now symmetry.
Qed.

(** If neither a call nor a root key is after [T], a call at [t] makes at most
    3010 + (T - t) / 30 evaluations: 3000 for the new key, 10 for the key of the Slow MAC, and
    the way back from a key of another chain.  Missing for the full claim: the last part has no
    limit, see C66_refuted. *)
Theorem C66_work_bounded_partial :
  forall (C : crypto) (B : build) (S : storage), crypto_ok C -> storage_ok S ->
  forall root user slow T h x o n o', Forall op_ok (h ++ [x]) -> not_after root user T (h ++ [x]) ->
  run (osnma_new root user slow) h = Ok o -> step_work o x = Ok (n, o') ->
  0 <= n /\ 30 * n <= 30 * 3010 + (T - time_of (subframe_of (op_gst x))).
Proof.
  intros C B S HC HS root user slow T h x o n o' Hok HT Hr H.
  exact (step_count HC HS root user slow T h o x n o' Hok HT Hr H).
Qed.

(** In time order and without root keys of the future, 3010 is the limit. *)
Theorem C66_no_future_keys_partial :
  forall (C : crypto) (B : build) (S : storage), crypto_ok C -> storage_ok S ->
  forall root user slow h x o n o', Forall op_ok (h ++ [x]) -> in_time_order (h ++ [x]) ->
  (forall kr, verified_root root user (h ++ [x]) kr -> time_of (k_gst kr) <= time_of (op_gst x)) ->
  run (osnma_new root user slow) h = Ok o -> step_work o x = Ok (n, o') -> 0 <= n <= 3010.
Proof.
  intros C B S HC HS root user slow h x o n o' Hok Hord Hroots Hr H.
  assert (HT : not_after root user (time_of (op_gst x)) (h ++ [x])).
  { split; [|exact Hroots]. intros y Hy. apply In_nth_error in Hy. destruct Hy as (i & Hi).
    assert (Hlt : (i < List.length (h ++ [x]))%nat) by (apply nth_error_Some; congruence). rewrite app_length in Hlt. cbn [List.length] in Hlt.
    apply (Hord i (List.length h) y x); [lia|exact Hi|]. rewrite nth_error_app2 by lia. now rewrite Nat.sub_diag. }
  destruct (step_count HC HS root user slow _ h o x n o' Hok HT Hr H) as (H1 & H2).
  assert (Hg : gst_ok (op_gst x)).
  { apply Forall_app in Hok. destruct Hok as (_ & Hx). apply Forall_cons_iff in Hx. destruct Hx as (Hx & _).
    destruct x; exact (proj2 (proj2 Hx)). }
  assert (Ht : time_of (op_gst x) < time_of (subframe_of (op_gst x)) + 30).
  { destruct (op_gst x) as [w t]. unfold subframe_of, time_of. cbn [g_wn g_tow]. clear.
    pose proof (Z.mod_pos_bound t 30 ltac:(lia)). pose proof (Z.div_mod t 30 ltac:(lia)). lia. }
  lia.
Qed.

(** A receiver that hears the nominal transmission of one chain makes at most 3010 evaluations in
    each call. *)
Theorem C66_nominal_work_bounded :
  forall (C : crypto) (B : build) (S : storage), crypto_ok C -> storage_ok S ->
  forall root user pk slow t h x o n o', transmission_ok pk t -> Forall op_ok (h ++ [x]) ->
  hears root user pk t (h ++ [x]) -> in_subframe_order (h ++ [x]) ->
  run (osnma_new root user slow) h = Ok o -> step_work o x = Ok (n, o') -> 0 <= n <= 3010.
Proof.
  intros C B S HC HS root user pk slow t h x o n o' Ht Hok Hh Hord Hr H.
  exact (honest_count HC HS root user slow pk t h o x n o' Ht Hok Hh Hord Hr H).
Qed.

(** *** Example: the nominal transmission *)

Definition c66_count (r : outcome osnma) (x : op) : outcome Z := o <- r ;; '(n, _) <- step_work o x ;; Ok n.
Example C66_example_nominal :
  transmission_ok c55_pk c55_t /\ Forall op_ok c61_h /\ hears (Some c61_root) None c55_pk c55_t c61_h /\ in_subframe_order c61_h /\
  c61_h = removelast c61_h ++ [c55_x] /\
  c66_count (run (osnma_new (Some c61_root) None false) (removelast c61_h)) c55_x = Ok 11.
Proof.
  destruct C61_example as (_ & H1 & H2 & H3 & H4 & _).
  split; [exact H1|]. split; [exact H3|]. split; [exact H2|]. split; [exact H4|]. split; vm_compute; reflexivity.
Qed.

(** *** Example: no root key of the future *)

(** In the words [ws], every DSM-KROOT begins with these seven bytes, which include the time of the
    root key. *)
Definition kroots_start (ws : list oword) (b : list Z) : bool :=
  forallb (fun w1 => negb ((w_index w1 =? 1) && (nth 0 (w_data w1) 0 mod 16 =? 0) && (nth 0 (w_data w1) 0 <? 192)) ||
    forallb (fun w => negb ((w_svn w =? w_svn w1) && gst_eqb (subframe_of (w_gst w)) (subframe_of (w_gst w1)) &&
                            (2 <=? w_index w) && (w_index w <=? 8)) ||
                      (nth 0 (w_data w) 0 =? nth (Z.to_nat (w_index w - 2)) b 0)) ws) ws.
Lemma hkroot_byte h svn g hk mk i : Forall op_ok h -> subframe_received h svn g hk mk -> (i < 15)%nat ->
  exists w, In w (osnma_words h) /\ w_svn w = svn /\ w_index w = Z.of_nat i /\ subframe_of (w_gst w) = g /\
    nth i hk 0 = nth 0 (w_data w) 0.
Proof.
  intros Hok (ws & (Hl & Hs & Hw) & Hg & -> & _) Hi.
  assert (Hd : forall w, In w ws -> List.length (w_data w) = 5%nat).
  { intros w Hin. pose proof (osnma_words_ok h Hok) as H. rewrite Forall_forall in H.
    exact (proj1 (H w (SubframeProofs.subsequence_in _ _ _ Hs Hin))). }
  destruct (nth_error ws i) as [w|] eqn:E; [|apply nth_error_None in E; lia].
  pose proof (nth_error_In _ _ E) as Hin. exists w. split; [exact (SubframeProofs.subsequence_in _ _ _ Hs Hin)|].
  split; [exact (proj1 (Hw i w E))|]. split; [exact (proj2 (Hw i w E))|]. split; [exact (Hg w Hin)|].
  clear - Hd E. revert i E. induction ws as [|v ws IH]; intros i E; [destruct i; discriminate E|].
  pose proof (Hd v (or_introl eq_refl)) as Hv. unfold hkroot_of in *. cbn [flat_map].
  destruct (w_data v) as [|b0 l] eqn:Ev; [discriminate Hv|]. cbn [firstn app].
  destruct i as [|i]; cbn [nth_error nth] in *.
  - assert (v = w) as <- by congruence. now rewrite Ev.
  - apply IH; [intros u Hu; apply Hd; now right|exact E].
Qed.
Lemma bits_at_front d b a e : firstn 7 d = b -> (a <= e)%nat -> (e <= 56)%nat -> List.length b = 7%nat ->
  bits_at d a e = bits_at b a e.
Proof.
  intros Hb Hae He Hl. assert (Hd : bits_of_bytes d = bits_of_bytes b ++ bits_of_bytes (skipn 7 d)).
  { rewrite <- bits_of_bytes_app, <- Hb. now rewrite firstn_skipn. }
  assert (Hlb : List.length (bits_of_bytes b) = 56%nat) by (rewrite length_bits_of_bytes; lia).
  unfold bits_at, slice. rewrite Hd, app_length, Hlb.
  replace ((a <=? e) && (e <=? 56 + List.length (bits_of_bytes (skipn 7 d))))%nat with true by (symmetry; apply andb_true_iff; split; apply Nat.leb_le; lia).
  replace ((a <=? e) && (e <=? 56))%nat with true by (symmetry; apply andb_true_iff; split; apply Nat.leb_le; lia).
  unfold sub. rewrite skipn_app, firstn_app, skipn_length, Hlb. replace (e - a - (56 - a))%nat with 0%nat by lia. now rewrite firstn_O, app_nil_r.
Qed.
Lemma nth_front n : forall (l : list Z) i, (i < n)%nat -> nth i (firstn n l) 0 = nth i l 0.
Proof. induction n as [|n IH]; intros [|x l] [|i] H; cbn [firstn nth]; try reflexivity; try lia. apply IH. lia. Qed.
Lemma nth_back m : forall (l : list Z) i, nth i (skipn m l) 0 = nth (m + i) l 0.
Proof. induction m as [|m IH]; intros [|x l] i; cbn [skipn Nat.add nth]; try reflexivity; [now destruct i|apply IH]. Qed.
Lemma kroots_start_time {C : crypto} h b root user kr wn towh : Forall op_ok h -> kroots_start (osnma_words h) b = true ->
  List.length b = 7%nat -> bits_at b 36 48 = Ok wn -> bits_at b 48 56 = Ok towh -> verified_root root user h kr ->
  time_of (k_gst kr) = (604800 * wn + 3600 * towh - 30) mod (65536 * 604800).
Proof.
  intros Hok Hb Hlb Hwn Htow (id & d & f & pk & svn & g & hk & mk & Hid & (blocks & Hd & Hn & Hbl) & HL & _ & _ & _ & _ & Hk).
  pose proof (blocks_needed_range _ _ _ Hn) as Hlen.
  destruct blocks as [|b0 blocks]; [cbn [List.length] in Hlen; lia|].
  destruct (Hbl 0%nat b0 eq_refl) as (sv & g0 & hk0 & mk0 & Hs & H1 & Hb0).
  destruct (subframe_received_bytes _ _ _ _ _ Hok Hs) as ((Hl0 & Hby) & _).
  assert (Hfirst : firstn 7 d = b).
  { rewrite Hd. cbn [concat]. rewrite <- Hb0, firstn_app, skipn_length, Hl0.
    replace (7 - (15 - 2))%nat with 0%nat by lia. rewrite firstn_O, app_nil_r.
    apply nth_ext with (d := 0) (d' := 0); [rewrite firstn_length, skipn_length, Hl0; lia|].
    intros i Hi. rewrite firstn_length, skipn_length, Hl0 in Hi. rewrite nth_front by lia. rewrite nth_back.
    destruct (hkroot_byte _ _ _ _ _ 1 Hok Hs ltac:(lia)) as (w1 & I1 & S1 & X1 & G1 & E1).
    destruct (hkroot_byte _ _ _ _ _ (2 + i) Hok Hs ltac:(lia)) as (w & I2 & S2 & X2 & G2 & E2).
    unfold kroots_start in Hb. rewrite forallb_forall in Hb. specialize (Hb w1 I1).
    rewrite X1, <- E1, H1 in Hb. replace ((16 * id + Z.of_nat 0) mod 16 =? 0) with true in Hb.
    2: { symmetry. apply Z.eqb_eq. rewrite Z.add_0_r, Z.mul_comm. apply Z_mod_mult. }
    replace (16 * id + Z.of_nat 0 <? 192) with true in Hb by lia. cbn [Z.of_nat Z.eqb andb negb orb Pos.eqb Pos.of_succ_nat] in Hb.
    rewrite forallb_forall in Hb. specialize (Hb w I2). rewrite S1, S2, Z.eqb_refl, G1, G2 in Hb.
    assert (Hgg : gst_eqb g0 g0 = true) by (unfold gst_eqb; now rewrite !Z.eqb_refl). rewrite Hgg, X2 in Hb.
    replace (2 <=? Z.of_nat (2 + i)) with true in Hb by lia. replace (Z.of_nat (2 + i) <=? 8) with true in Hb by lia.
    cbn [andb negb orb] in Hb. rewrite Z.eqb_eq in Hb. replace (Z.to_nat (Z.of_nat (2 + i) - 2)) with i in Hb by lia.
    now rewrite E2. }
  pose proof (kroot_param_at d f HL 10 12 (kf_wn f) 36 48 eq_refl eq_refl eq_refl) as P1.
  pose proof (kroot_param_at d f HL 11 8 (kf_towh f) 48 56 eq_refl eq_refl eq_refl) as P2.
  rewrite (bits_at_front d b 36 48 Hfirst ltac:(lia) ltac:(lia) Hlb), Hwn in P1.
  rewrite (bits_at_front d b 48 56 Hfirst ltac:(lia) ltac:(lia) Hlb), Htow in P2.
  rewrite (kk_time _ _ Hk). congruence.
Qed.
Definition c66_h : list op := Eval vm_compute in removelast tx_nominal.
Definition c66_x : op := Eval vm_compute in last tx_nominal (FeedOsnma [] 1 (gst_at 0)).
Example C66_example :
  Forall op_ok (c66_h ++ [c66_x]) /\ in_time_order (c66_h ++ [c66_x]) /\
  (forall kr, verified_root None (Some (tx_pub 3)) (c66_h ++ [c66_x]) kr -> time_of (k_gst kr) = tx_t0 - 30) /\
  (exists kr, verified_root None (Some (tx_pub 3)) (c66_h ++ [c66_x]) kr) /\
  not_after None (Some (tx_pub 3)) (tx_t0 + 58) (c66_h ++ [c66_x]) /\
  c66_count (run (osnma_new None (Some (tx_pub 3)) false) c66_h) c66_x = Ok 11.
Proof.
  assert (Hok : Forall op_ok (c66_h ++ [c66_x])) by (apply op_okb_ok; vm_compute; reflexivity).
  assert (Hkr : forall kr, verified_root None (Some (tx_pub 3)) (c66_h ++ [c66_x]) kr -> time_of (k_gst kr) = tx_t0 - 30).
  { intros kr H. rewrite (kroots_start_time _ [35; 64; 73; 33; 4; 176; 2] None (Some (tx_pub 3)) kr 1200 2 Hok); [reflexivity|vm_compute; reflexivity|reflexivity| | |exact H];
    vm_compute; reflexivity. }
  split; [exact Hok|]. split; [apply in_time_orderb; vm_compute; reflexivity|]. split; [exact Hkr|]. split; [|split].
  - assert (E : exists o k, run (osnma_new None (Some (tx_pub 3)) false) (c66_h ++ [c66_x]) = Ok o /\ ks_k0 (o_keys o) = Some k).
    { assert (H : match run (osnma_new None (Some (tx_pub 3)) false) (c66_h ++ [c66_x]) with
                  | Ok o => match ks_k0 (o_keys o) with Some _ => true | None => false end | Panic => false end = true) by (vm_compute; reflexivity).
      destruct (run _ _) as [o|]; [|discriminate H]. destruct (ks_k0 (o_keys o)) as [k|] eqn:Ek; [|discriminate H]. exists o, k. auto. }
    destruct E as (o & k & Hr & Hk).
    destruct (run_inv toy_crypto_ok full_storage_ok None (Some (tx_pub 3)) false _ Hok _ Hr) as (_ & Hinv).
    destruct (ri_keys _ _ _ _ _ Hinv k (or_introl Hk)) as (_ & kr & n & Hv & _). exists kr. exact Hv.
  - split.
    + assert (H : forallb (fun y => time_of (op_gst y) <=? tx_t0 + 58) (c66_h ++ [c66_x]) = true) by (vm_compute; reflexivity).
      rewrite forallb_forall in H. intros y Hy. apply Z.leb_le. exact (H y Hy).
    + intros kr H. rewrite (Hkr kr H). lia.
  - vm_compute. reflexivity.
Qed.

(** *** A call that makes 56 million evaluations *)

(** A DSM-KROOT of chain 1 with a root key of week 4000, received in week 1200; one of chain 2,
    which is now the chain in force; and, in the next subframe, the key of chain 2.  The receiver
    derives the key of five minutes before for the Slow MAC from the key of chain 1. *)
Definition c66_far : tx_chain := mkTx 1 (firstn 16 (toy_sha256 [1])) (4000 * 604800 - 30).
Definition c66_bad : list op := Eval vm_compute in
  (tx_dsm tx_t0 (tx_header 2 1 1) 7 (kroot_msg (tx_header 2 1 1) (pk_bytes 3) 3 c66_far (4000 * 604800)) junk
   ++ tx_dsm (tx_t0 + 30) (tx_header 2 2 1) 8 (kroot_msg (tx_header 2 2 1) (pk_bytes 3) 3 chain2 tx_t0) junk
   ++ removelast (tx_one (tx_t0 + 60) (tx_header 2 2 1) 8 (kroot_msg (tx_header 2 2 1) (pk_bytes 3) 3 chain2 tx_t0)
                    (tx_mack0 chain2 (tx_t0 + 60)))).
Definition c66_bad_x : op := Eval vm_compute in
  last (tx_one (tx_t0 + 60) (tx_header 2 2 1) 8 (kroot_msg (tx_header 2 2 1) (pk_bytes 3) 3 chain2 tx_t0)
          (tx_mack0 chain2 (tx_t0 + 60))) (FeedOsnma [] 1 (gst_at 0)).
(** A call that completes a subframe but no DSM, with chains that can be used without panic. *)
Definition quiet_call (o : osnma) (h : list op) (x : op) : bool :=
  match x with
  | FeedOsnma data svn g =>
      negb (forallb (fun b => b =? 0) data) && keys_fitb (o_keys o) &&
      match expected_subframe (osnma_words h) (mkWord data svn g) with
      | Some (hk, mk, g') =>
          (360 <=? time_of g') && (match completed_dsm h hk with None => true | Some _ => false end) &&
          (match dsm_feed (o_dsm o) (nth 1 hk 0) (skipn 2 hk) with Ok (_, None) => true | _ => false end)
      | None => false
      end
  | _ => false
  end.
Definition slow_check (o : osnma) (h : list op) (x : op) (d : Z) : bool :=
  quiet_call o h x && match slow_derivations o x with Ok d' => d <? d' | Panic => false end.
Definition slow_run (o : osnma) (h : list op) (x : op) (d : Z) : bool :=
  match run o h with Ok o => slow_check o h x d | Panic => false end.
Lemma slow_run_work root user h x d : Forall op_ok (h ++ [x]) -> slow_run (osnma_new root user false) h x d = true ->
  exists o n o', run (osnma_new root user false) h = Ok o /\ step_work o x = Ok (n, o') /\ d < n.
Proof.
  intros Hok H. unfold slow_run in H. destruct (run (osnma_new root user false) h) as [o|] eqn:Hr; [|discriminate H].
  unfold slow_check in H. apply andb_true_iff in H. destruct H as (Hq & Hd).
  destruct x as [w svn g b|data svn g]; [discriminate Hq|]. unfold quiet_call in Hq. rewrite !andb_true_iff, negb_true_iff in Hq.
  destruct Hq as ((Hz & Hfit) & Hq).
  assert (Hstep : exists o', step o (FeedOsnma data svn g) = Ok o').
  { apply (harmless_step toy_crypto_ok full_storage_ok root user false h o _ Hok Hr).
    intros hk mk g' (data' & svn' & gk & Ex & _ & Ee).
    assert (data' = data) as -> by congruence. assert (svn' = svn) as -> by congruence. assert (gk = g) as -> by congruence.
    rewrite Ee, !andb_true_iff in Hq. destruct Hq as ((Ht & Hcd) & Hfeed). split; [intros _; now apply Z.leb_le|]. split.
    - intros pkr dd E. rewrite E in Hcd. discriminate Hcd.
    - intros ks k k' (cd & dd & Ef & Hks) Hk Hk'. rewrite Ef in Hfeed. destruct dd; [discriminate Hfeed|]. subst ks.
      exact (keys_fitb_ok _ Hfit k k' Hk Hk'). }
  destruct Hstep as (o' & Hstep). pose proof (C66_counting_changes_nothing toy_crypto _ _ o (FeedOsnma data svn g)) as Hw.
  destruct (step_work o (FeedOsnma data svn g)) as [(n, o'')|] eqn:E; [|rewrite Hw in Hstep; discriminate Hstep].
  exists o, n, o''. split; [reflexivity|]. split; [exact E|].
  destruct (slow_derivations o (FeedOsnma data svn g)) as [d'|] eqn:Ed; [|discriminate Hd]. apply Z.ltb_lt in Hd.
  pose proof (slow_derivations_made o (FeedOsnma data svn g) d' n o'' Hz Ed E). lia.
Qed.
Theorem C66_refuted : exists root user h x o n o',
  Forall op_ok (h ++ [x]) /\ in_time_order (h ++ [x]) /\ run (osnma_new root user false) h = Ok o /\
  step_work o x = Ok (n, o') /\ 56000000 < n.
Proof.
  assert (Hok : Forall op_ok (c66_bad ++ [c66_bad_x])) by (apply op_okb_ok; vm_compute; reflexivity).
  destruct (slow_run_work None (Some (tx_pub 3)) c66_bad c66_bad_x 56000000 Hok ltac:(vm_compute; reflexivity)) as (o & n & o' & H).
  exists None, (Some (tx_pub 3)), c66_bad, c66_bad_x, o, n, o'.
  split; [exact Hok|]. split; [apply in_time_orderb; vm_compute; reflexivity|]. exact H.
Qed.

Print Assumptions C66_counting_changes_nothing.
Print Assumptions C66_work_bounded_partial.
Print Assumptions C66_no_future_keys_partial.
Print Assumptions C66_nominal_work_bounded.
Print Assumptions C66_refuted.

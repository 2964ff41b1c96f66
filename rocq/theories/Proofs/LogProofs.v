(** What galmon-osnma logs. *)
From Coq Require Import ZArith List Bool Lia ZifyBool ZifyNat.
From Verif Require Import Model.Prelude Model.Params Model.Gst Model.Svn Model.Merkle Model.Nav Model.Osnma Model.Transport Model.Apps
  Spec.TimeSpec Spec.CollectSpec Spec.NavSpec Spec.SystemSpec Spec.AppsSpec
  Proofs.Base Proofs.GstProofs Proofs.NavProofs Proofs.EntryProofs Proofs.NavInv Proofs.NavHistory Proofs.TagProofs Proofs.SystemProofs Proofs.GetterProofs
  Proofs.KeyStoreProofs Proofs.AppsProofs.
Import ListNotations.
Open Scope Z_scope.

(** ** Lists *)

Definition pad (size : nat) (l : list bool) : list bool := l ++ repeat false (size - length l).

Lemma skipn_repeat {A} (x : A) n m : skipn n (repeat x m) = repeat x (m - n).
Proof.
  revert m. induction n as [|n IH]; intros [|m]; try reflexivity. cbn [skipn repeat]. rewrite IH. reflexivity.
Qed.

Lemma pad_copy size l : (length l <= size)%nat -> copy_from (repeat false size) 0 (length l) l = Ok (pad size l).
Proof.
  intros H. unfold copy_from. rewrite repeat_length.
  replace ((0 <=? length l)%nat && (length l <=? size)%nat && (length l - 0 =? length l)%nat) with true by (symmetry; lia).
  unfold put, pad. cbn [firstn app plus]. now rewrite skipn_repeat.
Qed.

Lemma pad_inj size l l' : length l = length l' -> pad size l = pad size l' -> l = l'.
Proof.
  intros H E. unfold pad in E. rewrite H in E. apply (f_equal (firstn (length l'))) in E.
  rewrite !firstn_app in E. replace (length l' - length l)%nat with 0%nat in E by lia. rewrite Nat.sub_diag in E.
  rewrite !firstn_O, !app_nil_r in E. rewrite firstn_all in E. rewrite <- H, firstn_all in E. exact E.
Qed.

Lemma all_new_snoc {A} (l : list A) x : all_new l -> hd_error (rev l) <> Some x -> all_new (l ++ [x]).
Proof.
  intros H Hx i a b Ha Hb. destruct (Nat.lt_ge_cases (i + 1) (length l)) as [Hl|Hl].
  - rewrite nth_error_app1 in Ha, Hb by lia. now apply (H i).
  - rewrite nth_error_app2 in Hb by lia. destruct (i + 1 - length l)%nat as [|n] eqn:En; [|destruct n; discriminate].
    cbn [nth_error] in Hb. injection Hb as <-. rewrite nth_error_app1 in Ha by lia. intros <-.
    apply Hx. destruct l as [|y l _] using rev_ind; [cbn [length] in En; lia|].
    rewrite app_length in *. cbn [length] in *. rewrite nth_error_app2 in Ha by lia.
    replace (i - length l)%nat with 0%nat in Ha by lia. cbn [nth_error] in Ha. injection Ha as ->.
    rewrite rev_app_distr. reflexivity.
Qed.

Lemma all_new_nil {A} : all_new (@nil A).
Proof. intros i x y H. destruct i; discriminate. Qed.

Lemma logged_snoc k svn log v : logged k svn (log ++ [v]) =
  logged k svn log ++ (if same_kind (v_kind v) k && (v_svn v =? svn) then [v_data v] else []).
Proof.
  unfold logged. rewrite filter_app, map_app. cbn [filter]. destruct (same_kind (v_kind v) k && (v_svn v =? svn)); reflexivity.
Qed.

Lemma same_kind_refl k : same_kind k k = true.
Proof. destruct k; reflexivity. Qed.

Lemma same_kind_eq k k' : same_kind k k' = true -> k = k'.
Proof. destruct k, k'; (reflexivity || discriminate). Qed.

Lemma last_logged_snoc k svn log v : last_logged k svn (log ++ [v]) =
  if same_kind (v_kind v) k && (v_svn v =? svn) then Some (v_data v) else last_logged k svn log.
Proof.
  unfold last_logged. rewrite logged_snoc. destruct (same_kind (v_kind v) k && (v_svn v =? svn)).
  - rewrite rev_app_distr. reflexivity.
  - now rewrite app_nil_r.
Qed.

(** ** The arrays *)

(** The array holds what was logged last. *)
Definition table_ok (k : nav_kind) (size : nat) (t : list (option (list bool))) (log : list event) : Prop :=
  length t = 36%nat /\
  forall svn, 1 <= svn <= 36 ->
    nth_error t (Z.to_nat svn - 1) = Some (option_map (pad size) (last_logged k svn log)) /\
    Forall (fun l => length l = kind_bits k) (logged k svn log) /\ all_new (logged k svn log).

Lemma last_logged_in k svn log l : last_logged k svn log = Some l -> In l (logged k svn log).
Proof.
  unfold last_logged. intros H. apply in_rev. destruct (rev (logged k svn log)); [discriminate|].
  injection H as ->. now left.
Qed.

Lemma nth_error_put {A} (l : list A) i v j : (i < length l)%nat ->
  nth_error (put i [v] l) j = if (j =? i)%nat then Some v else nth_error l j.
Proof.
  intros Hi. unfold put. destruct (j =? i)%nat eqn:E.
  - apply Nat.eqb_eq in E. subst j. rewrite nth_error_app2 by (rewrite firstn_length; lia).
    rewrite firstn_length. replace (i - Nat.min i (length l))%nat with 0%nat by lia. reflexivity.
  - apply Nat.eqb_neq in E. destruct (Nat.lt_ge_cases j i) as [Hj|Hj].
    + rewrite nth_error_app1 by (rewrite firstn_length; lia).
      rewrite <- (firstn_skipn i l) at 2. rewrite nth_error_app1 by (rewrite firstn_length; lia). reflexivity.
    + rewrite nth_error_app2 by (rewrite firstn_length; lia). rewrite firstn_length.
      replace (j - Nat.min i (length l))%nat with (S (j - i - 1))%nat by lia. cbn [length app nth_error].
      rewrite <- (firstn_skipn (i + 1) l) at 2. rewrite nth_error_app2 by (rewrite firstn_length; lia).
      rewrite firstn_length. f_equal. lia.
Qed.

Lemma length_put_in {A} (l : list A) i v : (i < length l)%nat -> length (put i [v] l) = length l.
Proof. intros H. unfold put. rewrite !app_length, firstn_length, skipn_length. cbn [length]. lia. Qed.

(** Data of the other kind does not matter for an array. *)
Lemma table_other k k' size t log v : v_kind v = k' -> k <> k' -> table_ok k size t log -> table_ok k size t (log ++ [v]).
Proof.
  intros Hv Hk (H1 & H2). split; [exact H1|]. intros svn Hs. destruct (H2 svn Hs) as (A1 & A2 & A3).
  rewrite last_logged_snoc, logged_snoc, Hv.
  destruct (same_kind k' k) eqn:E; [apply same_kind_eq in E; congruence|]. cbn [andb]. rewrite app_nil_r. auto.
Qed.

Lemma log_data_spec k size svn data t log t' log' :
  (kind_bits k <= size)%nat -> 1 <= svn <= 36 -> table_ok k size t log ->
  (forall d, data = Some d -> length (nd_data d) = kind_bits k) ->
  log_data k size svn data (t, log) = Ok (t', log') ->
  table_ok k size t' log' /\
  (forall d, data = Some d -> last_logged k svn log' = Some (nd_data d)) /\
  (log' = log \/
   exists d, data = Some d /\ log' = log ++ [mkEvent k svn (nd_authbits d) (nd_gst d) (nd_data d)]).
Proof.
  intros Hsz Hs (H1 & H2) Hd. unfold log_data. destruct data as [d|].
  2: { intros E. injection E as <- <-. split; [split; assumption|]. split; [discriminate|now left]. }
  specialize (Hd d eq_refl). rewrite pad_copy by lia. cbn [bind].
  destruct (H2 svn Hs) as (A1 & A2 & A3). unfold index. rewrite A1. cbn [unwrap bind].
  destruct (match option_map (pad size) (last_logged k svn log) with Some l => bits_eqb l (pad size (nd_data d)) | None => false end) eqn:E.
  - intros K. injection K as <- <-. split; [split; assumption|]. split; [|now left].
    intros d' Ed. injection Ed as <-. destruct (last_logged k svn log) as [l|] eqn:El; [|discriminate].
    cbn [option_map] in E. apply bits_eqb_eq in E. f_equal. apply (pad_inj size); [|exact E].
    rewrite Forall_forall in A2. rewrite (A2 l (last_logged_in _ _ _ _ El)). now symmetry.
  - unfold set_index. rewrite H1. destruct (Z.to_nat svn - 1 <? 36)%nat eqn:E36; [|lia]. cbn [bind].
    intros K. injection K as <- <-. set (v := mkEvent k svn (nd_authbits d) (nd_gst d) (nd_data d)).
    assert (Hl : last_logged k svn log <> Some (nd_data d)).
    { intros K. rewrite K in E. cbn [option_map] in E. rewrite bits_eqb_refl in E. discriminate. }
    split; [|split; [|right; exists d; auto]].
    + split; [rewrite length_put_in; lia|]. intros s Hs'. rewrite nth_error_put by lia.
      rewrite last_logged_snoc, logged_snoc. cbn [v_kind v_svn v_data v]. rewrite same_kind_refl. cbn [andb].
      destruct (H2 s Hs') as (B1 & B2 & B3). destruct (Z.eqb_spec svn s) as [<-|Hne].
      * rewrite Nat.eqb_refl. split; [reflexivity|]. split.
        -- apply Forall_app. split; [exact B2|]. constructor; [exact Hd|constructor].
        -- apply all_new_snoc; [exact B3|exact Hl].
      * destruct (Z.to_nat s - 1 =? Z.to_nat svn - 1)%nat eqn:En; [lia|]. rewrite app_nil_r. auto.
    + intros d' Ed. injection Ed as <-. rewrite last_logged_snoc. cbn [v_kind v_svn v_data v].
      rewrite same_kind_refl, Z.eqb_refl. reflexivity.
Qed.

Section Crypto.
Context {C : crypto} {B : build} {S : storage}.
Hypothesis HC : crypto_ok C.
Hypothesis HS : storage_ok S.
Variables (root : option (list Z)) (user : option public_key) (slow : bool).
Notation new := (osnma_new root user slow).

Lemma getter_length h o k svn d : Forall op_ok h -> run new h = Ok o -> getter k o svn = Ok (Some d) ->
  length (nd_data d) = kind_bits k.
Proof.
  intros Hops Hrun Hget. destruct (run_inv HC HS root user slow h Hops o Hrun) as (_ & Hinv).
  destruct (ri_nav _ _ _ _ _ Hinv) as (hs & Hrep & Hok & Hn).
  destruct (getter_entry HS _ _ _ _ _ Hrep Hget) as (s & e & H1 & H2 & H3 & H4 & -> & _).
  apply message_bits_length. unfold nav_ok in Hok. rewrite Forall_forall in Hok.
  apply (row_ok_in k (s_row k s)); [apply (Hok s H1)|exact H2].
Qed.

Lemma getter_new k svn : forall d, getter k new svn <> Ok (Some d).
Proof.
  intros d H. destruct (returned_received HC HS root user slow [] new k svn d 0 ltac:(constructor) eq_refl H) as (w & [] & _).
  destruct k; cbn [icd_fields length]; lia.
Qed.

(** ** The loop over the satellites *)

Definition tables_ok (z : galmon) : Prop := table_ok Ced (69 * 8) (z_ced z) (z_log z) /\ table_ok Timing (18 * 8) (z_timing z) (z_log z).

(** An event is what a getter returned. *)
Definition event_of (o : osnma) (v : event) : Prop :=
  getter (v_kind v) o (v_svn v) = Ok (Some (mkNavData (v_data v) (v_authbits v) (v_gst v))).

Lemma log_svn_spec h o z svn z' : Forall op_ok h -> run new h = Ok o -> 1 <= svn <= 36 -> tables_ok z ->
  log_svn o z svn = Ok z' ->
  tables_ok z' /\ z_app z' = z_app z /\ z_osnma z' = z_osnma z /\
  (forall k d, getter k o svn = Ok (Some d) -> last_logged k svn (z_log z') = Some (nd_data d)) /\
  (forall k s, s <> svn -> last_logged k s (z_log z') = last_logged k s (z_log z)) /\
  exists es, z_log z' = z_log z ++ es /\ Forall (event_of o) es.
Proof.
  intros Hops Hrun Hs (T1 & T2) H. unfold log_svn in H. bind_inv H. rename x into ced, E into Ec.
  bind_inv H. destruct x as [tc log1]. rename E into E1.
  bind_inv H. rename x into timing, E into Et. bind_inv H. destruct x as [ti log2]. rename E into E2.
  injection H as <-. cbn [z_app z_osnma z_log z_ced z_timing].
  assert (Lc : forall d, ced = Some d -> length (nd_data d) = kind_bits Ced).
  { intros d ->. apply (getter_length h o Ced svn d Hops Hrun). exact Ec. }
  assert (Lt : forall d, timing = Some d -> length (nd_data d) = kind_bits Timing).
  { intros d ->. apply (getter_length h o Timing svn d Hops Hrun). exact Et. }
  destruct (log_data_spec Ced (69 * 8) svn ced _ _ _ _ ltac:(cbn [kind_bits]; lia) Hs T1 Lc E1) as (T1' & Lst1 & G1).
  assert (T2' : table_ok Timing (18 * 8) (z_timing z) log1).
  { destruct G1 as [->|(d & _ & ->)]; [exact T2|]. apply (table_other Timing Ced); [reflexivity|discriminate|exact T2]. }
  destruct (log_data_spec Timing (18 * 8) svn timing _ _ _ _ ltac:(cbn [kind_bits]; lia) Hs T2' Lt E2) as (T3 & Lst2 & G2).
  assert (T1'' : table_ok Ced (69 * 8) tc log2).
  { destruct G2 as [->|(d & _ & ->)]; [exact T1'|]. apply (table_other Ced Timing); [reflexivity|discriminate|exact T1']. }
  assert (Hced : last_logged Ced svn log2 = last_logged Ced svn log1).
  { destruct G2 as [->|(d & _ & ->)]; [reflexivity|]. rewrite last_logged_snoc. reflexivity. }
  split; [split; assumption|]. split; [reflexivity|]. split; [reflexivity|]. split.
  { intros [|] d Hd; cbn [getter] in Hd.
    - rewrite Hced. apply Lst1. congruence.
    - apply Lst2. congruence. }
  split.
  { intros k s Hne.
    assert (K1 : last_logged k s log2 = last_logged k s log1).
    { destruct G2 as [->|(d & _ & ->)]; [reflexivity|]. rewrite last_logged_snoc. cbn [v_kind v_svn].
      destruct (Z.eqb_spec svn s); [congruence|]. now rewrite andb_false_r. }
    assert (K2 : last_logged k s log1 = last_logged k s (z_log z)).
    { destruct G1 as [->|(d & _ & ->)]; [reflexivity|]. rewrite last_logged_snoc. cbn [v_kind v_svn].
      destruct (Z.eqb_spec svn s); [congruence|]. now rewrite andb_false_r. }
    congruence. }
  assert (V1 : exists es, log1 = z_log z ++ es /\ Forall (event_of o) es).
  { destruct G1 as [->|(d & -> & ->)]; [exists []; rewrite app_nil_r; split; [reflexivity|constructor]|].
    eexists. split; [reflexivity|]. constructor; [|constructor]. unfold event_of. cbn [v_kind v_svn v_data v_authbits v_gst].
    destruct d; exact Ec. }
  assert (V2 : exists es, log2 = log1 ++ es /\ Forall (event_of o) es).
  { destruct G2 as [->|(d & -> & ->)]; [exists []; rewrite app_nil_r; split; [reflexivity|constructor]|].
    eexists. split; [reflexivity|]. constructor; [|constructor]. unfold event_of. cbn [v_kind v_svn v_data v_authbits v_gst].
    destruct d; exact Et. }
  destruct V1 as (e1 & -> & V1), V2 as (e2 & -> & V2). exists (e1 ++ e2). split; [now rewrite app_assoc|now apply Forall_app].
Qed.

Lemma log_all_spec h o l : Forall op_ok h -> run new h = Ok o -> NoDup l -> (forall s, In s l -> 1 <= s <= 36) ->
  forall z z', tables_ok z -> fold_outcome (log_svn o) l z = Ok z' ->
  tables_ok z' /\ z_app z' = z_app z /\ z_osnma z' = z_osnma z /\
  (forall k s d, In s l -> getter k o s = Ok (Some d) -> last_logged k s (z_log z') = Some (nd_data d)) /\
  (forall k s, ~ In s l -> last_logged k s (z_log z') = last_logged k s (z_log z)) /\
  exists es, z_log z' = z_log z ++ es /\ Forall (event_of o) es.
Proof.
  intros Hops Hrun Hnd. induction Hnd as [|s l Hni Hnd IH]; intros Hl z z' Hz H; cbn [fold_outcome] in H.
  - injection H as <-. split; [exact Hz|]. split; [reflexivity|]. split; [reflexivity|]. split; [intros k s d []|].
    split; [reflexivity|]. exists []. split; [now rewrite app_nil_r|constructor].
  - bind_inv H. destruct (log_svn_spec h o z s x Hops Hrun (Hl s (or_introl eq_refl)) Hz E) as (Z1 & A1 & O1 & L1 & N1 & e1 & V1 & W1).
    destruct (IH (fun y Hy => Hl y (or_intror Hy)) x z' Z1 H) as (Z2 & A2 & O2 & L2 & N2 & e2 & V2 & W2).
    split; [exact Z2|]. split; [congruence|]. split; [congruence|]. split.
    { intros k y d [<-|Hy] Hd; [|now apply L2]. rewrite (N2 k s Hni). now apply L1. }
    split.
    { intros k y Hy. cbn [In] in Hy. rewrite N2 by tauto. apply N1. intros ->. tauto. }
    exists (e1 ++ e2). split; [rewrite V2, V1; now rewrite app_assoc|now apply Forall_app].
Qed.

(** ** The whole program *)

Lemma all_calls_app (ms1 : list message) : forall ms2 (a : app_vars),
  galmon_all_calls a (ms1 ++ ms2)
  = ('(a1, l1) <- galmon_all_calls a ms1 ;; '(a2, l2) <- galmon_all_calls a1 ms2 ;; Ok (a2, l1 ++ l2)).
Proof.
  induction ms1 as [|m ms1 IH]; intros ms2 a; cbn [galmon_all_calls app].
  - cbn [bind]. destruct (galmon_all_calls a ms2) as [[a2 l2]|]; reflexivity.
  - destruct (galmon_calls a m) as [[a1 l1]|]; [|reflexivity]. cbn [bind]. rewrite IH.
    destruct (galmon_all_calls a1 ms1) as [[a2 l2]|]; [|reflexivity]. cbn [bind].
    destruct (galmon_all_calls a2 ms2) as [[a3 l3]|]; [|reflexivity]. cbn [bind]. now rewrite app_assoc.
Qed.

Theorem galmon_run ms : Forall message_ok ms -> forall z, fold_outcome galmon_step ms (galmon_new new) = Ok z ->
  exists l, galmon_all_calls app_new ms = Ok (z_app z, l) /\ run new l = Ok (z_osnma z) /\ Forall op_ok l /\ in_subframe_order l /\
    (forall v, In v (z_log z) -> exists ms1 ms2 a1 l1 o1, ms = ms1 ++ ms2 /\
       galmon_all_calls app_new ms1 = Ok (a1, l1) /\ run new l1 = Ok o1 /\ event_of o1 v) /\
    tables_ok z /\
    (forall k svn d, 1 <= svn <= 36 -> getter k (z_osnma z) svn = Ok (Some d) -> last_logged k svn (z_log z) = Some (nd_data d)).
Proof.
  induction ms as [|m ms IH] using rev_ind; intros Hok z H.
  - cbn [fold_outcome] in H. injection H as <-. cbn [galmon_new z_app z_osnma z_log z_ced z_timing galmon_all_calls].
    exists []. split; [reflexivity|]. split; [reflexivity|]. split; [constructor|]. split; [intros i j x y _ Hx; destruct i; discriminate|].
    split; [intros v []|]. split.
    + assert (Hnew : forall k size, table_ok k size (repeat None num_svns) []).
      { intros k size. split; [apply repeat_length|]. intros svn Hs. split; [|split; [constructor|apply all_new_nil]].
        unfold last_logged, logged. cbn [filter map rev hd_error option_map].
        rewrite nth_error_nth' with (d := None) by (rewrite repeat_length; unfold num_svns; lia). now rewrite nth_repeat. }
      split; apply Hnew.
    + intros k svn d _ Hd. now apply getter_new in Hd.
  - apply Forall_app in Hok. destruct Hok as [Hok Hm]. pose proof Hm as Hm1. apply Forall_cons_iff in Hm1. destruct Hm1 as [Hm1 _].
    rewrite fold_outcome_app in H. bind_inv H. cbn [fold_outcome] in H. bind_inv H. injection H as <-. rename x into z0, x0 into z1.
    destruct (IH Hok z0 E) as (l & Hc & Hr & Ho & Hord & Hv & Ht & Hlast).
    unfold galmon_step in E0. bind_inv E0. destruct x as [a calls]. cbn [z_osnma z_ced z_timing z_log] in E0.
    assert (Hall : galmon_all_calls app_new (ms ++ [m]) = Ok (a, l ++ calls)).
    { rewrite all_calls_app, Hc. cbn [bind galmon_all_calls]. rewrite E1. cbn [bind]. now rewrite app_nil_r. }
    destruct (all_calls_ok (ms ++ [m]) app_new a (l ++ calls) ltac:(now apply Forall_app) I ltac:(cbn [app_new a_last]; lia) Hall)
      as (Hops & _ & Hsub).
    assert (Hv' : forall v, In v (z_log z0) -> exists ms1 ms2 a1 l1 o1, ms ++ [m] = ms1 ++ ms2 /\
       galmon_all_calls app_new ms1 = Ok (a1, l1) /\ run new l1 = Ok o1 /\ event_of o1 v).
    { intros v Hin. destruct (Hv v Hin) as (ms1 & ms2 & a1 & l1 & o1 & -> & K). exists ms1, (ms2 ++ [m]), a1, l1, o1.
      split; [now rewrite app_assoc|exact K]. }
    exists (l ++ calls). destruct calls as [|c calls].
    + injection E0 as <-. cbn [z_app z_osnma z_log z_ced z_timing]. rewrite app_nil_r in *.
      split; [exact Hall|]. split; [exact Hr|]. split; [exact Ho|]. split; [exact Hord|]. split; [exact Hv'|]. split; [exact Ht|exact Hlast].
    + bind_inv E0. rename x into o1.
      assert (Hr1 : run new (l ++ c :: calls) = Ok o1) by (rewrite run_app, Hr; exact E2).
      destruct (log_all_spec (l ++ c :: calls) o1 svn_iter Hops Hr1 svn_iter_nodup (fun s Hs => proj1 (svn_iter_in s) Hs)
                  (mkGalmon a o1 (z_ced z0) (z_timing z0) (z_log z0)) z1 Ht E0) as (T & A & O & L & _ & es & V & W).
      cbn [z_app z_osnma z_log] in *. rewrite A, O.
      split; [exact Hall|]. split; [exact Hr1|]. split; [exact Hops|]. split; [exact Hsub|]. split; [|split; [exact T|]].
      * intros v Hin. rewrite V in Hin. apply in_app_or in Hin. destruct Hin as [Hin|Hin]; [now apply Hv'|].
        exists (ms ++ [m]), [], a, (l ++ c :: calls), o1. rewrite app_nil_r. split; [reflexivity|]. split; [exact Hall|].
        split; [exact Hr1|]. rewrite Forall_forall in W. now apply W.
      * intros k svn d Hs Hd. apply L; [now apply svn_iter_in|exact Hd].
Qed.

Corollary galmon_log_new ms z k svn : Forall message_ok ms -> fold_outcome galmon_step ms (galmon_new new) = Ok z ->
  1 <= svn <= 36 -> all_new (logged k svn (z_log z)).
Proof.
  intros Hok H Hs. destruct (galmon_run ms Hok z H) as (_ & _ & _ & _ & _ & _ & (T1 & T2) & _).
  destruct k; [apply T1|apply T2]; exact Hs.
Qed.

End Crypto.

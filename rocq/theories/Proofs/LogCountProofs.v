(** Authentication bits and the lines that say that a tag is correct. *)
From Coq Require Import ZArith List Bool Lia ZifyBool ZifyNat.
From Verif Require Import Model.Prelude Model.Params Model.Gst Model.Svn Model.Bitfields
  Model.Maclt Model.Tesla Model.Merkle Model.Subframe Model.Dsm Model.MackStore Model.Nav Model.Osnma
  Model.Logging
  Spec.TimeSpec Spec.CollectSpec Spec.StoreSpec Spec.NavSpec Spec.TeslaSpec Spec.KrootSpec
  Spec.MerkleSpec Spec.MacltSpec Spec.KeySpec Spec.SystemSpec Spec.StoredSpec Spec.CompleteSpec Spec.PanicSpec
  Spec.LogSpec
  Proofs.Base Proofs.Ring Proofs.Rows Proofs.GstProofs Proofs.LayoutProofs Proofs.SubframeProofs Proofs.DsmProofs
  Proofs.MackProofs Proofs.NavProofs Proofs.EntryProofs Proofs.NavInv Proofs.TeslaProofs
  Proofs.KrootProofs Proofs.MackValidProofs Proofs.MerkleProofs Proofs.TagProofs Proofs.NavHistory
  Proofs.SystemProofs Proofs.AlertProofs Proofs.GetterProofs Proofs.KeyStoreProofs Proofs.StepProofs Proofs.AuthProofs Proofs.PanicProofs
  Proofs.TotalProofs Proofs.LoggingProofs Proofs.LogRunProofs Proofs.LogTrueProofs.
Import ListNotations.
Open Scope Z_scope.

Section Storage.
Context {S : storage} {C : crypto} {B : build}.

Lemma correct_app k svn l1 l2 : correct_lines k svn (l1 ++ l2) = correct_lines k svn l1 + correct_lines k svn l2.
Proof. unfold correct_lines. rewrite filter_app, app_length. lia. Qed.
Lemma correct_nonneg k svn ls : 0 <= correct_lines k svn ls.
Proof. unfold correct_lines. lia. Qed.

Definition bounded (k : nav_kind) (ls : lines) (e : entry) : Prop :=
  match e_svn e with Some svn => e_authbits e <= 40 * correct_lines k svn ls | None => e_authbits e <= 0 end.
Definition counted (ls : lines) (n : nav) : Prop := forall k, Forall (bounded k ls) (nv_arr k n).

Lemma bounded_more k l1 l2 e : bounded k l1 e -> bounded k (l1 ++ l2) e.
Proof.
  unfold bounded. destruct (e_svn e) as [svn|]; [|auto]. rewrite correct_app. pose proof (correct_nonneg k svn l2). lia.
Qed.
Lemma counted_more l1 l2 n : counted l1 n -> counted (l1 ++ l2) n.
Proof. intros H k. eapply Forall_impl; [|exact (H k)]. intros e. apply bounded_more. Qed.

(** ** Words *)

Lemma copy_word_bounded k ls a b src i e : bounded k ls e -> bounded k ls (copy_word a b src i e).
Proof.
  unfold copy_word, bounded. destruct (bits_eqb _ _); cbn [e_svn e_authbits]; [auto|].
  destruct (e_svn e) as [svn|]; [pose proof (correct_nonneg k svn ls)|]; lia.
Qed.
Lemma select_svn_bounded k ls svn e : bounded k ls e -> bounded k ls (entry_select_svn svn e).
Proof.
  unfold entry_select_svn, bounded, entry_reset. pose proof (correct_nonneg k svn ls). destruct (e_svn e) as [s|] eqn:E.
  - destruct (s =? svn); cbn [e_svn e_authbits]; [rewrite E; auto|lia].
  - cbn [e_svn e_authbits]. lia.
Qed.
Lemma entry_feed_bounded k ls k' w svn b e : bounded k ls e -> bounded k ls (entry_feed k' w svn b e).
Proof.
  intros H. apply (select_svn_bounded k ls svn) in H. unfold entry_feed, ced_feed, timing_feed. cbv zeta.
  destruct k'; repeat match goal with |- bounded _ _ (match ?x with _ => _ end) => destruct x end; auto using copy_word_bounded.
Qed.

Lemma nav_feed_keeps (P : nav_kind -> entry -> Prop) word s g b n n' :
  (forall k e, P k e -> P k (age_entry e)) -> (forall k e, P k e -> P k (entry_feed k word s b e)) ->
  nav_feed n word s g b = Ok n' -> (forall k, Forall (P k) (nv_arr k n)) -> forall k, Forall (P k) (nv_arr k n').
Proof.
  intros Hage Hfeed H Hn. unfold nav_feed in H. bind_inv H. bind_inv H.
  assert (H1 : forall k, Forall (P k) (nv_arr k x)).
  { clear - Hage Hn E. intros k. unfold nav_adjust in E. bind_inv E. bind_inv E. bind_inv E. injection E as <-.
    assert (Hx : Forall (P k) (nv_arr k x1)); [|destruct k; exact Hx]. clear E2. destruct x0 as [g0|]; [destruct (negb (gst_eqb g0 _))|].
    - bind_inv E1. bind_inv E1. injection E1 as <-.
      assert (Hca : forall l from to l', Forall (P k) l -> copy_and_age l from to = Ok l' -> Forall (P k) l').
      { clear - Hage. intros l from to l' Hl H. unfold copy_and_age, row_of in H. bind_inv H. apply slice_ok in E. destruct E as (_ & _ & ->).
        bind_inv H. apply copy_from_ok in E. destruct E as (_ & _ & _ & ->).
        bind_inv H. apply slice_ok in E. destruct E as (_ & _ & ->).
        apply copy_from_ok in H. destruct H as (_ & _ & _ & ->).
        assert (Hp : Forall (P k) (put (to * num_sats) (sub (from * num_sats) ((from + 1) * num_sats) l) l)) by (apply Forall_put; [now apply Forall_sub|exact Hl]).
        apply Forall_put; [|exact Hp]. apply Forall_map. eapply Forall_impl; [|apply Forall_sub; exact Hp]. exact (Hage k). }
      specialize (Hn k). destruct k; cbn [nv_arr nv_ced nv_timing] in *; eapply Hca; eassumption.
    - injection E1 as <-. exact (Hn k).
    - injection E1 as <-. exact (Hn k). }
  assert (Hkind : forall k0 n1 n2, nav_feed_kind k0 word s b n1 = Ok n2 -> (forall k, Forall (P k) (nv_arr k n1)) -> forall k, Forall (P k) (nv_arr k n2)).
  { clear - Hfeed. intros k0 n1 n2 H Hn k. unfold nav_feed_kind, row_of in H.
    bind_inv H. apply slice_ok in E. destruct E as (_ & _ & ->). bind_inv H. bind_inv H. bind_inv H. bind_inv H. injection H as <-.
    apply copy_from_ok in E2. destruct E2 as (_ & _ & _ & ->).
    assert (Hr : Forall (P k0) x1).
    { unfold set_index in E1. destruct (_ <? _)%nat; [|discriminate]. injection E1 as <-.
      apply Forall_put; [|apply Forall_sub; exact (Hn k0)]. constructor; [|constructor]. apply Hfeed.
      apply index_ok in E0. apply nth_error_In in E0. pose proof (Forall_sub (P k0) (nv_wp n1 * num_sats) ((nv_wp n1 + 1) * num_sats) _ (Hn k0)) as Hs.
      rewrite Forall_forall in Hs. now apply Hs. }
    assert (Hl : Forall (P k0) (put (nv_wp n1 * num_sats) x1 (nv_arr k0 n1))) by (apply Forall_put; [exact Hr|exact (Hn k0)]).
    destruct k0, k; cbn [set_nv_arr nv_arr nv_ced nv_timing] in *; try exact Hl; exact (Hn _). }
  exact (Hkind _ _ _ H (Hkind _ _ _ E0 H1)).
Qed.

Section Crypto.
Hypothesis HC : crypto_ok C.
Hypothesis HS : storage_ok S.
Variable mx : option level.
Hypothesis Hmx : info_enabled mx.

Definition counts {A} (f : A -> nav) (n : nav) (x : logging A) : Prop :=
  forall ls' a, x = Ok (ls', a) -> forall ls, counted ls n -> counted (ls ++ ls') (f a).

Lemma counts_same {A} (f : A -> nav) n (x : logging A) : (forall a, plain x = Ok a -> f a = n) -> counts f n x.
Proof. intros H ls' a E ls Hn. rewrite (H a); [now apply counted_more|]. now rewrite E. Qed.
Lemma counts_lbind {A D} (f : A -> nav) (g : D -> nav) n (x : logging A) (y : A -> logging D) :
  counts f n x -> (forall a, plain x = Ok a -> counts g (f a) (y a)) -> counts g n (lbind x y).
Proof.
  intros Hx Hy ls' b E ls Hn. apply lbind_ok in E. destruct E as (l1 & a & l2 & E1 & E2 & ->). rewrite app_assoc.
  assert (Ep : plain x = Ok a) by now rewrite E1.
  exact (Hy a Ep _ _ E2 _ (Hx _ _ E1 ls Hn)).
Qed.
Lemma counts_done {A} (f : A -> nav) (a : A) : counts f (f a) (done a).
Proof. apply counts_same. intros a' E. now injection E as <-. Qed.
Lemma counts_skip {A D} (g : D -> nav) n (x : logging A) (y : A -> logging D) :
  (forall a, plain x = Ok a -> counts g n (y a)) -> counts g n (lbind x y).
Proof. intros H. apply (counts_lbind (fun _ => n)); [apply counts_same; reflexivity|exact H]. Qed.
Lemma counts_fold {A} (y : nav -> A -> logging nav) l n : (forall n x, In x l -> counts (fun n => n) n (y n x)) ->
  counts (fun n => n) n (fold_logging y l n).
Proof.
  revert n. induction l as [|x l IH]; intros n H; cbn [fold_logging]; [apply (counts_done (fun n : nav => n) n)|].
  apply (counts_lbind (fun n => n)); [apply H; now left|]. intros n' _. apply IH. intros; apply H. now right.
Qed.

Lemma find_entry_svn k n svn g e : find_entry k n svn g = Ok (Some e) -> e_svn e = Some svn.
Proof.
  unfold find_entry. intros H. bind_inv H. destruct x; [|discriminate]. bind_inv H. injection H as H. apply find_some in H.
  destruct H as (_ & H). destruct (e_svn e) as [s|]; [|discriminate]. cbn [option_eqb] in H. f_equal. lia.
Qed.

Lemma one_tag_counts k key tag adkd cop gm gn prnd prna j s n : (length tag <= 40)%nat ->
  (forall g j prna, says_correct k prnd (LgTagCorrect prnd adkd g j prna) = true) ->
  counts (fun n => n) n (process_one_tag_log mx k key tag adkd cop gm gn prnd prnd prna j s n).
Proof.
  intros Ht Hsay. unfold process_one_tag_log. destruct (cop =? 0).
  { apply counts_skip. intros _ _. apply (counts_done (fun n : nav => n) n). }
  apply counts_skip. intros [e|] E; [|apply (counts_done (fun n : nav => n) n)]. rewrite plain_quiet in E.
  pose proof (find_entry_svn _ _ _ _ _ E) as Hsvn. clear E.
  destruct (_ <=? cop); [|apply (counts_done (fun n : nav => n) n)].
  intros ls' n' H ls Hn. apply lbind_ok in H. destruct H as (l1 & (r & l) & l2 & E1 & E2 & ->).
  apply done_ok in E2. destruct E2 as (-> & <-). rewrite app_nil_r.
  unfold nav_validate_tag_log in E1.
  apply lbind_ok in E1. destruct E1 as (l3 & ctr & l4 & Ec & E1 & ->). apply quiet_ok in Ec. destruct Ec as (-> & _). cbn [app].
  apply lbind_ok in E1. destruct E1 as (l5 & ret & l6 & Ec & E1 & ->). apply quiet_ok in Ec. destruct Ec as (-> & _). cbn [app].
  destruct ret.
  - apply lbind_ok in E1. destruct E1 as (l7 & u & l8 & El & E1 & ->). apply done_ok in E1. destruct E1 as (-> & E1). rewrite app_nil_r.
    assert (l7 = [(LInfo, LgTagCorrect prnd adkd gm j prna)]) as ->.
    { unfold log in El. assert (He : enabled mx LInfo = true) by (destruct Hmx as [->|[->| ->]]; reflexivity).
      rewrite He in El. injection El as <- _. reflexivity. }
    assert (Hadd : Forall (bounded k (ls ++ [(LInfo, LgTagCorrect prnd adkd gm j prna)])) (add_authbits_all k tag e (nv_arr k n))).
    { unfold add_authbits_all. apply Forall_map. eapply Forall_impl; [|exact (Hn k)]. intros e' He.
      destruct (option_eqb Z.eqb (e_svn e) (e_svn e') && _) eqn:Eq; [|now apply bounded_more].
      apply andb_true_iff in Eq. destruct Eq as (Eq & _). rewrite Hsvn in Eq.
      unfold bounded, add_authbits in *. cbn [e_svn e_authbits]. destruct (e_svn e') as [s'|]; [|discriminate].
      cbn [option_eqb] in Eq. assert (s' = prnd) by lia. subst s'.
      rewrite correct_app. assert (correct_lines k prnd [(LInfo, LgTagCorrect prnd adkd gm j prna)] = 1) as ->.
      { unfold correct_lines. cbn [filter snd]. now rewrite Hsay. }
      unfold sat_add_u16. lia. }
    assert (Hl : Forall (bounded k (ls ++ [(LInfo, LgTagCorrect prnd adkd gm j prna)])) l).
    { apply pair_equal_spec in E1. destruct E1 as (_ & <-). pose proof (counted_more ls [(LInfo, LgTagCorrect prnd adkd gm j prna)] n Hn k).
      destruct s; assumption. }
    intros k'. pose proof (counted_more ls [(LInfo, LgTagCorrect prnd adkd gm j prna)] n Hn k') as Hk.
    destruct k, k'; cbn [set_nv_arr nv_arr nv_ced nv_timing] in *; assumption.
  - apply lbind_ok in E1. destruct E1 as (l7 & u & l8 & El & E1 & ->). apply done_ok in E1. destruct E1 as (-> & E1).
    apply pair_equal_spec in E1. destruct E1 as (_ & <-).
    replace (set_nv_arr k (nv_arr k n) n) with n by (destruct k, n; reflexivity). now apply counted_more.
Qed.

Lemma svn_try_from_same x y : svn_try_from x = Some y -> y = x.
Proof. unfold svn_try_from. destruct (_ && _); [congruence|discriminate]. Qed.
Lemma says_correct_same k adkd prnd : (match k, adkd with
      | Ced, AdkdInavCed | Ced, AdkdSlowMac | Timing, AdkdInavTiming => true
      | _, _ => false
      end) = true -> forall g j prna, says_correct k prnd (LgTagCorrect prnd adkd g j prna) = true.
Proof. intros H g j prna. unfold says_correct. rewrite Z.eqb_refl. exact H. Qed.

Section Mack.
Variables (data : list Z) (key : tkey).
Hypothesis Hlen : length data = 60%nat.
Hypothesis Hkey : key_ok key.
Notation ks := (ch_key_bytes (k_chain key) * 8)%nat.
Notation ts := (ch_tag_bits (k_chain key)).
Notation m := (mack_of_chain data key).

Lemma other_tag_length t j : (1 <= j < mack_num_tags m)%nat -> mack_tag_and_info m j = Ok t -> (length (tag_tag t) <= 40)%nat.
Proof.
  intros Hj Et. assert (Hsz : sizes_ok ks ts) by (apply announced_sizes_ok; apply Hkey).
  destruct (tag_at_spec data ks ts Hlen Hsz j Hj) as (t' & Et' & Hl & _).
  unfold mack_of_chain in Et. rewrite Et in Et'. injection Et' as <-.
  pose proof Hsz as (_ & Hts). unfold tag_tag. rewrite length_sub; lia.
Qed.

Lemma process_mack_tag_counts prna gm gn s n j : (1 <= j < mack_num_tags m)%nat ->
  counts (fun n => n) n (process_mack_tag_log mx m key prna gm gn s n j).
Proof.
  intros Hj. assert (Hsame : forall x, counts (fun n => n) n (lbind (log mx LError x) (fun _ => done n))).
  { intros x. apply counts_skip. intros _ _. apply (counts_done (fun n : nav => n) n). }
  unfold process_mack_tag_log. apply counts_skip. intros t Et. rewrite plain_quiet in Et.
  pose proof (other_tag_length t j Hj Et) as Hl. apply counts_skip. intros _ _.
  destruct (prnd_to_u8 (tag_prnd t)) as [prnd|]; [|apply Hsame].
  destruct (tag_adkd t); [| |apply (counts_done (fun n : nav => n) n)|apply Hsame];
    (destruct (svn_try_from prnd) as [svn|] eqn:Es; [apply svn_try_from_same in Es; subst svn|apply Hsame]).
  - apply one_tag_counts; [exact Hl|]. now apply says_correct_same.
  - apply one_tag_counts; [exact Hl|]. now apply says_correct_same.
Qed.

Lemma process_slowmac_tag_counts prna gm gn s n j : (1 <= j < mack_num_tags m)%nat ->
  counts (fun n => n) n (process_slowmac_tag_log mx m key prna gm gn s n j).
Proof.
  intros Hj. assert (Hsame : forall x, counts (fun n => n) n (lbind (log mx LError x) (fun _ => done n))).
  { intros x. apply counts_skip. intros _ _. apply (counts_done (fun n : nav => n) n). }
  unfold process_slowmac_tag_log. apply counts_skip. intros t Et. rewrite plain_quiet in Et.
  pose proof (other_tag_length t j Hj Et) as Hl.
  destruct (tag_adkd t); cbn [adkd_eqb negb]; try apply (counts_done (fun n : nav => n) n).
  destruct (prnd_to_u8 (tag_prnd t)) as [prnd|]; [|apply Hsame].
  destruct (svn_try_from prnd) as [svn|] eqn:Es; [apply svn_try_from_same in Es; subst svn|apply Hsame].
  apply one_tag_counts; [exact Hl|]. now apply says_correct_same.
Qed.

Lemma process_mack_counts prna gm s n : counts (fun n => n) n (process_mack_log mx n m key prna gm s).
Proof.
  unfold process_mack_log. apply counts_skip. intros _ _. apply counts_skip. intros gn _. apply counts_skip. intros cop _.
  apply counts_skip. intros tag0 Et. rewrite plain_quiet in Et.
  assert (Hl : (length tag0 <= 40)%nat).
  { assert (Hsz : sizes_ok ks ts) by (apply announced_sizes_ok; apply Hkey). destruct Hsz as (_ & Hts).
    unfold mack_tag0, mack_of_chain, mack_new in Et. cbn [mk_data mk_tag_size] in Et. apply slice_ok in Et. destruct Et as (_ & H & ->).
    rewrite length_sub; lia. }
  apply (counts_lbind (fun n => n)); [apply one_tag_counts; [exact Hl|now apply says_correct_same]|].
  intros n1 _. apply counts_fold. intros n2 j Hj. apply (in_tag_numbers data key Hlen) in Hj. now apply process_mack_tag_counts.
Qed.

Lemma process_mack_slowmac_counts prna gm s n : counts (fun n => n) n (process_mack_slowmac_log mx n m key prna gm s).
Proof.
  unfold process_mack_slowmac_log. apply counts_skip. intros gn _. apply counts_fold.
  intros n2 j Hj. apply (in_tag_numbers data key Hlen) in Hj. now apply process_slowmac_tag_counts.
Qed.
End Mack.

Lemma validate_mack_same message key k prna g m : length message = 60%nat -> key_ok key ->
  plain (validate_mack_log mx (mack_of_chain message key) k prna g) = Ok (Some m) -> m = mack_of_chain message key.
Proof.
  intros Hl Hk E. rewrite validate_mack_plain in E by auto. unfold validate_mack in E. bind_inv E.
  destruct x as [m'|]; [|discriminate]. assert (m' = m) as -> by congruence. clear E. unfold mack_validate in E0. bind_inv E0.
  destruct x; [|discriminate]. bind_inv E0. destruct x; [|discriminate]. congruence.
Qed.

Lemma process_tags_counts o key : mack_good (o_mack o) -> key_ok key -> counts o_nav (o_nav o) (process_tags_log mx o key).
Proof.
  intros Hm Hk. unfold process_tags_log. apply counts_skip. intros gm _. apply counts_skip. intros gs _.
  apply counts_skip. intros gk _. apply counts_skip. intros mkey _.
  apply (counts_lbind (fun n => n)).
  - apply counts_fold. intros n svn _. apply (counts_lbind (fun n => n)).
    + unfold process_tags_fast_log. destruct (o_slow o); [apply (counts_done (fun n : nav => n) n)|].
      apply counts_skip. intros [(message & s)|] E; [|apply (counts_done (fun n : nav => n) n)]. rewrite plain_quiet in E.
      destruct (Hm svn gm) as (r & Er & Hr). assert (Hl : length message = 60%nat) by (apply (Hr message s); congruence).
      apply counts_skip. intros [m|] E2; [|apply (counts_done (fun n : nav => n) n)].
      apply validate_mack_same in E2; [|exact Hl|exact Hk]. subst m. now apply process_mack_counts.
    + intros n1 _. unfold process_tags_slow_log. destruct mkey as [sk|]; [|apply (counts_done (fun n : nav => n) n1)].
      apply counts_skip. intros [(message & s)|] E; [|apply (counts_done (fun n : nav => n) n1)]. rewrite plain_quiet in E.
      destruct (Hm svn gs) as (r & Er & Hr). assert (Hl : length message = 60%nat) by (apply (Hr message s); congruence).
      apply counts_skip. intros [m|] E2; [|apply (counts_done (fun n : nav => n) n1)].
      apply validate_mack_same in E2; [|exact Hl|exact Hk]. subst m. now apply process_mack_slowmac_counts.
  - intros n _. apply counts_same. intros a Ea. injection Ea as <-. reflexivity.
Qed.

Variables (root : option (list Z)) (user : option public_key) (slow : bool).
Notation new := (osnma_new root user slow).

Lemma validate_key_counts h o svn g hk mk : Forall op_ok h -> rest_inv root user slow h o ->
  subframe_received h svn g hk mk -> counts o_nav (o_nav o) (osnma_validate_key_log mx o mk g).
Proof.
  intros Hok Hinv Hsf. unfold osnma_validate_key_log.
  destruct (current_key (o_keys o)) as [cur|] eqn:Ec; [|apply counts_skip; intros _ _; apply counts_done].
  apply counts_skip. intros kb Ekb. rewrite plain_quiet in Ekb.
  apply counts_skip. intros nk Enk. rewrite plain_quiet in Enk.
  destruct (gst_cmp _ _); [apply counts_done| |apply counts_skip; intros _ _; apply counts_done].
  apply counts_skip. intros [nv|e] Ev; [|apply counts_skip; intros _ _; apply counts_done]. rewrite plain_quiet in Ev.
  apply counts_skip. intros _ _. apply counts_skip. intros ks Eks. change (o_nav o) with (o_nav (set_keys ks o)).
  apply process_tags_counts; [exact (rest_mack_good HS _ _ _ _ _ Hok Hinv)|].
  apply (accepted_facts HC root user slow h o svn g hk mk cur kb nk nv Hok Hinv Hsf Ec Ekb Enk Ev).
Qed.

Lemma process_dsm_nav o m hd g o' : process_dsm o m hd g = Ok o' -> o_nav o' = o_nav o.
Proof.
  intros H. apply process_dsm_effect in H. destruct H as [->|pk key ps _ _ _ _ _ ->|r pk ps _ _ _ _ ->|r _ _ _ ->]; try reflexivity.
  unfold process_nma_header, alert_message_received. destruct (nma_status hd), (nma_cpks hd); reflexivity.
Qed.

Lemma process_subframe_counts h o svn g hk mk : Forall op_ok h -> rest_inv root user slow h o ->
  subframe_received h svn g hk mk -> counts o_nav (o_nav o) (process_subframe_log mx o hk mk svn g).
Proof.
  intros Hok Hinv Hsf. destruct (subframe_received_bytes _ _ _ _ _ Hok Hsf) as ((Hlen & Hhk) & _).
  unfold process_subframe_log.
  assert (E0 : index hk 0 = Ok (nth 0 hk 0)) by (apply index_ok, nth_error_nth'; lia).
  assert (E1 : index hk 1 = Ok (nth 1 hk 0)) by (apply index_ok, nth_error_nth'; lia).
  rewrite E0, E1. apply counts_skip. intros hd Ehd. rewrite plain_quiet in Ehd. injection Ehd as <-.
  apply counts_skip. intros ms Em. rewrite mack_store_plain in Em.
  apply counts_skip. intros hd Ehd. rewrite plain_quiet in Ehd. injection Ehd as <-.
  cbn [set_mack o_dsm]. apply counts_skip. intros (cd & d) Ed. rewrite dsm_feed_plain in Ed.
  destruct (subframe_stored HS _ _ _ _ _ _ _ _ _ _ _ _ Hok Hinv Hsf Em Ed) as (Hinv2 & Hm).
  destruct d as [m|].
  - destruct (Hm m eq_refl) as (Hdr & Ht).
    assert (Hp : plain (process_dsm_log mx (set_dsm cd (set_mack ms o)) m (nth 0 hk 0) g) = process_dsm (set_dsm cd (set_mack ms o)) m (nth 0 hk 0) g).
    { apply process_dsm_plain.
      - exact (dsm_received_bytes _ _ _ Hok Hdr).
      - intros Hp. pose proof (dsm_received_size _ _ _ Hok Hdr) as Hsz. rewrite Ht in Hp. destruct (dm_id m <? 12); [discriminate|exact Hsz]. }
    apply (counts_lbind o_nav).
    + apply counts_same. intros o2 E2. rewrite Hp in E2. now apply process_dsm_nav in E2.
    + intros o2 E2. rewrite Hp in E2. apply (validate_key_counts h o2 svn g hk mk Hok); [|exact Hsf].
      exact (process_dsm_rest HC root user slow h _ m svn g hk mk o2 Hok Hinv2 Hsf Hdr Ht E2).
  - apply (counts_lbind o_nav); [apply counts_same; intros o2 E2; injection E2 as <-; reflexivity|].
    intros o2 E2. injection E2 as <-. exact (validate_key_counts h _ svn g hk mk Hok Hinv2 Hsf).
Qed.

Lemma step_counts h o x : Forall op_ok h -> op_ok x -> inv root user slow h o -> counts o_nav (o_nav o) (step_log mx o x).
Proof.
  intros Hok Hx Hinv.
  assert (Hok2 : Forall op_ok (h ++ [x])).
  { apply Forall_app. split; [exact Hok|]. constructor; [exact Hx|constructor]. }
  destruct x as [word svn g b|data svn g]; cbn [step_log].
  - intros ls' o' E ls Hn. assert (E' : feed_inav o word svn g b = Ok o') by (rewrite <- (feed_inav_plain mx), E; reflexivity).
    apply counted_more. unfold feed_inav in E'. bind_inv E'. injection E' as <-. cbn [set_nav o_nav].
    refine (nav_feed_keeps (fun k => bounded k ls) word svn g b _ _ _ _ E0 Hn).
    + intros k e He. exact He.
    + intros k e He. now apply entry_feed_bounded.
  - unfold feed_osnma_log. destruct (forallb (fun x => x =? 0) data) eqn:Ez; [apply counts_done|].
    apply counts_skip. intros (sf & r) E. rewrite subframe_feed_plain in E.
    destruct (subframe_fed root user slow h o data svn g sf r Hok Hx Hinv Ez E) as (Hrest & Hrec).
    destruct r as [((hk & mk) & g')|].
    + change (o_nav o) with (o_nav (set_sub sf o)).
      exact (process_subframe_counts _ _ svn g' hk mk Hok2 Hrest (proj1 (Hrec hk mk g' eq_refl))).
    + change (o_nav o) with (o_nav (set_sub sf o)). apply counts_done.
Qed.

Lemma run_counts h ls o : Forall op_ok h -> run_log mx new h = Ok (ls, o) -> counted ls (o_nav o).
Proof.
  revert ls o. induction h as [|x h IH] using rev_ind; intros ls o Hok H.
  { apply done_ok in H. destruct H as (-> & <-). intros k. destruct k; cbn [nv_arr osnma_new o_nav nav_new nv_ced nv_timing];
      apply Forall_forall; intros e He; apply repeat_spec in He; subst e; unfold bounded; cbn [entry_new e_svn e_authbits]; lia. }
  apply Forall_app in Hok. destruct Hok as (Hok & Hx). apply Forall_cons_iff in Hx. destruct Hx as (Hx & _).
  rewrite run_log_app in H. apply lbind_ok in H. destruct H as (l1 & o1 & l2 & E1 & E2 & ->).
  rewrite run_log_one in E2.
  assert (Ho : run new h = Ok o1).
  { rewrite <- (run_plain HC HS mx root user slow h Hok), E1. reflexivity. }
  exact (step_counts h o1 x Hok Hx (run_inv HC HS root user slow h Hok _ Ho) _ _ E2 _ (IH l1 o1 Hok E1)).
Qed.

Lemma nav_get_counted ls n k svn d : counted ls n -> nav_get k n svn = Ok (Some d) ->
  min_authbits <= nd_authbits d <= 40 * correct_lines k svn ls.
Proof.
  intros Hn. unfold nav_get. induction (seq 0 nav_depth) as [|j js IH]; cbn [nav_get_from]; [discriminate|].
  intros H. bind_inv H. unfold row_of in E. apply slice_ok in E. destruct E as (_ & _ & ->).
  destruct (find_first _ _) as [e|] eqn:Ef; [|exact (IH H)].
  bind_inv H. bind_inv H. bind_inv H. injection H as <-. cbn [nd_authbits].
  apply find_some in Ef. destruct Ef as (Hin & Hp). apply andb_true_iff in Hp. destruct Hp as (Hs & Ha).
  pose proof (Forall_sub _ ((nav_depth + nv_wp n - j) mod nav_depth * num_sats) (((nav_depth + nv_wp n - j) mod nav_depth + 1) * num_sats) _ (Hn k)) as Hf.
  rewrite Forall_forall in Hf. specialize (Hf e Hin). unfold bounded in Hf.
  destruct (e_svn e) as [s|]; [|discriminate]. cbn [option_eqb] in Hs. assert (s = svn) by lia. subst s. lia.
Qed.

Theorem returned_was_logged h ls o k svn d : Forall op_ok h -> run_log mx new h = Ok (ls, o) ->
  getter k o svn = Ok (Some d) -> min_authbits <= nd_authbits d <= 40 * correct_lines k svn ls.
Proof.
  intros Hok H Hg. apply (nav_get_counted ls (o_nav o)); [exact (run_counts h ls o Hok H)|].
  destruct k; exact Hg.
Qed.

End Crypto.
End Storage.

(** Each tag is counted once, as long as no chain that was dropped is taken up again. *)
From Coq Require Import ZArith List Bool Lia ZifyBool ZifyNat.
From Verif Require Import Model.Prelude Model.Params Model.Gst Model.Svn Model.Bitfields
  Model.Dsm Model.Tesla Model.Merkle Model.MackStore Model.Nav Model.Osnma
  Spec.TimeSpec Spec.CollectSpec Spec.NavSpec Spec.TeslaSpec Spec.KrootSpec Spec.SystemSpec Spec.KeySpec
  Spec.OnceSpec Spec.StoreSpec
  Proofs.Base Proofs.GstProofs Proofs.MackProofs Proofs.NavProofs Proofs.EntryProofs Proofs.NavInv
  Proofs.TeslaProofs Proofs.TagProofs Proofs.NavHistory Proofs.SystemProofs Proofs.GetterProofs
  Proofs.KrootProofs Proofs.KeyStoreProofs Proofs.StepProofs Proofs.AlertProofs Proofs.ChangeProofs Proofs.TotalProofs.
Import ListNotations.
Open Scope Z_scope.

Section Crypto.
Context {C : crypto} {B : build} {S : storage}.
Hypothesis HC : crypto_ok C.
Hypothesis HS : storage_ok S.
Variables (root : option (list Z)) (user : option public_key) (slow : bool).
Notation new := (osnma_new root user slow).
Notation tverified := (tag_verified root user slow).

Lemma tag_verified_mono h q k svn bits i tag : tverified h k svn bits i tag -> tverified (h ++ q) k svn bits i tag.
Proof.
  intros (h1 & h2 & delay & cop & gn & key & hk & mk & -> & H). exists h1, (h2 ++ q), delay, cop, gn, key, hk, mk.
  split; [now rewrite app_assoc|exact H].
Qed.

(** ** Counted tags *)

Lemma NoDup_app_snoc {X} (l : list X) x : NoDup l -> ~ In x l -> NoDup (l ++ [x]).
Proof.
  intros H Hx. apply NoDup_Add with (a := x) (l := l); [|now split].
  pose proof (Add_app x l []) as HA. now rewrite app_nil_r in HA.
Qed.

(** The bits of an entry are those of different tags, all of them in [A]. *)
Definition entry_once (A : tag_id -> Prop) (h : list op) (k : nav_kind) (e : entry) : Prop :=
  forall svn, e_svn e = Some svn -> exists L : list (tag_id * list bool),
    e_authbits e = Z.min 65535 (total (map snd L)) /\ NoDup (map fst L) /\
    Forall (fun x => A (fst x) /\ tverified h k svn (message_bits k e) (fst x) (snd x)) L.
Definition all_once (A : tag_id -> Prop) (h : list op) (hs : list snap) : Prop :=
  forall s k e, In s hs -> In e (s_row k s) -> entry_once A h k e.

Lemma all_once_weaken (A A' : tag_id -> Prop) h q hs : (forall i, A i -> A' i) ->
  all_once A h hs -> all_once A' (h ++ q) hs.
Proof.
  intros HA H s k e Hs He svn Hsvn. destruct (H s k e Hs He svn Hsvn) as (L & H1 & H2 & H3).
  exists L. split; [exact H1|]. split; [exact H2|]. eapply Forall_impl; [|exact H3].
  intros x (X1 & X2). split; [now apply HA|now apply tag_verified_mono].
Qed.
Lemma all_once_more (A A' : tag_id -> Prop) h hs : (forall i, A i -> A' i) ->
  all_once A h hs -> all_once A' h hs.
Proof. intros HA H. rewrite <- (app_nil_r h). now apply all_once_weaken with A. Qed.

Lemma entry_once_none A h k e : e_authbits e = 0 -> entry_once A h k e.
Proof. intros H svn _. exists []. split; [exact H|]. split; constructor. Qed.

Lemma entry_once_new A h k : entry_once A h k (entry_new k).
Proof. intros svn H. discriminate H. Qed.

Lemma entry_once_age A h k e : entry_once A h k e -> entry_once A h k (age_entry e).
Proof. intros H svn Hs. exact (H svn Hs). Qed.

Lemma entry_once_feed A h k word svn b e : bytes_ok 16 word -> 1 <= svn <= 36 -> entry_ok k e ->
  entry_once A h k e -> entry_once A h k (entry_feed k word svn b e).
Proof.
  intros Hw Hsvn Hok H.
  destruct (entry_feed_spec k word svn b e Hok Hw Hsvn) as (_ & Hs' & _ & Hsame & Hdiff).
  destruct (entry_select_svn_spec svn e) as (_ & _ & Sel1 & Sel2 & Sel3).
  destruct (list_eq_dec bool_dec (message_bits k (entry_feed k word svn b e)) (message_bits k e)) as [Heq|Hne].
  2: { apply entry_once_none. now apply Hdiff. }
  destruct (e_svn e) as [s0|] eqn:Es.
  - destruct (Z.eq_dec s0 svn) as [->|Hne].
    + intros svn' Hsv. rewrite Hs' in Hsv. injection Hsv as <-. rewrite (Hsame Heq), Heq, Sel1 by auto.
      apply H. exact Es.
    + apply entry_once_none. rewrite (Hsame Heq). exact (proj1 (Sel2 s0 eq_refl Hne)).
  - apply entry_once_none. rewrite (Hsame Heq). destruct (Sel3 eq_refl) as (-> & _). exact (eo_none _ _ Hok Es).
Qed.

Lemma adjust_once A h hs g : all_once A h hs -> all_once A h (abs_adjust hs g).
Proof.
  intros H. destruct hs as [|s hs _] using rev_ind.
  - intros s k e [<-|[]] He. assert (e = entry_new k) as ->.
    { destruct k; cbn [s_row s_ced s_timing] in He; now apply repeat_spec in He. }
    apply entry_once_new.
  - rewrite abs_adjust_snoc. destruct (gst_eqb (s_gst s) g); [exact H|].
    intros s' k e Hs He. apply in_app_or in Hs. destruct Hs as [Hs|[<-|[]]]; [now apply (H s' k e)|].
    assert (exists e0, In e0 (s_row k s) /\ e = age_entry e0) as (e0 & Hin0 & ->).
    { destruct k; cbn [s_row s_ced s_timing] in He |- *; apply in_map_iff in He;
        destruct He as (e0 & <- & Hin0); eauto. }
    apply entry_once_age. apply (H s k e0); [|exact Hin0]. apply in_or_app. right. now left.
Qed.

Lemma abs_feed_once A h hs word svn g b : bytes_ok 16 word -> 1 <= svn <= 36 -> nav_ok hs -> Forall snap_ok hs ->
  all_once A h hs -> all_once A h (abs_feed hs word svn g b).
Proof.
  intros Hw Hsvn Hok Hsn H. unfold abs_feed. set (g' := gst_subframe g).
  pose proof (adjust_once A h hs g' H) as Hadj.
  pose proof (abs_adjust_rows_ok hs g' Hok) as Hok'.
  pose proof (abs_adjust_snaps_ok hs g' Hsn) as Hsn'.
  destruct (abs_adjust_last hs g') as (hs1 & s & Eh & Hsg). rewrite Eh in *. rewrite map_last_snoc.
  unfold nav_ok in Hok'. apply Forall_app in Hok'. destruct Hok' as (_ & Hrow). apply Forall_cons_iff in Hrow.
  destruct Hrow as (Hrow & _). apply Forall_app in Hsn'. destruct Hsn' as (_ & Hsl). apply Forall_cons_iff in Hsl.
  destruct Hsl as (Hsl & _).
  intros s' k e Hs He. apply in_app_or in Hs. destruct Hs as [Hs|[<-|[]]].
  { apply (Hadj s' k e); [apply in_or_app; now left|exact He]. }
  assert (Hlast : forall e0, In e0 (s_row k s) -> entry_once A h k e0).
  { intros e0 He0. apply (Hadj s k e0); [apply in_or_app; right; now left|exact He0]. }
  assert (Hrl : (0 < length (s_row k s))%nat).
  { rewrite (snap_row_length k s Hsl). apply HS. }
  destruct (feed_row_slot k word svn b (s_row k s) (Hrow k) Hrl) as (i & e0 & Hi & Er & _).
  assert (Hin' : In e (feed_row k word svn b (s_row k s))).
  { destruct k; exact He. }
  rewrite Er in Hin'. apply In_nth_error in Hin'. destruct Hin' as (j & Hin').
  rewrite nth_error_put1 in Hin' by (apply nth_error_Some; congruence).
  destruct (Nat.eqb_spec i j).
  - injection Hin' as <-. apply entry_once_feed; auto.
    + apply (row_ok_in k (s_row k s)); auto. eapply nth_error_In; eauto.
    + apply Hlast. eapply nth_error_In; eauto.
  - apply Hlast. eapply nth_error_In; eauto.
Qed.

(** A tag that was not counted yet. *)
Lemma bump_once (A : tag_id -> Prop) h k svn bits tag e i : A i -> tverified h k svn bits i tag ->
  entry_once (fun j => A j /\ j <> i) h k e -> entry_once A h k (bump k svn bits tag e).
Proof.
  intros Hi Hv H. unfold bump.
  destruct (option_eqb Z.eqb (Some svn) (e_svn e) && bits_eqb bits (message_bits k e)) eqn:E.
  2: { intros s Hs. destruct (H s Hs) as (L & H1 & H2 & H3). exists L. split; [exact H1|]. split; [exact H2|].
       eapply Forall_impl; [|exact H3]. intros x ((X1 & _) & X2). now split. }
  apply andb_true_iff in E. destruct E as (E1 & E2). apply bits_eqb_eq in E2.
  destruct (e_svn e) as [s0|] eqn:Es; [|discriminate]. cbn [option_eqb] in E1. apply Z.eqb_eq in E1. subst s0.
  intros svn' Hs. cbn [add_authbits e_svn] in Hs. rewrite Es in Hs. injection Hs as <-.
  destruct (H svn Es) as (L & H1 & H2 & H3). exists (L ++ [(i, tag)]).
  change (message_bits k (add_authbits tag e)) with (message_bits k e).
  cbn [add_authbits e_authbits]. rewrite !map_app. cbn [map fst snd]. rewrite H1, total_snoc. unfold sat_add_u16.
  split; [lia|]. split.
  - apply NoDup_app_snoc; [exact H2|]. intros Hin. apply in_map_iff in Hin. destruct Hin as (x & Hx & Hin).
    rewrite Forall_forall in H3. destruct (H3 x Hin) as ((_ & H4) & _). now apply H4.
  - apply Forall_app. split; [eapply Forall_impl; [|exact H3]; intros x ((X1 & _) & X2); now split|].
    constructor; [|constructor]. cbn [fst snd]. split; [exact Hi|]. now rewrite <- E2.
Qed.

Lemma tag_step_once (A : tag_id -> Prop) h hs hs' k svn cop gn bits tag i : A i -> tverified h k svn bits i tag ->
  all_once (fun j => A j /\ j <> i) h hs -> tag_step k svn cop gn bits tag hs hs' -> all_once A h hs'.
Proof.
  intros Hi Hv H (_ & _ & _ & _ & _ & _ & _ & _ & _ & _ & ->) s k' e Hs He.
  unfold map_snaps in Hs. apply in_map_iff in Hs. destruct Hs as (s0 & <- & Hs).
  assert (Hc : In e (s_row k' s0) \/ (k' = k /\ exists e0, In e0 (s_row k s0) /\ e = bump k svn bits tag e0)).
  { destruct k, k'; cbn [set_s_row s_row s_ced s_timing] in *; auto; right;
      (split; [reflexivity|]); apply in_map_iff in He; destruct He as (e0 & <- & He0); eauto. }
  destruct Hc as [He0|(-> & e0 & He0 & ->)].
  - intros s' Hs'. destruct (H s0 k' e Hs He0 s' Hs') as (L & H1 & H2 & H3). exists L. split; [exact H1|].
    split; [exact H2|]. eapply Forall_impl; [|exact H3]. intros x ((X1 & _) & X2). now split.
  - apply bump_once with i; auto. now apply (H s0).
Qed.

(** The tags of a MACK message, none of which was counted yet. *)
Lemma tag_run_once (Q : nat -> nav_kind -> Z -> Z -> Z -> gst -> list bool -> list bool -> Prop)
    (A N : tag_id -> Prop) V h hs hs' js :
  nav_ok hs -> nav_inv V (nav_stretches (inav_words h)) hs -> all_once A h hs ->
  (forall i, N i -> ~ A i) ->
  (forall j k svn adkd cop gn bits tag, Q j k svn adkd cop gn bits tag -> nav_seen (inav_words h) k svn bits gn cop ->
     V k svn bits tag /\ exists i, ti_pos i = j /\ N i /\ tverified h k svn bits i tag) ->
  tag_run Q js hs hs' -> NoDup js ->
  nav_ok hs' /\ nav_inv V (nav_stretches (inav_words h)) hs' /\
  all_once (fun i => A i \/ N i /\ In (ti_pos i) js) h hs'.
Proof.
  intros Hok Hinv H HN HQ Hrun. induction Hrun as [hs|j js k svn adkd cop gn bits tag hs h1 h2 Hr IH HQ' Hs]; intros Hd.
  - split; [exact Hok|]. split; [exact Hinv|]. apply all_once_more with A; [now left|exact H].
  - assert (NoDup js /\ ~ In j js) as (Hd1 & Hj).
    { apply NoDup_remove in Hd. rewrite app_nil_r in Hd. exact Hd. }
    destruct (IH Hok Hinv H Hd1) as (Ok1 & Inv1 & Once1).
    assert (Hseen : nav_seen (inav_words h) k svn bits gn cop) by (eapply tag_step_seen; eauto).
    destruct (HQ j k svn adkd cop gn bits tag HQ' Hseen) as (HV & i & Hi1 & Hi2 & Hi3).
    split; [eapply tag_step_nav_ok; eauto|]. split; [eapply tag_step_inv; eauto|].
    apply (tag_step_once _ h h1 h2 k svn cop gn bits tag i); auto.
    + right. split; [exact Hi2|]. rewrite Hi1. apply in_or_app. right. now left.
    + apply all_once_more with (fun i => A i \/ N i /\ In (ti_pos i) js); [|exact Once1].
      intros i' [Ha|(Hn & Hp)].
      * split; [now left|]. intros ->. now apply (HN i).
      * split; [right; split; [exact Hn|apply in_or_app; now left]|]. intros ->. now rewrite Hi1 in Hp.
Qed.

(** ** The tags verified with one key *)

Definition delay_of (adkd : Z) : Z := if adkd =? 12 then 330 else 30.
Lemma adkd_delay adkd k delay : adkd_means adkd k delay -> delay_of adkd = delay.
Proof. intros [(-> & _ & ->)|[(-> & _ & ->)|(-> & _ & ->)]]; reflexivity. Qed.

(** Tags whose key is the one of chain [c] of time [t]. *)
Definition with_key (c : Z) (t : gst) (i : tag_id) : Prop :=
  ti_chain i = c /\ seconds_after (ti_gst i) t (delay_of (ti_adkd i)).

Section Disclosed.
Variables (h : list op) (key : tkey) (prnk : Z) (hkk mkk : list Z).
Hypothesis Hops : Forall op_ok h.
Hypothesis Hkok : key_ok key.
Hypothesis Htrust : trusted_key root user h key.
Hypothesis Hlast : last_call_at h prnk (k_gst key).
Hypothesis Hsfk : subframe_received h prnk (k_gst key) hkk mkk.
Hypothesis Hkin : key_in_mack mkk key.

Definition of_mack (prna : Z) (delay : Z) (i : tag_id) : Prop :=
  with_key (chain_of key) (k_gst key) i /\ ti_sat i = prna /\ delay_of (ti_adkd i) = delay.

Lemma mack_once (A : tag_id -> Prop) hs hs' n n' delay prna g hk message js :
  (delay = 30 /\ slow = false \/ delay = 330) ->
  seconds_after g (k_gst key) delay ->
  subframe_received h prna g hk message ->
  mack_checked root user h key prna g message ->
  nav_at root user slow h hs n -> represents_nav hs' n' -> all_once A h hs ->
  (forall i, of_mack prna delay i -> ~ A i) ->
  tag_run (tag_facts_at message key prna g (status_of hk) delay) js hs hs' -> NoDup js ->
  nav_at root user slow h hs' n' /\ all_once (fun i => A i \/ of_mack prna delay i) h hs'.
Proof.
  intros Hdelay Hg Hsf Hchk (Hn1 & Hn2 & Hn3) Hrep HA HN Hrun Hd.
  destruct (tag_run_once (tag_facts_at message key prna g (status_of hk) delay) A (of_mack prna delay)
    (verified root user slow h) h hs hs' js) as (R1 & R2 & R3); auto.
  - intros j k svn adkd cop gn bits tag (F1 & F2 & F3 & F4 & F5) Hseen.
    assert (Hv : verified_by root user h k svn bits tag adkd delay cop prna gn g key).
    { exists prnk, hkk, mkk, hk, message.
      split; [exact Hlast|]. split; [exact Hsfk|]. split; [exact Hkin|]. split; [exact Htrust|].
      split; [exact F2|]. split; [exact Hg|].
      split; [exact Hsf|]. split; [exact F1|]. split; [exists j; exact F5|]. split; [exact Hchk|].
      split; [exact F3|]. split; [exact F4|]. exact Hseen. }
    assert (Hs : slow = true -> adkd = 12).
    { intros Hs. destruct F2 as [(_ & _ & Ed)|[(_ & _ & Ed)|(Ea & _)]]; [| |exact Ea];
        (destruct Hdelay as [(_ & Hd')|Hd']; [congruence|lia]). }
    split.
    + exists h, []. split; [now rewrite app_nil_r|]. exists adkd, delay, cop, prna, gn, g, key. now split.
    + exists (mkTagId (chain_of key) prna g adkd j). split; [reflexivity|]. split.
      * unfold of_mack, with_key. cbn [ti_chain ti_sat ti_gst ti_adkd]. rewrite (adkd_delay _ _ _ F2). auto.
      * exists h, [], delay, cop, gn, key, hk, message. cbn [ti_chain ti_sat ti_gst ti_adkd ti_pos].
        split; [now rewrite app_nil_r|]. split; [exact Hv|]. split; [exact Hs|]. split; [reflexivity|].
        split; [exact Hsf|exact F5].
  - split; [split; [exact Hrep|]; split; [exact R1|exact R2]|].
    apply all_once_more with (2 := R3). intros i [Hi|(Hi & _)]; [now left|now right].
Qed.

Lemma tags_fast_once (A : tag_id -> Prop) its st g svn n n' hs :
  represents_ms (stretches its) st -> Forall (item_received h) its ->
  seconds_after g (k_gst key) 30 -> nav_at root user slow h hs n -> all_once A h hs ->
  (forall i, of_mack svn 30 i -> ~ A i) ->
  process_tags_fast st slow key g svn n = Ok n' ->
  exists hs', nav_at root user slow h hs' n' /\ all_once (fun i => A i \/ of_mack svn 30 i) h hs'.
Proof.
  intros Hms Hits Hg Hn HA HN H. pose proof Hn as (Hn1 & Hn2 & Hn3).
  assert (Hsame : forall m, Ok n = Ok m ->
    exists hs', nav_at root user slow h hs' m /\ all_once (fun i => A i \/ of_mack svn 30 i) h hs').
  { intros m E. injection E as <-. exists hs. split; [exact Hn|]. apply all_once_more with A; [now left|exact HA]. }
  unfold process_tags_fast in H.
  destruct (bool_dec slow true) as [Es|Es].
  { rewrite Es in H. auto. }
  apply not_true_is_false in Es. rewrite Es in H.
  bind_inv H. destruct x as [(message, s)|]; [|auto].
  destruct (item_found HS h _ _ _ _ _ _ Hms Hits E) as (hk & Hsf & ->).
  destruct (subframe_received_bytes _ _ _ _ _ Hops Hsf) as (_ & (Hlen & _) & Hgok & _ & Hsvn).
  bind_inv H. destruct x as [m|]; [|auto].
  destruct (validate_mack_sound HC _ _ _ _ _ _ Hlen Hkok Hkok Hgok Hsvn E0) as (-> & Hval).
  destruct (process_mack_run HC HS message key svn g (status_of hk) Hlen Hkok Hgok Hsvn n n' hs Hn1 Hn2 H)
    as (hs' & js & A1 & A2 & A3 & A4).
  exists hs'. apply (mack_once A hs hs' n n' 30 svn g hk message js); auto.
  exists key, key, 0%nat. split; [exact Htrust|]. split; [reflexivity|]. split; [lia|]. split; [reflexivity|].
  split; [exact Hg|]. exact Hval.
Qed.

Lemma tags_slow_once (A : tag_id -> Prop) its st mkey held nd g svn n n' hs :
  represents_ms (stretches its) st -> Forall (item_received h) its ->
  seconds_after g (k_gst key) 330 -> nav_at root user slow h hs n -> all_once A h hs ->
  (forall i, of_mack svn 330 i -> ~ A i) ->
  (forall k, mkey = Some k -> key_ok k /\ seconds_after g (k_gst k) 30 /\
     trusted_key root user h held /\ k_chain k = k_chain held /\
     time_of (k_gst held) = time_of (k_gst k) + 30 * Z.of_nat nd /\
     key_before (k_chain held) nd (key_bytes held) (time_of (k_gst held)) (key_bytes k)) ->
  process_tags_slow st mkey key g svn n = Ok n' ->
  exists hs', nav_at root user slow h hs' n' /\ all_once (fun i => A i \/ of_mack svn 330 i) h hs'.
Proof.
  intros Hms Hits Hg Hn HA HN Hmk H. pose proof Hn as (Hn1 & Hn2 & Hn3).
  assert (Hsame : forall m, Ok n = Ok m ->
    exists hs', nav_at root user slow h hs' m /\ all_once (fun i => A i \/ of_mack svn 330 i) h hs').
  { intros m E. injection E as <-. exists hs. split; [exact Hn|]. apply all_once_more with A; [now left|exact HA]. }
  unfold process_tags_slow in H. destruct mkey as [mkey|]; [|auto].
  destruct (Hmk mkey eq_refl) as (M1 & M2 & M3 & M4 & M5 & M6).
  bind_inv H. destruct x as [(message, s)|]; [|auto].
  destruct (item_found HS h _ _ _ _ _ _ Hms Hits E) as (hk & Hsf & ->).
  destruct (subframe_received_bytes _ _ _ _ _ Hops Hsf) as (_ & (Hlen & _) & Hgok & _ & Hsvn).
  bind_inv H. destruct x as [m|]; [|auto].
  destruct (validate_mack_sound HC _ _ _ _ _ _ Hlen Hkok M1 Hgok Hsvn E0) as (-> & Hval).
  destruct (process_mack_slowmac_run HC HS message key svn g (status_of hk) Hlen Hkok Hgok Hsvn n n' hs Hn1 Hn2 H)
    as (hs' & js & A1 & A2 & A3 & A4).
  exists hs'. apply (mack_once A hs hs' n n' 330 svn g hk message js); auto.
  exists mkey, held, nd. split; [exact M3|]. split; [exact M4|]. split; [exact M5|]. split; [exact M6|].
  split; [exact M2|]. exact Hval.
Qed.

(** The loop over the satellites. *)
Lemma loop_once (A : tag_id -> Prop) its st mkey held nd gm gs svns : forall done n n' hs,
  represents_ms (stretches its) st -> Forall (item_received h) its ->
  seconds_after gm (k_gst key) 30 -> seconds_after gs (k_gst key) 330 ->
  (forall k, mkey = Some k -> key_ok k /\ seconds_after gs (k_gst k) 30 /\
     trusted_key root user h held /\ k_chain k = k_chain held /\
     time_of (k_gst held) = time_of (k_gst k) + 30 * Z.of_nat nd /\
     key_before (k_chain held) nd (key_bytes held) (time_of (k_gst held)) (key_bytes k)) ->
  (forall i, with_key (chain_of key) (k_gst key) i -> ~ A i) ->
  NoDup svns -> (forall s, In s svns -> ~ In s done) ->
  nav_at root user slow h hs n ->
  all_once (fun i => A i \/ with_key (chain_of key) (k_gst key) i /\ In (ti_sat i) done) h hs ->
  fold_outcome (fun n svn => n0 <- process_tags_fast st slow key gm svn n ;;
                             process_tags_slow st mkey key gs svn n0) svns n = Ok n' ->
  exists hs', nav_at root user slow h hs' n' /\
    all_once (fun i => A i \/ with_key (chain_of key) (k_gst key) i) h hs'.
Proof.
  induction svns as [|svn svns IH]; intros done n n' hs Hms Hits Hgm Hgs Hmk Hfresh Hd Hdone Hn HA H.
  - injection H as <-. exists hs. split; [exact Hn|]. apply all_once_more with (2 := HA).
    intros i [Hi|(Hi & _)]; [now left|now right].
  - cbn [fold_outcome] in H. bind_inv H. bind_inv E. apply NoDup_cons_iff in Hd. destruct Hd as (Hsvn & Hd).
    destruct (tags_fast_once _ its st gm svn n x0 hs Hms Hits Hgm Hn HA) as (h1 & N1 & O1); auto.
    { intros i (Hi1 & Hi2 & _) [Hi|(_ & Hi)]; [now apply (Hfresh i)|].
      apply (Hdone svn); [now left|]. now rewrite <- Hi2. }
    destruct (tags_slow_once _ its st mkey held nd gs svn x0 x h1 Hms Hits Hgs N1 O1) as (h2 & N2 & O2); auto.
    { intros i (Hi1 & Hi2 & Hi3) [[Hi|(_ & Hi)]|(_ & _ & Hi)]; [now apply (Hfresh i)| |lia].
      apply (Hdone svn); [now left|]. now rewrite <- Hi2. }
    apply (IH (svn :: done) x n' h2); auto.
    + intros s Hs [->|Hs']; [contradiction|]. apply (Hdone s); [now right|exact Hs'].
    + apply all_once_more with (2 := O2).
      intros i [[[Hi|(Hi1 & Hi2)]|(Hi1 & Hi2 & _)]|(Hi1 & Hi2 & _)]; auto.
      * right. split; [exact Hi1|now right].
      * right. split; [exact Hi1|left; auto].
      * right. split; [exact Hi1|left; auto].
Qed.

Lemma svn_iter_nodup : NoDup svn_iter.
Proof.
  unfold svn_iter. apply FinFun.Injective_map_NoDup; [|apply seq_NoDup]. intros a b E. lia.
Qed.

Lemma process_tags_once (A : tag_id -> Prop) o o' hs : rest_inv root user slow h o ->
  nav_at root user slow h hs (o_nav o) -> all_once A h hs ->
  (forall i, with_key (chain_of key) (k_gst key) i -> ~ A i) ->
  process_tags o key = Ok o' ->
  exists hs', nav_at root user slow h hs' (o_nav o') /\
    all_once (fun i => A i \/ with_key (chain_of key) (k_gst key) i) h hs'.
Proof.
  intros Hinv Hn HA Hfresh H.
  destruct (process_tags_parts HC root user slow h key Hkok o o' Hinv H)
    as (gm & gs & mkey & held & nd & n' & E & Hslow & Hmk & E3 & ->).
  destruct (ri_mack _ _ _ _ _ Hinv) as (its & Hms & Hits).
  apply (loop_once A its (o_mack o) mkey held nd gm gs svn_iter [] (o_nav o) n' hs); auto.
  - apply svn_iter_nodup.
  - apply all_once_more with A; [now left|exact HA].
Qed.

End Disclosed.

(** ** Runs *)

(** A tag whose key was held at some point. *)
Definition key_was_held (h : list op) (i : tag_id) : Prop :=
  exists h1 h2 o1 K, h = h1 ++ h2 /\ run new h1 = Ok o1 /\ held (o_keys o1) K /\ with_key (chain_of K) (k_gst K) i.

Lemma key_was_held_mono h q i : key_was_held h i -> key_was_held (h ++ q) i.
Proof.
  intros (h1 & h2 & o1 & K & -> & H). exists h1, (h2 ++ q), o1, K. split; [now rewrite app_assoc|exact H].
Qed.

Lemma no_chain_returns_prefix h q : no_chain_returns root user slow (h ++ q) -> no_chain_returns root user slow h.
Proof.
  intros H h1 h2 h3 h4 o1 o2 o3 k1 k3 E. apply (H h1 h2 h3 (h4 ++ q)). rewrite E, <- !app_assoc. reflexivity.
Qed.

Lemma chain_forward h1 h2 o1 o2 k1 k2 : Forall op_ok (h1 ++ h2) -> no_chain_returns root user slow (h1 ++ h2) ->
  run new h1 = Ok o1 -> run new (h1 ++ h2) = Ok o2 -> held (o_keys o1) k1 -> held (o_keys o2) k2 ->
  chain_of k2 = chain_of k1 -> time_of (k_gst k1) <= time_of (k_gst k2).
Proof.
  revert o2 k2. induction h2 as [|x h2 IH] using rev_ind; intros o2 k2 Hok Hret H1 H2 Hk1 Hk2 E.
  - rewrite app_nil_r in H2. rewrite H1 in H2. injection H2 as <-.
    destruct (reachable_inv HC HS root user slow h1 o1) as (_ & (_ & Hst) & _).
    { now rewrite app_nil_r in Hok. }
    { exact H1. }
    rewrite (held_unique _ _ _ Hst Hk2 Hk1 E). lia.
  - rewrite app_assoc in Hok, Hret. pose proof H2 as H2'. rewrite app_assoc, run_snoc in H2.
    destruct (run new (h1 ++ h2)) as [o|] eqn:Eo; [|discriminate H2]. cbn [bind] in H2.
    destruct (Hret h1 h2 [x] [] o1 o o2 k1 k2) as (k & Hk & Ek); auto.
    { now rewrite app_nil_r, !app_assoc. }
    pose proof (proj1 (Forall_app _ _ _) Hok) as (Hok1 & _).
    assert (Hle : time_of (k_gst k1) <= time_of (k_gst k)).
    { apply (IH o k); auto. now apply no_chain_returns_prefix with [x]. }
    destruct (reachable_inv HC HS root user slow _ _ Hok1 Eo) as (_ & Hst & Hko).
    rewrite app_assoc in H2'. destruct (reachable_inv HC HS root user slow _ _ Hok H2') as (_ & _ & Hko').
    destruct (step_keys_forward o x o2 k k2 Hko Hko' Hst H2 Hk Hk2) as (_ & Hle2); [congruence|]. lia.
Qed.

Definition once_inv (h : list op) (o : osnma) : Prop :=
  exists hs, nav_at root user slow h hs (o_nav o) /\ all_once (key_was_held h) h hs.

Lemma once_later h q o o' : inav_words q = [] -> o_nav o' = o_nav o -> once_inv h o ->
  exists hs, nav_at root user slow (h ++ q) hs (o_nav o') /\ all_once (key_was_held h) (h ++ q) hs.
Proof.
  intros Hq E (hs & (Hn1 & Hn2 & Hn3) & HA). exists hs. rewrite E. split.
  - split; [exact Hn1|]. split; [exact Hn2|]. rewrite inav_words_app, Hq, app_nil_r.
    eapply nav_inv_weaken; [|exact Hn3]. intros. now apply verified_mono.
  - now apply all_once_weaken with (key_was_held h).
Qed.

Lemma once_mono h q o o' : inav_words q = [] -> o_nav o' = o_nav o -> once_inv h o -> once_inv (h ++ q) o'.
Proof.
  intros Hq E Ho. destruct (once_later h q o o' Hq E Ho) as (hs & Hn & HA). exists hs. split; [exact Hn|].
  apply all_once_more with (2 := HA). intros i. apply key_was_held_mono.
Qed.

Lemma feed_inav_once h o o' word svn g b : op_ok (FeedInav word svn g b) ->
  once_inv h o -> feed_inav o word svn g b = Ok o' -> once_inv (h ++ [FeedInav word svn g b]) o'.
Proof.
  intros (Hw & Hsvn & Hg) (hs & (Hn1 & Hn2 & Hn3) & HA) H.
  unfold feed_inav in H. bind_inv H. injection H as <-. set (q := [FeedInav word svn g b]).
  destruct (nav_feed_spec HS hs (o_nav o) word svn g b Hn1) as (n' & En & Hn'). rewrite En in E. injection E as <-.
  exists (abs_feed hs word svn g b). cbn [set_nav o_nav].
  assert (Hsn : Forall snap_ok hs) by apply Hn1.
  split.
  - split; [exact Hn'|]. split; [apply abs_feed_ok; auto|].
    rewrite inav_words_app. cbn [q inav_words flat_map app]. rewrite nav_stretches_snoc.
    apply abs_feed_inv; auto. eapply nav_inv_weaken; [|exact Hn3]. intros. now apply verified_mono.
  - apply abs_feed_once; auto. apply all_once_weaken with (key_was_held h); [|exact HA].
    intros i. apply key_was_held_mono.
Qed.

Lemma seconds_after_same g t t' d : seconds_after g t d -> seconds_after g t' d -> time_of t = time_of t'.
Proof.
  intros (H1 & H2 & H3) (_ & H4 & H5). pose proof (gst_time_bound _ H2) as B1. pose proof (gst_time_bound _ H4) as B2.
  apply Z.mod_divide in H3; [|lia]. apply Z.mod_divide in H5; [|lia]. destruct H3 as (a & Ha), H5 as (b & Hb). nia.
Qed.

Lemma step_once h o x o' : Forall op_ok (h ++ [x]) -> no_chain_returns root user slow (h ++ [x]) ->
  run new h = Ok o -> once_inv h o -> step o x = Ok o' -> once_inv (h ++ [x]) o'.
Proof.
  intros Hok Hret Hrun Honce H. pose proof (proj1 (Forall_app _ _ _) Hok) as (Hok1 & Hx).
  apply Forall_cons_iff in Hx. destruct Hx as (Hx & _).
  destruct (reachable_inv HC HS root user slow h o Hok1 Hrun) as (Hinv & Hst & Hko).
  assert (Hrun' : run new (h ++ [x]) = Ok o') by (rewrite run_snoc, Hrun; exact H).
  destruct x as [word svn g b|data svn g]; cbn [step] in H.
  { now apply feed_inav_once with o. }
  destruct (feed_osnma_cases root user slow _ _ _ _ _ _ Hok1 Hx Hinv H)
    as (sf & _ & Hrest & [->|(hk & mk & Hsf & Hp)]).
  { apply once_mono with o; auto. }
  set (q := [FeedOsnma data svn g]) in *. set (oa := set_sub sf o) in *.
  destruct (process_subframe_cases _ _ _ _ _ _ Hp) as (ms & cd & d & o2 & E0 & E1 & E2 & E3).
  pose proof (subframe_dsm_inv HC HS root user slow _ _ _ _ _ _ _ _ _ _ Hok Hrest Hsf E0 E1 E2) as Hrest2.
  assert (Hnav : o_nav o2 = o_nav o).
  { destruct d as [d|]; [|now subst o2]. apply process_dsm_nav in E2. exact E2. }
  destruct (osnma_validate_key_cases HC root user slow _ _ _ _ _ _ _ Hok Hrest2 Hsf E3)
    as [->|(cur & key & ks & Hcur & Hlt & Hnok & Htrust & Hng & Hch & Hin & Hstore & Hinv' & Ht)].
  { now apply once_mono with o. }
  assert (Hlast : last_call_at (h ++ q) svn (k_gst key)).
  { exists h, data, g. split; [reflexivity|]. now rewrite Hng. }
  pose proof Hsf as Hsf'. rewrite <- Hng in Hsf'.
  destruct (once_later h q o o2 eq_refl Hnav Honce) as (hs & Hn & HA).
  assert (Hsta : stores_ok (set_dsm cd (set_mack ms oa))).
  { apply (same_trust_stores o); [now repeat split|exact Hst]. }
  assert (Hst2 : stores_ok o2).
  { destruct d as [d|]; [now apply process_dsm_stores in E2|now subst o2]. }
  (* the key is held after the call *)
  assert (Hheld : held (o_keys o') key).
  { pose proof Ht as Ht'. apply process_tags_trust in Ht'. destruct Ht' as ((_ & _ & ->) & _). cbn [set_keys o_keys].
    destruct Hst2 as (_ & Hd2). now destruct (store_key_spec _ _ _ Hd2 Hstore) as (_ & S2 & _). }
  (* and no key of the chain of that time was held before *)
  assert (Hfresh : forall i, with_key (chain_of key) (k_gst key) i -> ~ key_was_held h i).
  { intros i (I1 & I2) (h1 & h2 & o1 & K & Eh & R1 & K1 & I3 & I4).
    pose proof (seconds_after_same _ _ _ _ I2 I4) as Etime.
    assert (Ec : chain_of key = chain_of K) by congruence.
    destruct (Hret h1 h2 q [] o1 o o' K key) as (k2 & Hk2 & Ek2); auto.
    { rewrite app_nil_r, app_assoc, <- Eh. reflexivity. }
    { now rewrite <- Eh. }
    { now rewrite app_assoc, <- Eh. }
    assert (Hle : time_of (k_gst K) <= time_of (k_gst k2)).
    { apply (chain_forward h1 h2 o1 o K k2); auto; rewrite <- Eh; auto. now apply no_chain_returns_prefix with q. }
    assert (Hcurh : held (o_keys o2) cur) by now apply current_key_in.
    assert (Ecur : chain_of cur = chain_of k2) by (unfold chain_of in *; congruence).
    assert (cur = k2) as ->.
    { destruct d as [d|].
      - exact (process_dsm_keys _ _ _ _ _ _ _ Hsta E2 Hk2 Hcurh Ecur).
      - subst o2. destruct Hst as (_ & Hst). exact (held_unique _ _ _ Hst Hcurh Hk2 Ecur). }
    rewrite gst_cmp_time in Hlt; [|apply Hko, Hk2|apply Hnok]. change (time_of (k_gst k2) < time_of (k_gst key)) in Hlt. lia. }
  destruct (process_tags_once (h ++ q) key svn hk mk Hok Hnok Htrust Hlast Hsf' Hin
              (key_was_held h) (set_keys ks o2) o' hs Hinv' Hn HA Hfresh Ht) as (hs' & Hn' & HA').
  exists hs'. split; [exact Hn'|]. apply all_once_more with (2 := HA').
  intros i [Hi|Hi]; [now apply key_was_held_mono|].
  exists (h ++ q), [], o', key. split; [now rewrite app_nil_r|]. auto.
Qed.

Lemma run_once h : Forall op_ok h -> no_chain_returns root user slow h ->
  forall o, run new h = Ok o -> once_inv h o.
Proof.
  induction h as [|x h IH] using rev_ind; intros Hok Hret o H.
  - injection H as <-. exists []. split; [|intros s k e []].
    split; [apply represents_nav_new; auto|]. split; [constructor|]. apply nav_inv_new.
  - pose proof H as H'. rewrite run_snoc in H. destruct (run new h) as [o1|] eqn:E; [|discriminate H].
    cbn [bind] in H. apply step_once with o1; auto. apply IH; auto.
    + now apply Forall_app in Hok.
    + now apply no_chain_returns_prefix with [x].
Qed.

Theorem returned_once h o k svn d : Forall op_ok h -> no_chain_returns root user slow h ->
  run new h = Ok o -> getter k o svn = Ok (Some d) ->
  authenticated_once root user slow h k svn (nd_data d) (nd_authbits d).
Proof.
  intros Hok Hret Hrun Hg. destruct (run_once h Hok Hret o Hrun) as (hs & (Hn & _) & HA).
  destruct (getter_entry HS k o svn d hs Hn Hg) as (s & e & Hs & He & Hsvn & H40 & -> & ->).
  destruct (HA s k e Hs He svn Hsvn) as (L & H1 & H2 & H3). split; [exact H40|].
  exists L. split; [rewrite <- total_concat; exact H1|]. split; [exact H2|].
  intros i tag Hi. rewrite Forall_forall in H3. exact (proj2 (H3 (i, tag) Hi)).
Qed.

(** ** Two chains that are not revoked *)

Lemma signed_kroot_mono h q f hd : signed_kroot root user h f hd -> signed_kroot root user (h ++ q) f hd.
Proof.
  intros (id & d & svn & g & hk & mk & pk & H1 & H2 & H3 & H4 & H5 & H6 & H7).
  exists id, d, svn, g, hk, mk, pk. split; [exact H1|]. split; [now apply dsm_received_mono|]. split; [exact H3|].
  split; [now apply subframe_received_mono|]. split; [exact H5|]. split; [now apply trusted_pubkey_mono|exact H7].
Qed.
Lemma only_two_chains_prefix h q a b : only_two_chains root user (h ++ q) a b -> only_two_chains root user h a b.
Proof. intros H f hd Hf. apply H. now apply signed_kroot_mono. Qed.

Lemma held_of_chains h o a b k : Forall op_ok h -> only_two_chains root user h a b -> run new h = Ok o ->
  held (o_keys o) k -> chain_of k = a \/ chain_of k = b.
Proof.
  intros Hok H2 Hrun Hk. pose proof (run_inv HC HS root user slow h Hok o Hrun) as (_ & Hinv).
  destruct (ri_keys _ _ _ _ _ Hinv k Hk) as (_ & kr & n & (id & d & f & pk & svn & g & hk & mk & V1 & V2 & V3 & V4 & V5 & V6 & V7 & V8) & (A1 & _)).
  unfold chain_of. rewrite A1, (kk_id _ _ V8).
  apply (H2 f (nth 0 hk 0)). exists id, d, svn, g, hk, mk, pk. auto 10.
Qed.

(** Storing a KROOT of one of the two chains drops none of them. *)
Lemma store_kroot_two ks key hd g a b k : keys_distinct ks ->
  (forall q, held ks q -> chain_of q = a \/ chain_of q = b) -> (chain_of key = a \/ chain_of key = b) ->
  held ks k -> held (store_kroot ks key hd g) k.
Proof.
  intros Hd Hab Hkey Hk. unfold store_kroot.
  destruct (has_chain_id (ks_k0 ks) (ch_id (k_chain key))) eqn:E0; [exact Hk|].
  destruct (has_chain_id (ks_k1 ks) (ch_id (k_chain key))) eqn:E1; [exact Hk|].
  destruct (ks_k0 ks) as [k0|] eqn:K0; [destruct (ks_k1 ks) as [k1|] eqn:K1|].
  - exfalso. cbn [has_chain_id] in E0, E1. apply Z.eqb_neq in E0, E1.
    assert (H0 : held ks k0) by now left. assert (H1 : held ks k1) by now right.
    assert (chain_of k0 <> chain_of k1).
    { intros E. pose proof (held_unique _ _ _ Hd H0 H1 E) as ->. unfold keys_distinct in Hd. rewrite K0, K1 in Hd.
      exact (Hd k1 k1 eq_refl eq_refl eq_refl). }
    destruct (Hab _ H0), (Hab _ H1), Hkey; unfold chain_of in *; congruence.
  - destruct Hk as [Hk|Hk]; [|congruence]. left. cbn [ks_k0]. congruence.
  - destruct Hk as [Hk|Hk]; [congruence|]. right. exact Hk.
Qed.

Lemma step_keeps_chains h o x o' a b k : Forall op_ok (h ++ [x]) -> only_two_chains root user (h ++ [x]) a b ->
  run new h = Ok o -> step o x = Ok o' -> held (o_keys o) k ->
  no_trust o' \/ exists k', held (o_keys o') k' /\ chain_of k' = chain_of k.
Proof.
  intros Hok H2 Hrun Hstep Hk. pose proof (proj1 (Forall_app _ _ _) Hok) as (Hok1 & Hx).
  apply Forall_cons_iff in Hx. destruct Hx as (Hx & _).
  destruct (reachable_inv HC HS root user slow h o Hok1 Hrun) as (Hinv & Hst & Hko).
  pose proof (held_of_chains h o a b) as Hab. specialize (fun q => Hab q Hok1 (only_two_chains_prefix _ _ _ _ H2) Hrun).
  destruct (step_cases HS root user slow h o x o' Hok1 Hx Hinv Hstep)
    as [(_ & _ & Hs)|(svn & g & hk & mk & o1 & o2 & Hsf & Hs & _ & Hd & Hv)].
  { right. exists k. rewrite Hs. auto. }
  pose proof (same_trust_stores _ _ Hs Hst) as Hst1. destruct Hs as (Hs1 & Hs2 & Hs3).
  assert (Hst2 : stores_ok o2).
  { destruct Hd as [->|(d & _ & _ & Hd)]; [exact Hst1|]. now apply process_dsm_stores in Hd. }
  assert (no_trust o2 \/ held (o_keys o2) k) as [Hn|Hk2].
  { destruct Hd as [->|(d & D1 & D2 & D3)]; [right; now rewrite Hs3|].
    assert (Hb : is_byte (nth 0 hk 0)).
    { destruct (subframe_received_bytes _ _ _ _ _ Hok Hsf) as ((Hlen & Hhk) & _).
      rewrite Forall_forall in Hhk. apply Hhk. apply nth_In. lia. }
    apply process_dsm_effect in D3.
    destruct D3 as [->|pk key ps Et Hpk Hkey Hps Hid ->|r pk ps Et Hm Hvp Hps ->|r Et Hm Hvp ->].
    - right. now rewrite Hs3.
    - destruct (key_from_dsm_kroot_sound HC _ _ _ _ Hb (dsm_received_bytes _ _ _ Hok D1) Hkey)
          as (f & F1 & F2 & F3 & _).
      rewrite (kroot_pkid_layout _ _ F1) in Hid. injection Hid as Hid. rewrite Et in D2.
      destruct (H2 f (nth 0 hk 0)) as (Hc & Hrev).
      { exists (dm_id d), (dm_data d), svn, g, hk, mk, pk.
        split; [destruct (dm_id d <? 12) eqn:El; [lia|discriminate]|]. split; [exact D1|]. split; [exact F1|].
        split; [exact Hsf|]. split; [reflexivity|]. split; [|auto].
        rewrite Hs2 in Hpk. apply trusted_pubkey_mono.
        destruct Hinv as (_ & Hri). exact (ri_pub _ _ _ _ _ Hri pk Hpk). }
      assert (Hkept : held (store_kroot (o_keys o1) key (nth 0 hk 0) g) k).
      { apply store_kroot_two with a b; [apply Hst1|rewrite Hs3; exact Hab| |now rewrite Hs3].
        unfold chain_of. rewrite (kk_id _ _ F3). exact Hc. }
      destruct (header_fields _ Hb) as (X1 & _ & X3).
      assert (Hno : forall z, nma_status (nth 0 hk 0) = NmaDontUse -> nma_cpks (nth 0 hk 0) = z ->
        z <> CpksChainRevoked /\ z <> CpksPublicKeyRevoked).
      { intros z Z1 Z2. rewrite Z1 in X1. rewrite Z2 in X3. split; intros ->; apply Hrev; (split; [now rewrite <- X1|]);
          [left|right]; rewrite <- X3; reflexivity. }
      unfold process_nma_header. destruct (nma_status (nth 0 hk 0)) eqn:Zs, (nma_cpks (nth 0 hk 0)) eqn:Zc;
        try (right; exact Hkept); try (left; apply alert_no_trust);
        exfalso; destruct (Hno _ eq_refl eq_refl) as (N1 & N2); congruence.
    - right. cbn [set_pub o_keys]. now rewrite Hs3.
    - left. apply alert_no_trust. }
  - left. assert (o' = o2) as ->; [|exact Hn].
    unfold osnma_validate_key in Hv. rewrite (no_keys_current _ (proj2 (proj2 Hn))) in Hv. now injection Hv.
  - right. destruct (validate_key_chains o2 mk g o' k (proj2 Hst2) Hv Hk2) as (k' & R1 & R2).
    { intros p q Hp Hq. apply (held_unique _ _ _ (proj2 Hst2) Hp Hq). }
    exists k'. split; [exact R1|]. unfold chain_of. now rewrite R2.
Qed.

Lemma run_keeps_chains h1 h2 a b o1 k : Forall op_ok (h1 ++ h2) -> only_two_chains root user (h1 ++ h2) a b ->
  run new h1 = Ok o1 -> held (o_keys o1) k -> forall o2, run new (h1 ++ h2) = Ok o2 ->
  no_trust o2 \/ exists k', held (o_keys o2) k' /\ chain_of k' = chain_of k.
Proof.
  induction h2 as [|x h2 IH] using rev_ind; intros Hok H2 R1 Hk o2 R2.
  - rewrite app_nil_r in R2. rewrite R1 in R2. injection R2 as <-. right. exists k. auto.
  - rewrite app_assoc in Hok, H2, R2. pose proof R2 as R2'. rewrite run_snoc in R2'.
    destruct (run new (h1 ++ h2)) as [o|] eqn:E; [|discriminate R2']. cbn [bind] in R2'.
    pose proof (proj1 (Forall_app _ _ _) Hok) as (Hok1 & _).
    destruct (IH Hok1 (only_two_chains_prefix _ _ _ _ H2) R1 Hk o eq_refl) as [Hn|(k' & Hk' & Ek)].
    + left. exact (step_no_trust _ _ _ Hn R2').
    + destruct (step_keeps_chains (h1 ++ h2) o x o2 a b k' Hok H2 E R2' Hk') as [Hn|(k2 & Hk2 & Ek2)]; [now left|].
      right. exists k2. split; [exact Hk2|congruence].
Qed.

Theorem two_chains_stay h a b : Forall op_ok h -> only_two_chains root user h a b -> no_chain_returns root user slow h.
Proof.
  intros Hok H2 h1 h2 h3 h4 o1 o2 o3 k1 k3 E R1 R2 R3 Hk1 Hk3 Ec.
  assert (Hok2 : Forall op_ok (h1 ++ h2)).
  { rewrite E, app_assoc in Hok. now apply Forall_app in Hok. }
  assert (H2' : only_two_chains root user (h1 ++ h2) a b).
  { rewrite E, app_assoc in H2. exact (only_two_chains_prefix _ _ _ _ H2). }
  destruct (run_keeps_chains h1 h2 a b o1 k1 Hok2 H2' R1 Hk1 o2 R2) as [Hn|H]; [|exact H].
  exfalso. rewrite app_assoc, run_app, R2 in R3. cbn [bind] in R3.
  destruct (run_no_trust _ _ _ Hn R3) as (_ & _ & H). now apply (H k3).
Qed.

End Crypto.

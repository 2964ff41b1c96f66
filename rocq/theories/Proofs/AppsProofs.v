(** What galmon-osnma feeds to the library. *)
From Coq Require Import ZArith List Bool Lia ZifyBool ZifyNat.
From Verif Require Import Model.Prelude Model.Params Model.Gst Model.Svn Model.Merkle Model.Nav Model.Osnma Model.Transport Model.Apps
  Spec.TimeSpec Spec.CollectSpec Spec.NavSpec Spec.SystemSpec Spec.AppsSpec Proofs.Base Proofs.GstProofs.
Import ListNotations.
Open Scope Z_scope.

Ltac Zify.zify_post_hook ::= Z.div_mod_to_equations.

Lemma gst_at_ok t : 0 <= t < 65536 * 604800 -> gst_ok (gst_at t) /\ time_of (gst_at t) = t.
Proof. intros H. unfold gst_ok, gst_at, time_of. cbn [g_wn g_tow]. lia. Qed.

Lemma subframe_gst_at t : 0 <= t -> gst_subframe (gst_at t) = gst_at (t / 30 * 30).
Proof. intros H. unfold gst_subframe, gst_at, secs_per_subframe. cbn [g_wn g_tow]. f_equal; lia. Qed.

(** The correction stays in the subframe and in the week. *)
Lemma used_time_same before p : inav_ok p ->
  used_time before p / 30 = raw_time p / 30 /\ used_time before p / 604800 = raw_time p / 604800 /\
  0 <= raw_time p <= used_time before p.
Proof.
  intros (H1 & H2 & _). unfold raw_time. destruct before as [|q before]; cbn [used_time]; unfold raw_time.
  - lia.
  - destruct (((604800 * p_wn p + p_tow p) mod 30 =? 15) && (19 <=? used_time before q mod 30)) eqn:E; lia.
Qed.

Lemma to_array_cases n l : (to_array n l = Ok l /\ length l = n) \/ (to_array n l = Panic /\ length l <> n).
Proof. unfold to_array. destruct (length l =? n)%nat eqn:E; [left|right]; split; auto; lia. Qed.

Section Build.
Context {B : build}.

(** The variables after the packets [before], last first. *)
Definition app_inv (a : app_vars) (before : list galileo_inav) : Prop :=
  match before with
  | [] => a = app_new
  | q :: r => a_last a = used_time r q mod 30 /\
      exists n, 0 <= n < 65536 * 20160 /\ a_current a = Some (gst_at (30 * n)) /\
        forall m, in_order m before <-> n <= m
  end.

Lemma app_inv_order a before n : app_inv a before -> 0 <= n < 65536 * 20160 ->
  match a_current a with Some c => gst_ltb (gst_at (30 * n)) c | None => false end = false <-> in_order n before.
Proof.
  intros H Hn. destruct before as [|q r].
  - cbn [app_inv in_order] in *. subst a. cbn [app_new a_current]. tauto.
  - destruct H as (_ & m & Hm & -> & Ho). rewrite Ho.
    destruct (gst_at_ok (30 * n) ltac:(lia)) as [K1 K2]. destruct (gst_at_ok (30 * m) ltac:(lia)) as [K3 K4].
    pose proof (gst_ltb_time _ _ K1 K3) as K. rewrite K2, K4 in K.
    destruct (gst_ltb (gst_at (30 * n)) (gst_at (30 * m))); split; intros; try lia; try discriminate.
Qed.

Lemma app_last a before p : app_inv a before -> inav_ok p ->
  (if (p_tow p mod 604800 mod 30 =? 15) && (19 <=? a_last a) then p_tow p mod 604800 + (29 - 15) else p_tow p mod 604800)
  = used_time before p mod 604800.
Proof.
  intros H (H1 & H2 & _).
  assert (E : p_tow p mod 604800 mod 30 = raw_time p mod 30) by (unfold raw_time; lia).
  rewrite E. destruct before as [|q r]; cbn [used_time app_inv] in *.
  - subst a. cbn [app_new a_last]. rewrite Bool.andb_false_r. unfold raw_time. lia.
  - destruct H as (-> & _). destruct ((raw_time p mod 30 =? 15) && (19 <=? used_time r q mod 30)) eqn:K; unfold raw_time in *; lia.
Qed.

Lemma accept_spec a before p : app_inv a before -> inav_ok p -> week_fits p ->
  exists a', app_inv a' (p :: before) /\
    ((in_order (used_subframe before p) before /\ accept a p = Ok (a', Some (gst_at (used_time before p)))) \/
     (~ in_order (used_subframe before p) before /\ accept a p = Ok (a', None))).
Proof.
  intros Ha Hp Hw. destruct (used_time_same before p Hp) as (U1 & U2 & U3).
  pose proof (app_last a before p Ha Hp) as El.
  destruct Hp as (H1 & H2 & Hp). unfold week_fits in Hw.
  assert (Eacc : accept a p =
    let g := gst_at (used_time before p) in
    let last := used_time before p mod 604800 mod 30 in
    if match a_current a with Some c => gst_ltb (gst_subframe g) c | None => false end
    then Ok (mkApp (a_current a) last, None) else Ok (mkApp (Some (gst_subframe g)) last, Some g)).
  { unfold accept. rewrite El.
  unfold to_u16 at 1. destruct (p_wn p <? 65536) eqn:E1; [|unfold raw_time in Hw; lia]. cbn [bind].
  unfold to_u16. destruct (p_tow p / 604800 <? 65536) eqn:E2; [|unfold raw_time in Hw; lia]. cbn [bind].
  assert (Ew : p_wn p + p_tow p / 604800 = used_time before p / 604800) by (rewrite U2; unfold raw_time; lia).
  rewrite Ew. unfold u16_arith.
  destruct ((0 <=? used_time before p / 604800) && (used_time before p / 604800 <? 65536)) eqn:E3; [|lia]. cbn [bind].
  unfold gst_new, assert_, secs_in_week. destruct (used_time before p mod 604800 <? 604800) eqn:E4; [|lia]. cbn [bind].
  change {| g_wn := used_time before p / 604800; g_tow := used_time before p mod 604800 |} with (gst_at (used_time before p)). reflexivity. }
  rewrite Eacc. cbn zeta. clear Eacc.
  rewrite subframe_gst_at by lia.
  assert (Hn : 0 <= used_time before p / 30 < 65536 * 20160) by lia.
  replace (used_time before p / 30 * 30) with (30 * (used_time before p / 30)) by lia.
  pose proof (app_inv_order a before (used_time before p / 30) Ha Hn) as Ho.
  assert (Em : used_time before p mod 604800 mod 30 = used_time before p mod 30) by lia.
  destruct (match a_current a with Some c => gst_ltb (gst_at (30 * (used_time before p / 30))) c | None => false end) eqn:E.
  - assert (No : ~ in_order (used_time before p / 30) before) by (intros K; apply Ho in K; discriminate).
    eexists. split; [|right; split; [exact No|reflexivity]].
    split; [cbn [a_last]; exact Em|]. destruct before as [|q r]; [now elim No|].
    destruct Ha as (_ & n & Hn' & Ec & Hi). exists n. split; [exact Hn'|]. split; [exact Ec|].
    intros m. cbn [in_order] in Hi |- *. unfold used_subframe at 1. rewrite Hi.
    cbn [in_order] in No. rewrite Hi in No. lia.
  - assert (Yes : in_order (used_time before p / 30) before) by (apply Ho; reflexivity).
    eexists. split; [|left; split; [exact Yes|reflexivity]].
    split; [cbn [a_last]; exact Em|]. exists (used_time before p / 30). split; [exact Hn|]. split; [reflexivity|].
    intros m. cbn [in_order]. unfold used_subframe at 1. split; [tauto|]. intros Hm. split; [exact Hm|].
    destruct before as [|q r]; [exact I|]. destruct Ha as (_ & n & _ & _ & Hi). rewrite Hi in Yes |- *. lia.
Qed.

Lemma accept_panics a p : inav_ok p -> ~ week_fits p -> overflow_checks = true -> accept a p = Panic.
Proof.
  intros (H1 & H2 & _) Hw Ho. unfold week_fits, raw_time in Hw. unfold accept.
  unfold to_u16 at 1. destruct (p_wn p <? 65536) eqn:E1; [|reflexivity]. cbn [bind].
  unfold to_u16. destruct (p_tow p / 604800 <? 65536) eqn:E2; [|reflexivity]. cbn [bind].
  unfold u16_arith. rewrite Ho.
  destruct ((0 <=? p_wn p + p_tow p / 604800) && (p_wn p + p_tow p / 604800 <? 65536)) eqn:E3; [lia|]. reflexivity.
Qed.

(** ** One message *)

Lemma band_of_sigid_spec sigid b : band_of_sigid sigid = Some b <-> sigid = match b with E1B => 1 | E5B => 5 end.
Proof.
  unfold band_of_sigid. destruct (sigid =? 1) eqn:E1; [|destruct (sigid =? 5) eqn:E5]; destruct b;
    split; intros; try discriminate; try congruence; try lia; f_equal; lia.
Qed.

Lemma galmon_calls_spec a before p : p_sigid p <> None ->
  app_inv a before -> inav_ok p -> (overflow_checks = true \/ week_fits p) ->
  forall m, m_gi m = Some p ->
  (exists a' l, galmon_calls a m = Ok (a', l) /\ ~ bad_packet before p /\ feeds before p l /\ app_inv a' (p :: before)) \/
  (galmon_calls a m = Panic /\ bad_packet before p).
Proof.
  intros Hsig Ha Hp Hw m Em. unfold galmon_calls. rewrite Em. destruct (p_sigid p) as [sigid|] eqn:Es; [|now elim Hsig].
  clear Hsig.
  destruct (Z_lt_dec (raw_time p) (65536 * 604800)) as [Hf|Hf].
  2: { right. destruct Hw as [Hc|Hw]; [|now elim Hf]. rewrite (accept_panics a p Hp Hf Hc). split; [reflexivity|]. left. exact Hf. }
  destruct (accept_spec a before p Ha Hp Hf) as (a' & Ha' & [(Ho & ->)|(Ho & ->)]); cbn [bind].
  2: { left. exists a', []. split; [reflexivity|]. split; [|split; [|exact Ha']].
       - intros [K|(K & _)]; [now apply K|contradiction].
       - right. split; [|reflexivity]. intros (_ & K & _). contradiction. }
  destruct (svn_try_from (p_sv p)) as [svn|] eqn:Ev; cbn [unwrap bind].
  2: { right. split; [reflexivity|]. right. split; [exact Ho|]. left. intros K.
       assert (svn_try_from (p_sv p) = Some (p_sv p)) by (apply svn_try_from_iff; auto). congruence. }
  apply svn_try_from_iff in Ev. destruct Ev as [Hv ->].
  destruct (band_of_sigid sigid) as [b|] eqn:Eb.
  2: { assert (Nb : ~ exists b, of_band b p).
       { intros [b Hb]. unfold of_band in Hb. rewrite Es in Hb. injection Hb as Hb. apply band_of_sigid_spec in Hb. congruence. }
       left. exists a', []. split; [reflexivity|]. split; [|split; [|exact Ha']].
       - intros [K|(_ & [K|(K & _)])]; [now apply K|contradiction|contradiction].
       - right. split; [|reflexivity]. intros (K & _). contradiction. }
  assert (Hb : of_band b p) by (unfold of_band; rewrite Es; f_equal; now apply band_of_sigid_spec).
  unfold index. destruct (p_contents p) as [|w0 w] eqn:Ec; cbn [nth_error unwrap bind].
  { right. split; [reflexivity|]. right. split; [exact Ho|]. right. split; [now exists b|]. left. exact Ec. }
  destruct (w0 / 4 =? 63) eqn:Ed.
  { apply Z.eqb_eq in Ed. assert (Hd : dummy p) by (exists w0, w; auto).
    left. exists a', []. split; [reflexivity|]. split; [|split; [|exact Ha']].
    - intros [K|(_ & [K|(_ & [K|(K & _)])])]; [now apply K|contradiction|congruence|contradiction].
    - right. split; [|reflexivity]. intros (_ & _ & K). contradiction. }
  apply Z.eqb_neq in Ed.
  assert (Nd : ~ dummy p) by (intros (w0' & w' & E & E'); congruence).
  rewrite <- Ec. destruct (to_array_cases 16 (p_contents p)) as [(-> & E16)|(-> & E16)]; cbn [bind].
  2: { right. split; [reflexivity|]. right. split; [exact Ho|]. right. split; [now exists b|]. right. split; [exact Nd|]. now left. }
  destruct (p_reserved1 p) as [d|] eqn:Er.
  - destruct (to_array_cases 5 d) as [(-> & E5)|(-> & E5)]; cbn [bind].
    2: { right. split; [reflexivity|]. right. split; [exact Ho|]. right. split; [now exists b|]. right. split; [exact Nd|]. right.
         exists d. auto. }
    left. do 2 eexists. split; [reflexivity|]. split; [|split; [|exact Ha']].
    + intros [K|(_ & [K|(_ & [K|(_ & [K|(d' & E & K)])])])]; [now apply K|contradiction|congruence|contradiction|congruence].
    + left. exists b. split; [exact Hb|]. split; [exact Ho|]. split; [exact Nd|]. now rewrite Er.
  - left. do 2 eexists. split; [reflexivity|]. split; [|split; [|exact Ha']].
    + intros [K|(_ & [K|(_ & [K|(_ & [K|(d' & E & K)])])])]; [now apply K|contradiction|congruence|contradiction|congruence].
    + left. exists b. split; [exact Hb|]. split; [exact Ho|]. split; [exact Nd|]. now rewrite Er.
Qed.

(** ** All messages *)

Lemma inav_packets_cons m ms : inav_packets (m :: ms) = inav_packets [m] ++ inav_packets ms.
Proof. unfold inav_packets. cbn [flat_map]. now rewrite app_nil_r. Qed.

Lemma inav_packets_one m : inav_packets [m] = [] \/
  exists p, inav_packets [m] = [p] /\ m_gi m = Some p /\ p_sigid p <> None.
Proof.
  unfold inav_packets. cbn [flat_map]. rewrite app_nil_r. destruct (m_gi m) as [p|]; [|auto].
  destruct (p_sigid p) eqn:E; [|auto]. right. exists p. split; [reflexivity|]. split; [reflexivity|congruence].
Qed.

Lemma galmon_calls_none a m : inav_packets [m] = [] -> galmon_calls a m = Ok (a, []).
Proof.
  unfold inav_packets. cbn [flat_map]. rewrite app_nil_r. unfold galmon_calls. destruct (m_gi m) as [p|]; [|auto].
  destruct (p_sigid p); [discriminate|auto].
Qed.

Lemma all_calls_spec ms : forall a before, app_inv a before -> Forall message_ok ms ->
  (overflow_checks = true \/ Forall week_fits (inav_packets ms)) ->
  (exists a' l, galmon_all_calls a ms = Ok (a', l) /\ feeds_all before (inav_packets ms) l /\
     app_inv a' (rev (inav_packets ms) ++ before) /\
     (forall bs p after, inav_packets ms = bs ++ p :: after -> ~ bad_packet (rev bs ++ before) p)) \/
  (galmon_all_calls a ms = Panic /\
   exists bs p after, inav_packets ms = bs ++ p :: after /\ bad_packet (rev bs ++ before) p).
Proof.
  induction ms as [|m ms IH]; intros a before Ha Hok Hw; cbn [galmon_all_calls].
  { left. exists a, []. split; [reflexivity|]. split; [constructor|]. split; [exact Ha|].
    intros bs p after E. apply app_cons_not_nil in E. contradiction. }
  apply Forall_cons_iff in Hok. destruct Hok as [Hm Hok]. rewrite inav_packets_cons in *.
  destruct (inav_packets_one m) as [E0|(p & E1 & Em & Hs)].
  { rewrite (galmon_calls_none a m E0). cbn [bind]. rewrite E0 in *. cbn [app] in *.
    destruct (IH a before Ha Hok Hw) as [(a' & l & -> & Hl)|(-> & Hb)]; cbn [bind].
    - left. exists a', l. split; [reflexivity|]. exact Hl.
    - right. split; [reflexivity|]. exact Hb. }
  rewrite E1 in *. cbn [app] in *.
  assert (Hw1 : overflow_checks = true \/ week_fits p).
  { destruct Hw as [Hw|Hw]; [now left|right]. now apply Forall_cons_iff in Hw. }
  assert (Hw2 : overflow_checks = true \/ Forall week_fits (inav_packets ms)).
  { destruct Hw as [Hw|Hw]; [now left|right]. now apply Forall_cons_iff in Hw. }
  destruct (galmon_calls_spec a before p Hs Ha (Hm p Em) Hw1 m Em) as [(a1 & l1 & -> & Nb & Hf & Ha1)|(-> & Hb)]; cbn [bind].
  2: { right. split; [reflexivity|]. exists [], p, (inav_packets ms). split; [reflexivity|exact Hb]. }
  destruct (IH a1 (p :: before) Ha1 Hok Hw2) as [(a' & l & -> & Hl & Ha' & Hn)|(-> & bs & q & after & E & Hb)]; cbn [bind].
  - left. exists a', (l1 ++ l). split; [reflexivity|]. split; [constructor; assumption|].
    split; [cbn [rev]; now rewrite <- app_assoc|].
    intros bs q after E. destruct bs as [|b bs]; cbn [app rev] in *.
    + injection E as <- _. exact Nb.
    + injection E as <- E. rewrite <- app_assoc. apply (Hn bs q after E).
  - right. split; [reflexivity|]. exists (p :: bs), q, after. split; [now rewrite E|].
    cbn [rev]. rewrite <- app_assoc. exact Hb.
Qed.

(** ** Without any assumption about the weeks *)

Definition app_ok (a : app_vars) : Prop :=
  match a_current a with Some c => gst_ok c /\ gst_subframe c = c | None => True end.

Lemma accept_ok a p a' o : inav_ok p -> app_ok a -> 0 <= a_last a -> accept a p = Ok (a', o) ->
  app_ok a' /\ 0 <= a_last a' /\
  match o with
  | None => a_current a' = a_current a
  | Some g => gst_ok g /\ a_current a' = Some (gst_subframe g) /\
      match a_current a with Some c => time_of c <= time_of (gst_subframe g) | None => True end
  end.
Proof.
  intros (H1 & H2 & _) Ha Hl. unfold accept.
  unfold to_u16 at 1. destruct (p_wn p <? 65536) eqn:E1; [|discriminate]. cbn [bind].
  unfold to_u16. destruct (p_tow p / 604800 <? 65536) eqn:E2; [|discriminate]. cbn [bind].
  destruct (u16_arith overflow_checks (p_wn p + p_tow p / 604800)) as [wn|] eqn:Eu; [|discriminate]. cbn [bind].
  assert (Hwn : 0 <= wn < 65536).
  { unfold u16_arith in Eu. destruct ((0 <=? _) && _) eqn:K; [injection Eu as <-; lia|].
    destruct overflow_checks; [discriminate|]. injection Eu as <-. lia. }
  set (tow := if (p_tow p mod 604800 mod 30 =? 15) && (19 <=? a_last a) then p_tow p mod 604800 + (29 - 15) else p_tow p mod 604800).
  assert (Ht : 0 <= tow) by (unfold tow; destruct (_ && _); lia). clearbody tow.
  unfold gst_new, assert_, secs_in_week. destruct (tow <? 604800) eqn:E4; [|discriminate]. cbn [bind].
  assert (Hg : gst_ok (mkGst wn tow)) by (unfold gst_ok; cbn [g_wn g_tow]; lia).
  set (g := mkGst wn tow) in *. pose proof (gst_subframe_ok g Hg) as Hs.
  destruct (match a_current a with Some c => gst_ltb (gst_subframe g) c | None => false end) eqn:E; intros K; injection K as <- <-.
  - split; [exact Ha|]. split; [cbn [a_last]; lia|]. reflexivity.
  - split; [unfold app_ok; cbn [a_current]; split; [exact Hs|apply gst_subframe_idem]|]. split; [cbn [a_last]; lia|].
    split; [exact Hg|]. split; [reflexivity|].
    unfold app_ok in Ha. destruct (a_current a) as [c|]; [|exact I]. destruct Ha as [Hc _].
    pose proof (gst_ltb_time _ _ Hs Hc) as K. rewrite E in K. lia.
Qed.

Definition first_sub (a : app_vars) (x : op) : Prop :=
  match a_current a with Some c => time_of c <= time_of (gst_subframe (op_gst x)) | None => True end.

Lemma subframe_time g : gst_ok g -> time_of (gst_subframe g) = 30 * (time_of g / 30).
Proof. intros [H1 H2]. unfold gst_subframe, time_of, secs_per_subframe. cbn [g_wn g_tow]. lia. Qed.

Lemma subframe_of_eq g : subframe_of g = gst_subframe g.
Proof. unfold subframe_of, gst_subframe, secs_per_subframe. f_equal. lia. Qed.

Lemma galmon_calls_ok a m a' l : message_ok m -> app_ok a -> 0 <= a_last a -> galmon_calls a m = Ok (a', l) ->
  app_ok a' /\ 0 <= a_last a' /\ Forall op_ok l /\ Forall (first_sub a) l /\
  (forall x, In x l -> a_current a' = Some (gst_subframe (op_gst x))) /\
  match a_current a with Some c => exists c', a_current a' = Some c' /\ time_of c <= time_of c' | None => True end.
Proof.
  intros Hm Ha Hl. unfold galmon_calls.
  assert (Hsame : app_ok a /\ 0 <= a_last a /\ Forall op_ok [] /\ Forall (first_sub a) [] /\
     (forall x, In x [] -> a_current a = Some (gst_subframe (op_gst x))) /\
     match a_current a with Some c => exists c', a_current a = Some c' /\ time_of c <= time_of c' | None => True end).
  { split; [exact Ha|]. split; [exact Hl|]. split; [constructor|]. split; [constructor|]. split; [intros x []|].
    destruct (a_current a) as [c|]; [|exact I]. exists c. split; [reflexivity|lia]. }
  destruct (m_gi m) as [p|] eqn:Em; [|intros E; injection E as <- <-; exact Hsame].
  destruct (p_sigid p) as [sigid|]; [|intros E; injection E as <- <-; exact Hsame].
  destruct (accept a p) as [[a1 o]|] eqn:Eacc; [|discriminate]. cbn [bind].
  pose proof (Hm p Em) as Hp. destruct (accept_ok a p a1 o Hp Ha Hl Eacc) as (Ha1 & Hl1 & Ho).
  assert (Hnone : app_ok a1 /\ 0 <= a_last a1 /\ Forall op_ok [] /\ Forall (first_sub a) [] /\
     (forall x, In x [] -> a_current a1 = Some (gst_subframe (op_gst x))) /\
     match a_current a with Some c => exists c', a_current a1 = Some c' /\ time_of c <= time_of c' | None => True end).
  { split; [exact Ha1|]. split; [exact Hl1|]. split; [constructor|]. split; [constructor|]. split; [intros x []|].
    destruct (a_current a) as [c|]; [|exact I]. destruct o as [g|].
    - destruct Ho as (_ & -> & Ho). exists (gst_subframe g). auto.
    - rewrite Ho. exists c. split; [reflexivity|lia]. }
  destruct o as [g|]; [|intros E; injection E as <- <-; exact Hnone].
  destruct (svn_try_from (p_sv p)) as [svn|] eqn:Ev; [|discriminate]. cbn [unwrap bind].
  apply svn_try_from_iff in Ev. destruct Ev as [Hv ->].
  destruct (band_of_sigid sigid) as [b|]; [|intros E; injection E as <- <-; exact Hnone].
  destruct (index (p_contents p) 0) as [w0|]; [|discriminate]. cbn [bind].
  destruct (w0 / 4 =? 63); [intros E; injection E as <- <-; exact Hnone|].
  unfold to_array at 1. destruct (length (p_contents p) =? 16)%nat eqn:E16; [|discriminate]. cbn [bind].
  apply Nat.eqb_eq in E16. destruct Hp as (_ & _ & _ & Hc & Hr). destruct Ho as (Hg & Hcur & Hle).
  destruct Hnone as (_ & _ & _ & _ & _ & Hmono).
  assert (O1 : op_ok (FeedInav (p_contents p) (p_sv p) g b)).
  { cbn [op_ok]. split; [split; assumption|]. split; assumption. }
  destruct (p_reserved1 p) as [d|].
  - unfold to_array. destruct (length d =? 5)%nat eqn:E5; [|discriminate]. cbn [bind]. apply Nat.eqb_eq in E5.
    intros E; injection E as <- <-. split; [exact Ha1|]. split; [exact Hl1|].
    split.
    { constructor; [exact O1|]. constructor; [|constructor]. cbn [op_ok]. split; [split; [exact E5|now apply Hr]|]. split; assumption. }
    split; [repeat constructor; exact Hle|]. split; [|exact Hmono].
    intros x [<-|[<-|[]]]; exact Hcur.
  - intros E; injection E as <- <-. split; [exact Ha1|]. split; [exact Hl1|].
    split; [constructor; [exact O1|constructor]|]. split; [repeat constructor; exact Hle|]. split; [|exact Hmono].
    intros x [<-|[]]; exact Hcur.
Qed.

Lemma all_calls_ok ms : forall a a' l, Forall message_ok ms -> app_ok a -> 0 <= a_last a -> galmon_all_calls a ms = Ok (a', l) ->
  Forall op_ok l /\ Forall (first_sub a) l /\ in_subframe_order l.
Proof.
  induction ms as [|m ms IH]; intros a a' l Hok Ha Hl; cbn [galmon_all_calls].
  { intros E. injection E as <- <-. split; [constructor|]. split; [constructor|]. intros i j x y _ E. destruct i; discriminate. }
  apply Forall_cons_iff in Hok. destruct Hok as [Hm Hok].
  destruct (galmon_calls a m) as [[a1 l1]|] eqn:E1; [|discriminate]. cbn [bind].
  destruct (galmon_all_calls a1 ms) as [[a2 l2]|] eqn:E2; [|discriminate]. cbn [bind].
  intros E. injection E as <- <-.
  destruct (galmon_calls_ok a m a1 l1 Hm Ha Hl E1) as (Ha1 & Hl1 & O1 & F1 & Hc & Hmono).
  destruct (IH a1 a2 l2 Hok Ha1 Hl1 E2) as (O2 & F2 & S2).
  split; [now apply Forall_app|].
  assert (F2' : Forall (first_sub a) l2).
  { eapply Forall_impl; [|exact F2]. intros x Hx. unfold first_sub in *. destruct (a_current a) as [c|]; [|exact I].
    destruct Hmono as (c' & Ec & Hle). rewrite Ec in Hx. lia. }
  split; [now apply Forall_app|].
  intros i j x y Hij Ex Ey. rewrite !subframe_of_eq.
  rewrite Forall_forall in O1, O2, F2.
  destruct (Nat.lt_ge_cases j (length l1)) as [Hj|Hj].
  - rewrite nth_error_app1 in Ex, Ey by lia. apply nth_error_In in Ex, Ey.
    pose proof (Hc x Ex) as K1. pose proof (Hc y Ey) as K2. rewrite K1 in K2.
    assert (K3 : gst_subframe (op_gst x) = gst_subframe (op_gst y)) by congruence. clear K2.
    apply (f_equal time_of) in K3. rename K3 into K2.
    lia.
  - rewrite (nth_error_app2 l1) in Ey by lia. destruct (Nat.lt_ge_cases i (length l1)) as [Hi|Hi].
    + rewrite nth_error_app1 in Ex by lia. apply nth_error_In in Ex, Ey.
      pose proof (Hc x Ex) as K1. pose proof (F2 y Ey) as K2. unfold first_sub in K2. rewrite K1 in K2.
      exact K2.
    + rewrite nth_error_app2 in Ex by lia. rewrite <- !subframe_of_eq. apply (S2 (i - length l1)%nat (j - length l1)%nat); [lia|exact Ex|exact Ey].
Qed.

End Build.

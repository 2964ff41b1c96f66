(** Tags add up during honest reception. *)
From Coq Require Import ZArith List Bool Lia ZifyBool ZifyNat Sorted.
From Verif Require Import Model.Prelude Model.Params Model.Gst Model.Svn Model.Bitfields
  Model.Maclt Model.Tesla Model.Merkle Model.Subframe Model.Dsm Model.MackStore Model.Nav Model.Osnma
  Spec.TimeSpec Spec.CollectSpec Spec.StoreSpec Spec.NavSpec Spec.TeslaSpec Spec.KrootSpec
  Spec.MerkleSpec Spec.MacltSpec Spec.KeySpec Spec.SystemSpec Spec.StoredSpec Spec.CompleteSpec Spec.PanicSpec Spec.HonestSpec
  Spec.SumSpec
  Proofs.Base Proofs.Ring Proofs.Rows Proofs.GstProofs Proofs.NavProofs Proofs.EntryProofs Proofs.NavInv
  Proofs.TeslaProofs Proofs.NavHistory Proofs.SystemProofs Proofs.GetterProofs Proofs.KeyStoreProofs Proofs.StepProofs Proofs.AlertProofs
  Proofs.StoredProofs Proofs.RecentProofs Proofs.CompleteProofs Proofs.AuthProofs Proofs.TotalProofs Proofs.MackExact Proofs.NavKeep Proofs.HonestKeys
  Proofs.HonestProofs Proofs.SumProofs.
Import ListNotations.
Open Scope Z_scope.
Ltac Zify.zify_post_hook ::= Z.div_mod_to_equations.

(** ** Places in the calls *)

Notation call_time y := (time_of (subframe_of (op_gst y))).

Lemma earlier_call H a x r p y q : in_subframe_order H -> H = a ++ x :: r -> H = p ++ y :: q -> call_time y < call_time x ->
  exists q', a = p ++ y :: q'.
Proof.
  intros Hord Ea Ep Hlt. rewrite Ea in Ep. apply app_eq_app in Ep. destruct Ep as (l & [(E1 & E2)|(E1 & E2)]).
  - destruct l as [|z l]; [rewrite app_nil_r in E1; exfalso; cbn [app] in E2; assert (y = x) by congruence; subst y; lia|].
    exists l. cbn [app] in E2. assert (z = y) by congruence. now subst z.
  - exfalso. assert (Hin : In y (x :: r)) by (rewrite E2; apply in_or_app; right; now left).
    assert (E : H = (a ++ [x]) ++ r) by (rewrite Ea, <- app_assoc; reflexivity). rewrite E in Hord.
    destruct Hin as [->|Hin]; [lia|].
    pose proof (proj2 (in_subframe_order_app _ _ Hord) x y ltac:(apply in_or_app; right; now left) Hin) as Hle. unfold later in Hle. lia.
Qed.

Lemma filter_split {A} (f g : A -> bool) l :
  (length (filter f l) <= length (filter g l) + length (filter (fun x => f x && negb (g x)) l))%nat.
Proof. induction l as [|x l IH]; cbn [filter]; [lia|]. destruct (f x), (g x); cbn [andb negb length]; lia. Qed.

Lemma no_words_no_data k svn : icd_data k (words_of svn []) = None.
Proof. destruct k; reflexivity. Qed.

Section Crypto.
Context {C : crypto} {B : build} {S : storage}.
Hypothesis HC : crypto_ok C.
Hypothesis HS : storage_ok S.
Variables (pk : public_key) (t : transmission).
Hypothesis Ht : transmission_ok pk t.
Variables (root : option (list Z)) (user : option public_key) (slow : bool).
Notation new := (osnma_new root user slow).

(** ** The current row *)

(** A word that repeats the data leaves the data and its authentication bits. *)
Lemma row0_authbits h o o' word s g b k svn bits e : room_for (map op_svn (h ++ [FeedInav word s g b])) -> Forall op_ok (h ++ [FeedInav word s g b]) ->
  run new h = Ok o -> feed_inav o word s g b = Ok o' -> repeats k svn bits [mkNWord word s g b] ->
  stored k (o_nav o) 0 svn e -> data_of k e = bits ->
  exists e', stored k (o_nav o') 0 svn e' /\ data_of k e' = bits /\ e_authbits e' = e_authbits e.
Proof.
  intros Hroom Hokx Hr Hs Hrep He Hb. pose proof Hokx as Hok. apply Forall_app in Hok. destruct Hok as (Hok & Hx).
  apply Forall_cons_iff in Hx. destruct Hx as (Hx & _).
  assert (Hd : (0 < nav_depth)%nat) by apply (nv_sizes HS).
  assert (Hr' : run new (h ++ [FeedInav word s g b]) = Ok o').
  { rewrite run_app, Hr. unfold run. cbn [bind fold_outcome step]. now rewrite Hs. }
  destruct (Z.eq_dec svn s) as [->|Hne].
  - destruct (own_word HC HS root user slow h o o' word s g b k Hok Hr Hx Hs) as (e' & He' & F1 & F2 & _).
    destruct (F2 e He) as (F3 & F4 & _). exists e'. split; [exact He'|].
    assert (Ed : data_of k e' = data_of k e); [|split; [congruence|now apply F4]].
    apply same_fields; [eapply (stored_entry_ok HS HC root user slow h o k 0 s e Hok Hr Hd He)|eapply (stored_entry_ok HS HC root user slow _ _ k 0 s e' Hokx Hr' Hd He')|].
    intros i f Hf. destruct (carries k f (mkNWord word s g b)) eqn:Ec; [|now apply (F3 i f)].
    rewrite (F1 i f Hf Ec), Hb. apply (Hrep _ i f); auto. now left.
  - destruct (other_word_room HC HS root user slow h o o' word s g b k svn e Hok Hr Hx Hs Hne He (room_words _ Hroom)) as (e1 & Hco & He1).
    destruct (carried_cases _ _ _ _ Hco) as (D1 & D2 & _). exists e1. split; [exact He1|]. split; [rewrite <- Hb; unfold data_of; now rewrite D1|exact D2].
Qed.

(** ** The tags whose key is known *)

Definition knownb (o : osnma) (c : sent_tag) : bool :=
  match current_key (o_keys o) with Some K => key_time c <=? time_of (k_gst K) | None => false end.

Lemma known_with o K c : chain_key t K -> o_keys o = with_key t K -> knownb o c = true <-> key_time c <= time_of (k_gst K).
Proof. intros HK E. unfold knownb. rewrite E, with_key_current by apply HK. lia. Qed.

(** The calls [H], a point in them, and the tags. *)
Variables (H : list op) (k : nav_kind) (svn : Z) (bits : list bool) (L : list sent_tag).
Hypothesis Hroom : room_for (map op_svn H).
Hypothesis Hok : Forall op_ok H.
Hypothesis Hord : in_subframe_order H.
Hypothesis Hears : hears root user pk t H.
Hypothesis Hgap : no_long_gap t (kroot_received_then root user pk t) H.
Hypothesis Hsvn : 1 <= svn <= 36.
Hypothesis Hplaces : NoDup (map place L).
Hypothesis HL : forall c, In c L -> tag_received root user pk slow t H k svn bits c /\
  st_delay c < 30 * Z.of_nat mack_depth /\ st_delay c + 30 < 30 * Z.of_nat nav_depth.

Lemma delays c : In c L -> st_delay c = 30 \/ st_delay c = 330.
Proof.
  intros Hc. destruct (HL c Hc) as ((gn & adkd & cop & tag & hk1 & mk1 & hk2 & mk2 & g & _ & Had & _) & _).
  destruct Had as [(_ & _ & ?)|[(_ & _ & ?)|(_ & _ & ?)]]; auto.
Qed.

(** The key of a tag is known after the subframe that discloses it. *)
Lemma known_after p x q hk mk g o c : H = (p ++ [x]) ++ q -> forall q1 q2, q = q1 ++ q2 ->
  completes p x hk mk g -> kroot_received_then root user pk t (p ++ [x]) -> time_of g = key_time c ->
  run new ((p ++ [x]) ++ q1) = Ok o -> knownb o c = true.
Proof.
  intros E q1 q2 Eq Hc Hrec Eg Hr. rewrite E in Hok, Hears, Hgap. rewrite Eq, app_assoc in Hok, Hears, Hgap.
  pose proof (proj1 (proj1 (Forall_app _ _ _) Hok)) as Hok1. pose proof (hears_app pk t root user _ _ Hears) as Hh1.
  pose proof (no_long_gap_app pk t root user _ _ (no_long_gap_app pk t root user _ _ Hgap)) as Hg0.
  destruct (key_follows HC HS pk t Ht root user slow _ p x hk mk g (Nat.lt_succ_diag_r _)
    (proj1 (proj1 (Forall_app _ _ _) Hok1)) (hears_app pk t root user _ _ Hh1) Hg0 Hc Hrec) as (o1 & K & Hr1 & HK & Hle).
  assert (Hq : run o1 q1 = Ok o) by (rewrite run_app, Hr1 in Hr; exact Hr).
  destruct (key_kept HC HS pk t Ht root user slow q1 (p ++ [x]) o1 o K Hok1 Hh1 Hr1 Hq HK) as (K' & HK' & Hle').
  destruct (honest_run HC HS pk t Ht root user slow _ Hok1 Hh1) as (o2 & Hr2 & Hks). assert (o2 = o) by congruence. subst o2.
  destruct Hks as (_ & _ & [(E0 & _)|(K0 & E0 & HK0 & _)]); [rewrite E0 in HK'; discriminate HK'|].
  assert (K0 = K') by (rewrite E0 in HK'; unfold with_key in HK'; congruence). subst K0.
  apply (known_with o K' c HK0 HK'). lia.
Qed.

Lemma known_before a x r o c : H = a ++ x :: r -> In c L -> run new a = Ok o -> key_time c < call_time x -> knownb o c = true.
Proof.
  intros E Hc Hr Hlt. destruct (HL c Hc) as ((gn & adkd & cop & tag & hk1 & mk1 & hk2 & mk2 & g & _ & _ & _ & _ & _ & _ & _ & _ & _ & Eg & (p & y & q & Ep & Hcy & Hrec)) & _).
  assert (Hg : g = subframe_of (op_gst y)).
  { destruct Hcy as (d & s & gk' & -> & _ & Hx). unfold expected_subframe in Hx.
    destruct (_ && _); [|discriminate]. cbn [w_gst op_gst] in *. congruence. }
  destruct (earlier_call H a x r p y q Hord E Ep) as (q' & Ea); [rewrite <- Hg; lia|].
  apply (known_after p y (q' ++ x :: r) hk2 mk2 g o c) with (q1 := q') (q2 := x :: r); auto.
  - rewrite E, Ea, <- !app_assoc. reflexivity.
  - rewrite <- app_assoc. cbn [app]. now rewrite <- Ea.
Qed.

(** What the receiver has of a tag when its key arrives. *)
Lemma tag_ready a x r o c : H = a ++ x :: r -> In c L -> run new a = Ok o -> key_time c = call_time x ->
  exists gn adkd cop tag mk1 s, gst_ok gn /\ gst_ok (st_subframe c) /\ time_of (st_subframe c) = time_of gn + 30 /\
    (exists m, (1 <= m <= tr_length t)%nat /\ time_of (st_subframe c) = tr_start t + 30 * Z.of_nat m) /\
    adkd_means adkd k (st_delay c) /\ (slow = true -> adkd = 12) /\ 0 < cop < 16 /\
    has_data (o_nav o) k svn gn bits 0 0 /\ (length bits <= 550)%nat /\ 1 <= st_prna c <= 36 /\ length mk1 = 60%nat /\
    mack_get (o_mack o) (st_prna c) (st_subframe c) = Ok (Some (mk1, s)) /\ (s = NmaTest \/ s = NmaOperational) /\
    mack_valid (tr_chain t) (tr_key t (time_of (st_subframe c) + 30)) (st_prna c) (time_of (st_subframe c)) mk1
               (8 * ch_key_bytes (tr_chain t)) (ch_tag_bits (tr_chain t)) /\
    tag_at (tr_chain t) (tr_key t (key_time c)) (st_prna c) (time_of (st_subframe c)) s mk1 svn adkd cop bits tag (st_index c).
Proof.
  intros E Hc Hr Ekt. pose proof (delays c Hc) as Hdel.
  destruct (HL c Hc) as ((gn & adkd & cop & tag & hk1 & mk1 & hk2 & mk2 & g & Egm & Had & Hsl & Hcop & (hA & hN & hR & EN & HN & HR & Hdata)
    & (p & data & gk & q & Ep & Hc1) & Hst & Hv & Hta & Eg & _) & Hmd & Hnd).
  assert (Ea : H = (a ++ [x]) ++ r) by (rewrite E, <- app_assoc; reflexivity).
  pose proof Hok as Hok'. rewrite E in Hok'. apply Forall_app in Hok'. destruct Hok' as (Hoka & _).
  pose proof Hord as Hord'. rewrite Ea in Hord'. apply order_prefix in Hord'. pose proof (order_prefix _ _ Hord') as Horda.
  pose proof Hears as Hh'. rewrite E in Hh'. apply hears_app in Hh'.
  pose proof Hroom as Hroom'. rewrite E in Hroom'. apply room_calls in Hroom'.
  assert (Hmax : forall y, In y a -> call_time y <= call_time x) by (intros y Hy; apply (last_time a x Hord'); apply in_or_app; now left).
  unfold key_time in Ekt.
  (* the data *)
  assert (HN0 : exists y0, In y0 hN).
  { destruct hN as [|y0 hN]; [|exists y0; now left]. cbn [inav_words flat_map] in Hdata. rewrite no_words_no_data in Hdata. discriminate Hdata. }
  destruct HN0 as (y0 & Hy0).
  assert (Hsplit : exists b, a = hA ++ hN ++ b /\ forall y, In y b -> time_of gn < call_time y).
  { rewrite E in EN. rewrite app_assoc in EN. apply app_eq_app in EN. destruct EN as (l & [(E1 & E2)|(E1 & E2)]).
    - exists l. split; [rewrite app_assoc; exact E1|]. intros y Hy. apply HR. rewrite E2. apply in_or_app. now left.
    - destruct l as [|z l].
      + exists []. rewrite app_nil_r in E1. rewrite app_nil_r. split; [congruence|]. intros y [].
      + exfalso. cbn [app] in E2. assert (z = x) by congruence. subst z.
        assert (Hx : In x (hA ++ hN)) by (rewrite E1; apply in_or_app; right; now left).
        apply in_app_or in Hx. destruct Hx as [Hx|Hx]; [|rewrite (HN x Hx) in Ekt; lia].
        assert (EH : H = hA ++ hN ++ hR) by (rewrite app_assoc, E1, E, <- app_assoc; cbn [app]; f_equal; congruence).
        rewrite EH in Hord. pose proof (proj2 (in_subframe_order_app _ _ Hord) x y0 Hx ltac:(apply in_or_app; now left)) as Hle. unfold later in Hle.
        rewrite (HN y0 Hy0) in Hle. lia. }
  destruct Hsplit as (b & Eab & Hb).
  rewrite Eab, app_assoc in Hoka, Horda, Hh', Hroom', Hmax.
  pose proof (proj1 (proj1 (Forall_app _ _ _) Hoka)) as Hok1. pose proof (hears_app pk t root user _ _ Hh') as Hh1.
  destruct (honest_run HC HS pk t Ht root user slow _ (proj1 (proj1 (Forall_app _ _ _) Hok1)) (hears_app pk t root user _ _ Hh1)) as (oA & HrA & _).
  destruct (honest_run HC HS pk t Ht root user slow _ Hok1 Hh1) as (o1 & Hr1 & _).
  assert (HrN : run oA hN = Ok o1) by (rewrite run_app, HrA in Hr1; exact Hr1).
  assert (Hnw : forall w, In w (inav_words hN) -> subframe_of (nw_gst w) = gn).
  { intros w Hw. unfold inav_words in Hw. apply in_flat_map in Hw. destruct Hw as (y & Hy & Hw).
    destruct y as [word s gy b0|]; [|contradiction]. destruct Hw as [<-|[]]. exact (HN _ Hy). }
  destruct (subframe_data HC HS root user slow hA hN oA o1 k svn gn bits Hok1 HrA HrN Hnw (or_introl (room_words _ (room_calls _ _ Hroom'))) Hdata)
    as (e & He & Hbe & Hgn & Hage & _).
  assert (Hd : (0 < nav_depth)%nat) by apply (nv_sizes HS).
  assert (Hk1 : kept k svn bits gn (o_nav o1) 0 e) by (split; [exact Hd|]; split; [exact Hgn|]; split; [exact He|]; auto).
  destruct (kept_run HC HS pk t Ht root user slow b (hA ++ hN) o1 k svn bits gn 0 e Hroom' Hoka Horda Hh' Hr1 Hk1) as (o2 & j & e2 & Hr2 & (Hj & Hg2 & Hst2 & Hb2 & Ho2) & _).
  { intros y Hy. split; [now apply Hb|]. specialize (Hmax y ltac:(apply in_or_app; now right)). lia. }
  assert (o2 = o) by (rewrite Eab, app_assoc in Hr; congruence). subst o2.
  destruct (stored_has_data HS HC root user slow _ o k svn gn j e2 Hoka Horda Hr2 Hj Hg2 Hst2) as (Hhas & Hbl & Hab & _).
  destruct (stored_gst_ok HS HC root user slow _ o j gn Hoka Hr2 Hj Hg2) as (Hgnok & _).
  (* the tag *)
  assert (Hgm : st_subframe c = subframe_of gk).
  { destruct Hc1 as (d & s & gk' & Ex & _ & Hx). unfold expected_subframe in Hx.
    destruct (_ && _); [|discriminate]. cbn [w_gst] in *. congruence. }
  destruct (earlier_call H a x r p (FeedOsnma data (st_prna c) gk) q Hord E Ep) as (q' & Ea'); [cbn [op_gst]; rewrite <- Hgm; lia|].
  destruct (tag_subframe HC HS pk t Ht root user slow H p data (st_prna c) gk q hk1 mk1 (st_subframe c) Hok Hears Ep Hc1) as (Hm & Hgmok & Hl1 & Hprna & Est).
  assert (Hget : mack_get (o_mack o) (st_prna c) (st_subframe c) = Ok (Some (mk1, status_of hk1))).
  { rewrite Est. rewrite <- app_assoc, <- Eab in Hoka, Horda, Hroom', Hr2, Hmax.
    apply (mack_held HS HC root user slow a o p data (st_prna c) gk q' hk1 mk1 (st_subframe c) Hoka Horda Hr2 Hroom' Ea' Hc1).
    intros y Hy. specialize (Hmax y Hy). lia. }
  exists gn, adkd, cop, tag, mk1, (status_of hk1). split; [exact Hgnok|]. split; [exact Hgmok|]. split; [exact Egm|]. split; [exact Hm|].
  split; [exact Had|]. split; [exact Hsl|]. split; [exact Hcop|]. split.
  { rewrite <- Hb2, <- Ho2. destruct Hhas as (e3 & X1 & X2 & X3 & X4). exists e3. split; [exact X1|]. split; [exact X2|]. split; [exact X3|lia]. }
  split; [rewrite <- Hb2; exact Hbl|]. auto 10.
Qed.

(** A call that brings the key up adds all the tags of the key. *)
Lemma step_gains a x r o o' : H = a ++ x :: r -> (forall word s g b, x <> FeedInav word s g b) -> run new a = Ok o -> step o x = Ok o' ->
  gains k svn bits (Z.of_nat (ch_tag_bits (tr_chain t)) * Z.of_nat (length (filter (fun c => knownb o' c && negb (knownb o c)) L)))
    (o_nav o) (o_nav o').
Proof.
  intros E Hx Hr Hs.
  assert (Hgrow : nav_grown (o_nav o) (o_nav o')).
  { destruct x as [word s g b|data s g]; [now elim (Hx word s g b)|]. cbn [step] in Hs. now apply feed_osnma_grown in Hs. }
  set (D := filter (fun c => knownb o' c && negb (knownb o c)) L).
  assert (HD : forall c, In c D -> In c L /\ knownb o' c = true /\ knownb o c = false).
  { intros c Hc. apply filter_In in Hc. destruct Hc as (Hc & Hb). apply andb_true_iff in Hb. destruct Hb as (Hb1 & Hb2).
    split; [exact Hc|]. split; [exact Hb1|]. now apply negb_true_iff in Hb2. }
  assert (HDn : NoDup (map place D)).
  { unfold D. clear - Hplaces. induction L as [|c l IH]; cbn [filter]; [constructor|]. cbn [map] in Hplaces.
    apply NoDup_cons_iff in Hplaces. destruct Hplaces as (Hn & Hp). destruct (_ && _); [|auto]. cbn [map]. constructor; [|auto].
    intros Hin. apply Hn. apply in_map_iff in Hin. destruct Hin as (c' & Ec & Hc'). apply filter_In in Hc'. apply in_map_iff. exists c'. tauto. }
  assert (Hcase : D = [] \/ exists c0, In c0 D) by (destruct D as [|c0 D0]; [now left|right; exists c0; now left]).
  destruct Hcase as [ED|(c0 & Hc0)]; [rewrite ED; cbn [length]; rewrite Z.mul_0_r; now apply gains_grown|].
  assert (Ea : H = (a ++ [x]) ++ r) by (rewrite E, <- app_assoc; reflexivity).
  pose proof Hok as Hokx. rewrite Ea in Hokx. apply Forall_app in Hokx. destruct Hokx as (Hokx & _).
  pose proof (proj1 (proj1 (Forall_app _ _ _) Hokx)) as Hoka.
  pose proof Hord as Hordx. rewrite Ea in Hordx. apply order_prefix in Hordx.
  pose proof Hears as Hhx. rewrite Ea in Hhx. apply hears_app in Hhx.
  destruct (honest_run HC HS pk t Ht root user slow _ Hoka (hears_app pk t root user _ _ Hhx)) as (o1 & Hr1 & Hks1).
  assert (o1 = o) by congruence. subst o1.
  destruct (honest_step HC HS pk t Ht root user slow _ o x Hokx Hhx Hr Hks1) as (o2 & Hs2 & Hks2 & _ & Hch1 & Hch2 & Hcomp).
  assert (o2 = o') by congruence. subst o2.
  destruct (HD c0 Hc0) as (HcL & Hkn' & Hkn).
  assert (HK' : exists K', o_keys o' = with_key t K' /\ chain_key t K').
  { destruct Hks2 as (_ & _ & [(E0 & _)|(K' & E0 & HKc' & _)]); [|now exists K'].
    unfold knownb in Hkn'. rewrite E0 in Hkn'. discriminate Hkn'. }
  destruct HK' as (K' & HK' & HKc').
  assert (Hc : exists hk mk g', completes a x hk mk g').
  { destruct Hks1 as (_ & _ & [(E0 & _)|(K & E0 & HKc & _)]).
    - apply Hch2; [exact E0|]. rewrite HK'. discriminate.
    - apply (Hch1 K K'); [exact E0|exact HK'|]. apply (known_with o' K' c0 HKc' HK') in Hkn'.
      destruct (Z.le_gt_cases (key_time c0) (time_of (k_gst K))) as [Hle|Hgt]; [|lia].
      apply (known_with o K c0 HKc E0) in Hle. congruence. }
  destruct Hc as (hk & mk & g & Hc).
  assert (Hg' : g = subframe_of (op_gst x)).
  { destruct Hc as (data & s & gk & -> & _ & Hxx). unfold expected_subframe in Hxx.
    destruct (_ && _); [|discriminate]. cbn [w_gst op_gst] in *. congruence. }
  assert (Hlate : forall c, In c D -> call_time x <= key_time c).
  { intros c Hcc. destruct (HD c Hcc) as (Hcl & _ & Hun). destruct (Z.le_gt_cases (call_time x) (key_time c)) as [|Hlt]; [assumption|].
    rewrite (known_before a x r o c E Hcl Hr Hlt) in Hun. discriminate Hun. }
  destruct (Hcomp hk mk g Hc) as (ks & Hkt & [(_ & E0)|(K & K1 & Eks & HKc & E1 & Hor & R1 & R2)]).
  { rewrite E0 in HK'. discriminate HK'. }
  assert (K1 = K') by (rewrite E1 in HK'; unfold with_key in HK'; congruence). subst K1.
  assert (Hlt : time_of (k_gst K) < time_of g <= time_of (k_gst K) + 90000).
  { destruct (within_gap (time_of (k_gst K)) (time_of g)) as [|Hge]; [assumption|]. exfalso. rewrite (R2 Hge) in *.
    apply (known_with o' K c0 HKc HK') in Hkn'. destruct Hor as [Hor|(_ & Hor & _)].
    - apply (known_with o K c0 HKc Hor) in Hkn'. congruence.
    - specialize (Hlate c0 Hc0). rewrite <- Hg' in Hlate. lia. }
  destruct (R1 Hlt) as (Hdis & EK').
  assert (Htime : forall c, In c D -> key_time c = time_of g).
  { intros c Hcc. specialize (Hlate c Hcc). rewrite <- Hg' in Hlate. destruct (HD c Hcc) as (_ & Hk & _).
    apply (known_with o' K' c HKc' HK') in Hk. rewrite EK' in Hk. lia. }
  assert (Hready : forall c, In c D -> exists gn adkd cop tag mk1 s, gst_ok gn /\ gst_ok (st_subframe c) /\ time_of (st_subframe c) = time_of gn + 30 /\
    (exists m, (1 <= m <= tr_length t)%nat /\ time_of (st_subframe c) = tr_start t + 30 * Z.of_nat m) /\
    adkd_means adkd k (st_delay c) /\ (slow = true -> adkd = 12) /\ 0 < cop < 16 /\
    has_data (o_nav o) k svn gn bits 0 0 /\ (length bits <= 550)%nat /\ 1 <= st_prna c <= 36 /\ length mk1 = 60%nat /\
    mack_get (o_mack o) (st_prna c) (st_subframe c) = Ok (Some (mk1, s)) /\ (s = NmaTest \/ s = NmaOperational) /\
    mack_valid (tr_chain t) (tr_key t (time_of (st_subframe c) + 30)) (st_prna c) (time_of (st_subframe c)) mk1
               (8 * ch_key_bytes (tr_chain t)) (ch_tag_bits (tr_chain t)) /\
    tag_at (tr_chain t) (tr_key t (key_time c)) (st_prna c) (time_of (st_subframe c)) s mk1 svn adkd cop bits tag (st_index c)).
  { intros c Hcc. apply (tag_ready a x r o c E (proj1 (HD c Hcc)) Hr). rewrite <- Hg'. now apply Htime. }
  assert (Hbl : (length bits <= 550)%nat).
  { destruct (Hready c0 Hc0) as (? & ? & ? & ? & ? & ? & _ & _ & _ & _ & _ & _ & _ & _ & Hbl & _). exact Hbl. }
  destruct (completes_key HS HC root user slow a o x o' hk mk g ks Hokx Hordx Hr Hs Hc Hkt)
    as (Hg & Hgs & Hlen & o2 & X1 & X2 & X3 & X4 & X5 & X6 & X7).
  assert (Hcur : current_key (o_keys o2) = Some K) by (rewrite X1, Eks; apply with_key_current; apply HKc).
  pose proof (X5 K (current_key_in _ _ Hcur)) as HKok.
  destruct (key_accepted HC o2 mk g o' K (tr_tkey t g) Hlen Hg Hgs HKok Hcur Hdis X7) as (k' & ks' & P1 & P2 & P3 & P4 & P5 & P6).
  pose proof (hears_last pk t root user _ _ _ _ _ Hhx Hc) as (_ & (n & Hn & En) & _).
  assert (Hkb : key_bytes k' = tr_key t (time_of g)) by (rewrite P2; apply (tr_tkey_bytes pk t Ht g n Hn En)).
  cbn [tr_tkey k_chain] in P3.
  set (pos := fun c => (st_prna c, st_index c)).
  set (Lf := map pos (filter (fun c => st_delay c =? 30) D)). set (Ls := map pos (filter (fun c => st_delay c =? 330) D)).
  assert (Hlen2 : (length D = length Lf + length Ls)%nat).
  { unfold Lf, Ls. rewrite !map_length. assert (Hdl : forall c, In c D -> st_delay c = 30 \/ st_delay c = 330) by (intros c Hcc; apply delays; apply (HD c Hcc)).
    clear - Hdl. induction D as [|c l IH]; [reflexivity|]. cbn [filter length]. specialize (IH (fun c0 Hc0 => Hdl c0 (or_intror Hc0))).
    destruct (Hdl c (or_introl eq_refl)) as [-> | ->]; cbn [Z.eqb Pos.eqb length]; lia. }
  assert (Hnodup : forall d, NoDup (map pos (filter (fun c => st_delay c =? d) D))).
  { intros d. assert (Hinj : forall c c', In c D -> In c' D -> st_delay c = d -> st_delay c' = d -> pos c = pos c' -> place c = place c').
    { intros c c' I1 I2 D1 D2 Ep. unfold pos in Ep. apply pair_equal_spec in Ep. destruct Ep as (Ep1 & Ep2). unfold place. rewrite Ep1, Ep2.
      assert (st_subframe c = st_subframe c') as ->; [|reflexivity].
      destruct (Hready c I1) as (? & ? & ? & ? & ? & ? & _ & G1 & _). destruct (Hready c' I2) as (? & ? & ? & ? & ? & ? & _ & G2 & _).
      apply time_of_inj; auto. pose proof (Htime c I1). pose proof (Htime c' I2). unfold key_time in *. lia. }
    clear - HDn Hinj. induction D as [|c l IH]; cbn [filter]; [constructor|]. cbn [map] in HDn. apply NoDup_cons_iff in HDn. destruct HDn as (Hn & Hp).
    specialize (IH Hp (fun c1 c2 I1 I2 => Hinj c1 c2 (or_intror I1) (or_intror I2))). destruct (st_delay c =? d) eqn:Ed; [|exact IH].
    cbn [map]. constructor; [|exact IH]. intros Hin. apply in_map_iff in Hin. destruct Hin as (c' & Ec & Hc'). apply filter_In in Hc'. destruct Hc' as (Hc' & Ed').
    apply Hn. rewrite (Hinj c c'); [now apply in_map|now left|now right|lia|lia|congruence]. }
  assert (Hmk : exists mkey, Ls <> [] -> key_ok mkey /\ k_chain mkey = tr_chain t /\ key_bytes mkey = tr_key t (time_of g - 300) /\
    exists g10, add_seconds (k_gst k') (-300) = Ok g10 /\ slowmac_key_of (o_keys (set_keys ks' o2)) g10 = Ok (Some mkey)).
  { destruct Ls as [|a0 Ls0] eqn:EL; [exists k'; intros Hne; now elim Hne|]. 
    assert (Hex : exists c, In c D /\ st_delay c = 330).
    { assert (Hin : In a0 Ls) by (rewrite EL; now left). unfold Ls in Hin. apply in_map_iff in Hin. destruct Hin as (c & _ & Hcc). apply filter_In in Hcc.
      exists c. split; [tauto|]. lia. }
    destruct Hex as (c & Hcc & Ed). destruct (Hready c Hcc) as (gn & ? & ? & ? & ? & ? & Hgnok & Hgm & Egn & (m & Hm & Em) & _).
    pose proof (Htime c Hcc) as Etc. unfold key_time in Etc. rewrite Ed in Etc.
    assert (H10 : exists g10, add_seconds (k_gst k') (-300) = Ok g10).
    { unfold process_tags in P6. bind_inv P6. bind_inv P6. bind_inv P6. eauto. }
    destruct H10 as (g10 & H10).
    pose proof (seconds_before_n (k_gst k') g10 300 (ko_gst _ P1) ltac:(lia) H10) as (T1 & _ & T2).
    pose proof (gst_time_bound g10 T1) as Tb. pose proof (gst_time_bound _ Hgm) as Tb2. pose proof (gst_time_bound _ Hg) as Tb3.
    pose proof (gst_time_bound _ Hgnok) as Tb4.
    assert (T3 : time_of g10 = time_of g - 300) by (rewrite P4 in T2; lia).
    assert (Hsub10 : is_subframe g10 = true).
    { apply is_subframe_start. apply is_subframe_start in Hgs. destruct Hgs as (ng & Hng). exists (ng - 10). lia. }
    rewrite X1 in X4, P5, Hcur.
    assert (Hch : k_chain k' = k_chain K) by (rewrite P3; symmetry; apply HKc).
    pose proof (store_key_current _ _ _ _ X4 Hcur Hch P5) as Hcur'.
    destruct (store_key_spec _ _ _ X4 P5) as (_ & _ & Hcif & _).
    assert (Hpast : key_past_chain ks' g10 = Some k').
    { unfold key_past_chain. unfold current_key in Hcur' |- *. rewrite Hcif, Eks in Hcur' |- *. cbn [with_key ks_cif cif_start cif_cid] in *. exact Hcur'. }
    assert (Hdiff : subframes_difference (k_gst k') g10 = 10).
    { pose proof (subframes_difference_exact (k_gst k') g10 (ko_gst _ P1) T1 (ko_sub _ P1) Hsub10). rewrite P4 in *. lia. }
    destruct (derive_spec HC 10 k' P1 ltac:(rewrite P4; lia)) as (mkey & Dk & Dok & Dch & Dt & Db).
    exists mkey. intros _. split; [exact Dok|]. split; [congruence|]. split.
    - rewrite P4, P3, Hkb in Db. pose proof (keys_lead_back pk t Ht (m + 1) 10 ltac:(lia)) as Hlb.
      replace (tr_start t + 30 * Z.of_nat (m + 1 + 10)) with (time_of g) in Hlb by lia.
      replace (time_of g - 300) with (tr_start t + 30 * Z.of_nat (m + 1)) by lia.
      exact (key_before_fun _ _ _ _ _ _ Db Hlb).
    - exists g10. split; [exact H10|]. cbn [set_keys o_keys]. unfold slowmac_key_of. rewrite Hpast, Hdiff. change (0 <=? 10) with true. cbn [bind].
      change (Z.to_nat 10) with 10%nat. rewrite Dk. reflexivity. }
  destruct Hmk as (mkey & Hmk).
  rewrite Hlen2, <- P3. rewrite <- X2. change (o_nav o2) with (o_nav (set_keys ks' o2)).
  assert (Hdue : forall c, In c D -> forall my, k_chain my = tr_chain t -> key_bytes my = tr_key t (time_of (st_subframe c) + 30) ->
    tag_due (set_keys ks' o2) k' k svn bits (st_delay c) my (pos c)).
  { intros c Hcc my M1 M2. destruct (Hready c Hcc) as (gn & adkd & cop & tag & mk1 & s & Y1 & Y2 & Y3 & Y4 & Y5 & Y6 & Y7 & Y8 & _ & Y9 & Y10 & Y11 & Y12 & Y13 & Y14).
    pose proof (Htime c Hcc) as Etc. pose proof (delays c (proj1 (HD c Hcc))) as Hdl. destruct (HL c (proj1 (HD c Hcc))) as (_ & Hmd & _).
    exists (st_subframe c), gn, mk1, s. unfold pos. cbn [fst snd]. unfold key_time in Etc. split.
    { split; [exact Y2|]. rewrite P4. split; [exact Hg|]. replace (time_of (st_subframe c) + st_delay c - time_of g) with 0 by lia. reflexivity. }
    split.
    { split; [exact Y1|]. split; [exact Y2|]. replace (time_of gn + 30 - time_of (st_subframe c)) with 0 by lia. reflexivity. }
    cbn [set_keys o_nav o_mack]. split; [rewrite X2; exact Y8|]. split; [exact Y9|]. split; [exact Y10|]. split.
    { destruct Hdl as [Ed|Ed]; [apply (X6 _ _ 1%nat)|apply (X6 _ _ 11%nat)]; try exact Y11; lia. }
    split; [exact Y12|]. split; [rewrite M1, M2, P3; exact Y13|].
    exists adkd, cop, tag. split; [exact Y5|]. split; [exact Y7|]. rewrite P3, Hkb, <- Etc. exact Y14. }
  apply (process_tags_gains HC (set_keys ks' o2) k' o' k svn bits mkey Lf Ls P1 Hsvn Hbl (Hnodup 30) (Hnodup 330)); [| | | |exact P6].
  - intros Hne. cbn [set_keys o_slow]. rewrite X3. pose proof (run_inv HC HS root user slow a Hoka _ Hr) as (_ & Hri). rewrite (ri_slow _ _ _ _ _ Hri).
    destruct slow; [|reflexivity]. exfalso.
    assert (Hex : exists c, In c D /\ st_delay c = 30).
    { destruct Lf as [|a0 Lf0] eqn:EL; [now elim Hne|]. assert (Hin : In a0 Lf) by (rewrite EL; now left). unfold Lf in Hin.
      apply in_map_iff in Hin. destruct Hin as (c & _ & Hcc). apply filter_In in Hcc. exists c. split; [tauto|]. lia. }
    destruct Hex as (c & Hcc & Ed). destruct (Hready c Hcc) as (gn & adkd & cop & tag & mk1 & s & Y1 & Y2 & Y3 & Y4 & Y5 & Y6 & _).
    rewrite (Y6 eq_refl), Ed in Y5. destruct Y5 as [(? & _)|[(? & _)|(_ & _ & ?)]]; discriminate.
  - intros Hne. destruct (Hmk Hne) as (M1 & _ & _ & M2). split; [exact M1|exact M2].
  - intros b Hb. unfold Lf in Hb. apply in_map_iff in Hb. destruct Hb as (c & <- & Hcc). apply filter_In in Hcc. destruct Hcc as (Hcc & Ed).
    apply Z.eqb_eq in Ed. rewrite <- Ed. apply Hdue; [exact Hcc|exact P3|]. rewrite Hkb. f_equal. pose proof (Htime c Hcc). unfold key_time in *. lia.
  - intros b Hb. assert (Hne : Ls <> []) by (intros E0; rewrite E0 in Hb; destruct Hb). destruct (Hmk Hne) as (_ & M1 & M2 & _).
    unfold Ls in Hb. apply in_map_iff in Hb. destruct Hb as (c & <- & Hcc). apply filter_In in Hcc. destruct Hcc as (Hcc & Ed).
    apply Z.eqb_eq in Ed. rewrite <- Ed. apply Hdue; [exact Hcc|exact M1|]. rewrite M2. f_equal. pose proof (Htime c Hcc). unfold key_time in *. lia.
Qed.

(** Through the calls after the first subframe with the data. *)
Let T := Z.of_nat (ch_tag_bits (tr_chain t)).

Lemma sum_run h0 : forall q r o0 e0, H = (h0 ++ q) ++ r -> run new h0 = Ok o0 -> stored k (o_nav o0) 0 svn e0 -> data_of k e0 = bits ->
  (forall c, In c L -> knownb o0 c = false) -> repeats k svn bits (inav_words q) ->
  exists o e, run new (h0 ++ q) = Ok o /\ stored k (o_nav o) 0 svn e /\ data_of k e = bits /\
    Z.min 65535 (T * Z.of_nat (length (filter (knownb o) L))) <= e_authbits e.
Proof.
  intros q. induction q as [|x q IH] using rev_ind; intros r o0 e0 E Hr Hst Hb Hnone Hrep.
  - exists o0, e0. rewrite app_nil_r in *. split; [exact Hr|]. split; [exact Hst|]. split; [exact Hb|].
    assert (Ef : filter (knownb o0) L = []).
    { clear - Hnone. induction L as [|c l IHl]; [reflexivity|]. cbn [filter]. rewrite (Hnone c (or_introl eq_refl)). apply IHl. intros c' Hc'. apply Hnone. now right. }
    rewrite Ef. cbn [length]. rewrite Z.mul_0_r.
    assert (Hok0 : Forall op_ok h0) by (rewrite E in Hok; exact (proj1 (proj1 (Forall_app _ _ _) Hok))).
    pose proof (stored_entry_ok HS HC root user slow h0 o0 k 0 svn e0 Hok0 Hr (proj1 (proj2 (nv_sizes HS))) Hst) as [_ _ _ Hab _ _]. lia.
  - rewrite inav_words_app in Hrep. apply repeats_app in Hrep. destruct Hrep as (Hrep1 & Hrep2).
    assert (E' : H = (h0 ++ q) ++ x :: r) by (rewrite E, <- !app_assoc; reflexivity).
    assert (E2 : H = ((h0 ++ q) ++ [x]) ++ r) by (rewrite E, <- !app_assoc; reflexivity).
    destruct (IH (x :: r) o0 e0 E' Hr Hst Hb Hnone Hrep1) as (o & e & Hr1 & Hst1 & Hb1 & Ha1).
    pose proof Hok as Hok2. rewrite E2 in Hok2. apply Forall_app in Hok2. destruct Hok2 as (Hok2 & _).
    pose proof Hears as Hh2. rewrite E2 in Hh2. apply hears_app in Hh2.
    pose proof Hroom as Hroom2. rewrite E2 in Hroom2. apply room_calls in Hroom2.
    pose proof (proj1 (proj1 (Forall_app _ _ _) Hok2)) as Hok1.
    destruct (honest_run HC HS pk t Ht root user slow _ Hok1 (hears_app pk t root user _ _ Hh2)) as (o1 & Hr1' & Hks1).
    assert (o1 = o) by congruence. subst o1.
    destruct (honest_step HC HS pk t Ht root user slow _ o x Hok2 Hh2 Hr1 Hks1) as (o2 & Hs & _).
    assert (Hr2 : run new (h0 ++ q ++ [x]) = Ok o2).
    { rewrite app_assoc. now apply (run_step root user slow _ _ o). }
    pose proof (stored_entry_ok HS HC root user slow _ o k 0 svn e Hok1 Hr1 (proj1 (proj2 (nv_sizes HS))) Hst1) as [_ _ _ Hab _ _].
    exists o2. destruct x as [word s g b|data s g].
    + cbn [step] in Hs. destruct (row0_authbits _ o o2 word s g b k svn bits e Hroom2 Hok2 Hr1 Hs Hrep2 Hst1 Hb1) as (e2 & Hst2 & Hb2 & Ha2).
      exists e2. split; [exact Hr2|]. split; [exact Hst2|]. split; [exact Hb2|]. rewrite Ha2.
      assert (Ek : o_keys o2 = o_keys o) by (unfold feed_inav in Hs; bind_inv Hs; injection Hs as <-; reflexivity).
      assert (Ef : filter (knownb o2) L = filter (knownb o) L) by (apply filter_ext; intros c; unfold knownb; now rewrite Ek).
      rewrite Ef. exact Ha1.
    + pose proof (step_gains (h0 ++ q) (FeedOsnma data s g) r o o2 E' ltac:(discriminate) Hr1 Hs) as G. fold T in G.
      destruct (gains_stored _ _ _ _ _ _ _ _ G Hst1 Hb1 ltac:(lia)) as (e2 & Hst2 & Hb2 & Ha2).
      exists e2. split; [exact Hr2|]. split; [exact Hst2|]. split; [exact Hb2|].
      pose proof (filter_split (knownb o2) (knownb o) L) as Hf.
      assert (HT : 0 <= T) by (unfold T; lia). nia.
Qed.

(** The getter looks at the current row first. *)
Lemma row0_getter h o e : Forall op_ok h -> (forall w, In w (inav_words h) -> 1 <= g_wn (nw_gst w)) -> run new h = Ok o ->
  stored k (o_nav o) 0 svn e -> data_of k e = bits -> 40 <= e_authbits e ->
  exists d, getter k o svn = Ok (Some d) /\ nd_data d = bits.
Proof.
  intros Hokh Hwn Hr Hst Hb Ha. assert (Hd : (0 < nav_depth)%nat) by apply (nv_sizes HS).
  destruct (getter_total HC HS root user slow h o k svn Hokh Hwn Hr) as ([d|] & Hget).
  - exists d. split; [exact Hget|].
    destruct (getter_some HC HS root user slow h o k svn d Hokh Hr Hget) as (i & ei & gi & Hi & Hsti & Hai & Hdd & _ & Hfirst & _).
    destruct i as [|i]; [|specialize (Hfirst 0%nat e ltac:(lia) Hst); lia].
    rewrite Hdd, <- Hb. pose proof (reach_has HC HS root user slow _ _ Hokh Hr) as Hn.
    apply (nav_has_stored HS _ _ _ _ _ Hn Hd) in Hsti, Hst. congruence.
  - pose proof (getter_none HC HS root user slow h o k svn Hokh Hr Hget 0%nat e Hd Hst). lia.
Qed.

Theorem tags_add_up hA hN hR gn : H = hA ++ hN ++ hR ->
  (forall w, In w (inav_words H) -> 1 <= g_wn (nw_gst w)) ->
  (forall y, In y hN -> subframe_of (op_gst y) = gn) -> icd_data k (words_of svn (inav_words hN)) = Some bits ->
  repeats k svn bits (inav_words hR) -> (forall c, In c L -> time_of gn < time_of (st_subframe c)) ->
  (40 <= ch_tag_bits (tr_chain t) * length L)%nat ->
  exists o d, run new H = Ok o /\ getter k o svn = Ok (Some d) /\ nd_data d = bits.
Proof.
  intros E Hwn HN Hdata Hrep Hafter H40.
  rewrite app_assoc in E.
  pose proof Hok as Hok1. rewrite E in Hok1. apply Forall_app in Hok1. destruct Hok1 as (Hok1 & _).
  pose proof Hears as Hh1. rewrite E in Hh1. apply hears_app in Hh1.
  pose proof Hroom as Hroom1. rewrite E in Hroom1. apply room_calls in Hroom1.
  pose proof Hord as Hord1. rewrite E in Hord1. apply order_prefix in Hord1.
  destruct (honest_run HC HS pk t Ht root user slow _ (proj1 (proj1 (Forall_app _ _ _) Hok1)) (hears_app pk t root user _ _ Hh1)) as (oA & HrA & _).
  destruct (honest_run HC HS pk t Ht root user slow _ Hok1 Hh1) as (o1 & Hr1 & Hks1).
  assert (HrN : run oA hN = Ok o1) by (rewrite run_app, HrA in Hr1; exact Hr1).
  assert (Hnw : forall w, In w (inav_words hN) -> subframe_of (nw_gst w) = gn).
  { intros w Hw. unfold inav_words in Hw. apply in_flat_map in Hw. destruct Hw as (y & Hy & Hw).
    destruct y as [word s gy b0|]; [|contradiction]. destruct Hw as [<-|[]]. exact (HN _ Hy). }
  destruct (subframe_data HC HS root user slow hA hN oA o1 k svn gn bits Hok1 HrA HrN Hnw (or_introl (room_words _ Hroom1)) Hdata)
    as (e & He & Hbe & Hgn & Hage & _).
  assert (HN0 : exists y0, In y0 hN).
  { destruct hN as [|y0 hN']; [|exists y0; now left]. cbn [inav_words flat_map] in Hdata. rewrite no_words_no_data in Hdata. discriminate Hdata. }
  destruct HN0 as (y0 & Hy0).
  assert (Hnone : forall c, In c L -> knownb o1 c = false).
  { intros c Hc. apply not_true_is_false. intros Hk. destruct Hks1 as (Q1 & Q2 & Q3).
    destruct Q3 as [(E0 & _)|(K & E0 & HKc & Q4)]; [unfold knownb in Hk; rewrite E0 in Hk; discriminate Hk|].
    apply (known_with o1 K c HKc E0) in Hk.
    assert (Hb : time_of (k_gst K) <= time_of gn).
    { apply (key_time_bound pk t root user (hA ++ hN) o1 K (time_of gn)); [|exact E0|].
      - split; [exact Q1|]. split; [exact Q2|]. right. exists K. auto.
      - intros y Hy. apply in_app_or in Hy. destruct Hy as [Hy|Hy]; [|rewrite (HN y Hy); lia].
        pose proof (proj2 (in_subframe_order_app _ _ Hord1) y y0 Hy Hy0) as Hle. unfold later in Hle. rewrite (HN y0 Hy0) in Hle. exact Hle. }
    specialize (Hafter c Hc). pose proof (delays c Hc). unfold key_time in Hk. lia. }
  destruct (sum_run (hA ++ hN) hR [] o1 e) as (o & e' & Hr & Hst & Hb & Ha); auto; [now rewrite app_nil_r|].
  rewrite <- E in Hr.
  assert (Hall : filter (knownb o) L = L).
  { assert (Hk : forall c, In c L -> knownb o c = true).
    { intros c Hc. destruct (HL c Hc) as ((gn' & adkd & cop & tag & hk1 & mk1 & hk2 & mk2 & g & _ & _ & _ & _ & _ & _ & _ & _ & _ & Eg & (p & y & q & Ep & Hcy & Hrec)) & _).
      assert (Ep' : H = (p ++ [y]) ++ q) by (rewrite Ep, <- app_assoc; reflexivity).
      apply (known_after p y q hk2 mk2 g o c Ep' q [] (eq_sym (app_nil_r q)) Hcy Hrec Eg). now rewrite <- Ep'. }
    clear - Hk. induction L as [|c l IH]; [reflexivity|]. cbn [filter]. rewrite (Hk c (or_introl eq_refl)). f_equal. apply IH. intros c' Hc'. apply Hk. now right. }
  rewrite Hall in Ha. destruct (row0_getter H o e' Hok Hwn Hr Hst Hb) as (d & Hget & Hd); [unfold T in Ha; lia|].
  exists o, d. auto.
Qed.

End Crypto.

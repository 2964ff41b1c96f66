(** Validation of MACK messages. *)
From Coq Require Import ZArith String List Bool Lia ZifyBool ZifyNat Sorting.Sorted.
From Verif Require Import Model.Prelude Model.Params Model.Gst Model.Bitfields Model.Maclt Model.Tesla
  Spec.TimeSpec Spec.TeslaSpec Spec.MacltSpec Spec.KrootSpec Proofs.Base Proofs.GstProofs Proofs.MacltProofs
  Proofs.LayoutProofs Proofs.TeslaProofs Proofs.KrootProofs.
Import ListNotations.
Open Scope list_scope.
Open Scope Z_scope.
Ltac Zify.zify_post_hook ::= Z.div_mod_to_equations.

Lemma half_minute_time g : gst_ok g -> half_minute g = Z.to_nat (time_of g / 30 mod 2).
Proof.
  destruct g as [w t]. unfold gst_ok, half_minute, time_of. cbn [g_wn g_tow]. intros H. lia.
Qed.

Lemma StronglySorted_ext (l1 l2 : list nat) : StronglySorted lt l1 -> StronglySorted lt l2 ->
  (forall i, In i l1 <-> In i l2) -> l1 = l2.
Proof.
  revert l2. induction l1 as [|a l1 IH]; intros [|b l2] H1 H2 H.
  - reflexivity.
  - exfalso. apply (proj2 (H b)). now left.
  - exfalso. apply (proj1 (H a)). now left.
  - inversion H1 as [|? ? S1 F1]. inversion H2 as [|? ? S2 F2]. subst.
    rewrite Forall_forall in F1, F2.
    assert (a = b).
    { destruct (proj1 (H a) (or_introl eq_refl)) as [E|E]; [auto|].
      destruct (proj2 (H b) (or_introl eq_refl)) as [E'|E']; [auto|].
      specialize (F2 _ E). specialize (F1 _ E'). lia. }
    subst b. f_equal. apply IH; auto. intros i. split; intros Hi.
    + destruct (proj1 (H i) (or_intror Hi)) as [E|E]; auto. subst i. specialize (F1 _ Hi). lia.
    + destruct (proj2 (H i) (or_intror Hi)) as [E|E]; auto. subst i. specialize (F2 _ Hi). lia.
Qed.

Lemma seq_sorted n a : StronglySorted lt (seq a n).
Proof.
  revert a. induction n as [|n IH]; intros a; cbn [seq]; constructor; auto.
  apply Forall_forall. intros x Hx. apply in_seq in Hx. lia.
Qed.

Lemma filter_sorted p l : StronglySorted lt l -> StronglySorted lt (filter p l).
Proof.
  induction 1 as [|a l H IH F]; cbn [filter]; [constructor|]. destruct (p a); auto.
  constructor; auto. rewrite Forall_forall in *. intros x Hx. apply filter_In in Hx. apply F, Hx.
Qed.

Lemma In_flx_positions codes i : In i (flx_positions codes) <-> nth_error codes i = Some "FLX"%string.
Proof.
  unfold flx_positions. rewrite filter_In, in_seq. split.
  - intros (_ & H). destruct (nth_error codes i) as [c|]; [|discriminate].
    apply String.eqb_eq in H. now subst c.
  - intros H. assert (i < List.length codes)%nat by (apply nth_error_Some; congruence).
    rewrite H. split; [lia|reflexivity].
Qed.

Lemma get_flx_indices_positions id half : (half < 2)%nat ->
  get_flx_indices id half = match icd_sequence id half with
                            | None => Ok (RErr InvalidMaclt)
                            | Some codes => Ok (ROk (flx_positions codes))
                            end.
Proof.
  intros Hh. pose proof (get_flx_indices_icd id half Hh) as H.
  destruct (icd_sequence id half) as [codes|]; auto. destruct H as (idxs & -> & Hi & Hs).
  do 2 f_equal. apply StronglySorted_ext; auto.
  - apply filter_sorted, seq_sorted.
  - intros i. rewrite Hi, In_flx_positions. reflexivity.
Qed.

Lemma icd_first id half codes : icd_sequence id half = Some codes -> nth_error codes 0 = Some "00S"%string.
Proof.
  unfold icd_sequence. destruct (lookup_id id icd_maclt) as [[s1 s2]|] eqn:E; [|discriminate].
  assert (Hin : In (s1, s2) (map snd icd_maclt)).
  { revert E. generalize icd_maclt. intros t. induction t as [|[i s] t IH]; cbn [lookup_id]; [discriminate|].
    destruct (Z.eq_dec i id); intros E; [injection E as <-; left; reflexivity|right; auto]. }
  assert (F : forallb (fun p => match fst p, snd p with a :: _, b :: _ => String.eqb a "00S" && String.eqb b "00S" | _, _ => false end)
                      (map snd icd_maclt) = true) by (vm_compute; reflexivity).
  rewrite forallb_forall in F. specialize (F _ Hin). cbn [fst snd] in F.
  destruct s1 as [|a s1], s2 as [|b s2]; try discriminate. apply andb_true_iff in F. destruct F as (F1 & F2).
  apply String.eqb_eq in F1, F2. subst a b.
  destruct half as [|[|half]]; intros H; try discriminate; injection H as <-; reflexivity.
Qed.

Lemma icd_codes id half codes j code : icd_sequence id half = Some codes -> nth_error codes j = Some code ->
  code <> "?"%string /\ code <> "04E"%string.
Proof.
  unfold icd_sequence. destruct (lookup_id id icd_maclt) as [[s1 s2]|] eqn:E; [|discriminate].
  assert (Hin : In (s1, s2) (map snd icd_maclt)).
  { revert E. generalize icd_maclt. intros t. induction t as [|[i s] t IH]; cbn [lookup_id]; [discriminate|].
    destruct (Z.eq_dec i id); intros E; [injection E as <-; left; reflexivity|right; auto]. }
  assert (F : forallb (fun p => forallb (fun c => negb (String.eqb c "?") && negb (String.eqb c "04E")) (fst p ++ snd p))
                      (map snd icd_maclt) = true) by (vm_compute; reflexivity).
  rewrite forallb_forall in F. specialize (F _ Hin). cbn [fst snd] in F. rewrite forallb_forall in F.
  intros Hc Hn. apply nth_error_In in Hn.
  assert (Hc' : In code (s1 ++ s2)).
  { apply in_or_app. destruct half as [|[|half]]; try discriminate; injection Hc as <-; auto. }
  specialize (F _ Hc'). apply andb_true_iff in F. destruct F as (F1 & F2).
  apply negb_true_iff in F1, F2. apply String.eqb_neq in F1, F2. auto.
Qed.

Lemma flx_positive id half codes i : icd_sequence id half = Some codes -> In i (flx_positions codes) -> (1 <= i)%nat.
Proof.
  intros H Hi. apply In_flx_positions in Hi. destruct i; [|lia]. rewrite (icd_first _ _ _ H) in Hi. discriminate.
Qed.

Section Crypto.
Context {C : crypto} {B : build}.
Hypothesis HC : crypto_ok C.

Section Mack.
Variables (data : list Z) (ks ts : nat).
Hypothesis Hdata : length data = 60%nat.
Hypothesis Hsizes : sizes_ok ks ts.
Let m := mack_new data ks ts.
Let nt := mack_num_tags m.
Let bits := bits_of_bytes data.

Lemma length_mack_bits : length bits = 480%nat.
Proof. unfold bits. rewrite length_bits_of_bytes. lia. Qed.

Lemma length_info j : (j < nt)%nat -> length (info_at bits ts j) = 16%nat.
Proof.
  intros Hj. pose proof (num_tags_bounds data ks ts Hdata Hsizes) as (_ & Hb & _). fold m in Hb. fold nt in Hb.
  unfold info_at. rewrite length_sub by (rewrite length_mack_bits; nia). nia.
Qed.

Lemma tag_at_spec j : (1 <= j < nt)%nat -> exists t, mack_tag_and_info m j = Ok t /\
  length t = (ts + 16)%nat /\ tag_tag_info t = info_at bits ts j /\
  tag_tag t = sub ((ts + 16) * j) ((ts + 16) * j + ts) bits.
Proof.
  intros Hj. pose proof (num_tags_bounds data ks ts Hdata Hsizes) as (_ & Hb & _). fold m in Hb. fold nt in Hb.
  eexists. split; [apply mack_tag_and_info_ok; auto|].
  assert (Hl : length (sub ((ts + 16) * j) ((ts + 16) * (j + 1)) (bits_of_bytes data)) = (ts + 16)%nat).
  { rewrite length_sub by (fold bits; rewrite length_mack_bits; nia). nia. }
  split; [exact Hl|]. unfold tag_tag_info, tag_tag. rewrite Hl.
  replace (ts + 16 - 16)%nat with ts by lia. fold bits.
  rewrite !sub_sub by (rewrite ?length_mack_bits; nia). unfold info_at. split; f_equal; lia.
Qed.

Lemma flx_tag_infos_spec idxs : Forall (fun i => (1 <= i < nt)%nat) idxs ->
  exists bs, flx_tag_infos m idxs = Ok bs /\ Forall is_byte bs /\
    bits_of_bytes bs = concat (map (info_at bits ts) idxs).
Proof.
  induction 1 as [|i idxs Hi Hidxs IH].
  - exists []. repeat split. constructor.
  - destruct IH as (bs & E & Hb & Hbits). destruct (tag_at_spec i Hi) as (t & Et & Hl & Hinfo & _).
    cbn [flx_tag_infos]. rewrite Et. cbn [bind].
    assert (Hl16 : length (tag_tag_info t) = 16%nat) by (rewrite Hinfo; apply length_info; lia).
    rewrite copy_from_in by (rewrite ?repeat_length; lia). cbn [bind]. rewrite E. cbn [bind].
    assert (Ep : put 0 (tag_tag_info t) (repeat false 16) = tag_tag_info t).
    { unfold put. rewrite firstn_O. cbn [app Nat.add]. rewrite skipn_all2 by (rewrite repeat_length; lia).
      apply app_nil_r. }
    rewrite Ep. eexists. split; [reflexivity|]. split.
    + apply Forall_app. split; auto. now apply (bytes_of_bits_are_bytes 2).
    + rewrite bits_of_bytes_app, (bits_of_bytes_bits 2) by auto. cbn [map concat]. now rewrite Hbits, Hinfo.
Qed.

Lemma flx_tag_infos_panic idxs : Exists (fun i => (nt <= i)%nat) idxs -> flx_tag_infos m idxs = Panic.
Proof.
  induction idxs as [|i idxs IH]; intros H; [inversion H|].
  cbn [flx_tag_infos]. inversion H as [? ? Hi|? ? Hi]; subst.
  - pose proof (proj2 (mack_tag_and_info_panic data ks ts Hdata Hsizes i) (or_intror Hi)) as K. fold m in K. now rewrite K.
  - destruct (mack_tag_and_info m i); cbn [bind]; auto. destruct (copy_from _ _ _ _); cbn [bind]; auto.
    now rewrite (IH Hi).
Qed.

Lemma macseq_bits : exists v, mack_macseq m = Ok v /\ store_be 12 v = sub ts (ts + 12) bits.
Proof.
  exists (load_be (sub ts (ts + 12) bits)). split; [apply mack_macseq_ok; auto|].
  rewrite store_be_is_be. apply be_load_sub; [|lia]. destruct Hsizes. rewrite length_mack_bits. lia.
Qed.

Definition flx_in_range (c : chain) (g : gst) : Prop :=
  forall codes, icd_sequence (ch_maclt c) (half_minute g) = Some codes ->
    Forall (fun i => (i < nt)%nat) (flx_positions codes).

Lemma validate_macseq_spec k prna g : key_ok k -> mac_usable k -> gst_ok g -> is_byte prna ->
  flx_in_range (k_chain k) g ->
  exists r, validate_macseq k m prna g = Ok r /\
    (r = ROk tt <-> exists codes, icd_sequence (ch_maclt (k_chain k)) (half_minute g) = Some codes /\
       tag_of (ch_mac (k_chain k)) (key_bytes k)
         (be 8 prna ++ gst_field (time_of g) ++ concat (map (info_at bits ts) (flx_positions codes)))
         (sub ts (ts + 12) bits)).
Proof.
  intros Hk Hu Hg Hp Hf. unfold validate_macseq.
  rewrite (proj2 (mac_digest_ok_iff k tt Hk) Hu). cbn [bind].
  rewrite get_flx_indices_positions by apply half_minute_lt.
  destruct (icd_sequence (ch_maclt (k_chain k)) (half_minute g)) as [codes|] eqn:Ecodes; cbn [bind].
  2:{ eexists. split; [reflexivity|]. split; [discriminate|]. intros (codes & K & _). discriminate. }
  specialize (Hf codes Ecodes).
  assert (Hrange : Forall (fun i => (1 <= i < nt)%nat) (flx_positions codes)).
  { rewrite Forall_forall in *. intros i Hi. split; [eapply flx_positive; eauto|auto]. }
  destruct (flx_tag_infos_spec _ Hrange) as (bs & Ebs & Hbb & Hbits). rewrite Ebs. cbn [bind].
  destruct macseq_bits as (v & Ev & Ebv). rewrite Ev.
  set (msg := (prna :: bytes_of_bits (gst_bits g)) ++ bs).
  assert (Henc : encodes msg (be 8 prna ++ gst_field (time_of g) ++ concat (map (info_at bits ts) (flx_positions codes)))).
  { apply encodes_full.
    - unfold msg. cbn [app]. constructor; auto. apply Forall_app. split; auto.
      apply (bytes_of_bits_are_bytes 4), length_gst_bits.
    - unfold msg. cbn [app]. rewrite bits_of_bytes_cons, is_byte_store, bits_of_bytes_app.
      rewrite (bits_of_bytes_bits 4) by apply length_gst_bits. now rewrite gst_bits_field, Hbits by auto. }
  assert (Hl12 : length (sub ts (ts + 12) bits) = 12%nat).
  { destruct Hsizes. rewrite length_sub by (rewrite length_mack_bits; lia). lia. }
  destruct (check_common_spec HC k msg (sub ts (ts + 12) bits)) as (r & Er & Hr); [lia|].
  unfold check_common in Er. rewrite Hl12 in Er. rewrite Hl12 in Hr.
  destruct (slice (bits_of_bytes (chain_mac (ch_mac (k_chain k)) (key_bytes k) msg)) 0 12) as [computed|]; [|discriminate].
  cbn [bind] in *. injection Er as Er. rewrite Ebv, Er.
  pose proof (tag_of_iff (ch_mac (k_chain k)) (key_bytes k) _ (sub ts (ts + 12) bits) msg Henc) as Ht.
  rewrite Hl12 in Ht.
  eexists. split; [reflexivity|]. split.
  - intros E. destruct r; [|discriminate]. exists codes. split; auto. apply Ht. now apply Hr.
  - intros (codes' & K & Htag). injection K as <-. apply Ht in Htag. apply Hr in Htag. now rewrite Htag.
Qed.

(** Exact result of the check of one tag. *)
Lemma info_fields j : (j < nt)%nat -> exists prnd adkd cop, 0 <= prnd < 256 /\ 0 <= adkd < 16 /\ 0 <= cop < 16 /\
  info_at bits ts j = be 8 prnd ++ be 4 adkd ++ be 4 cop.
Proof.
  intros Hj. pose proof (length_info j Hj) as Hl. set (i := info_at bits ts j) in *.
  exists (load_be (sub 0 8 i)), (load_be (sub 8 12 i)), (load_be (sub 12 16 i)).
  rewrite !be_load_sub by lia. rewrite (sub_app_sub 8), (sub_app_sub 0) by lia.
  pose proof (load_be_range (sub 0 8 i)) as R1. pose proof (load_be_range (sub 8 12 i)) as R2.
  pose proof (load_be_range (sub 12 16 i)) as R3. rewrite length_sub in R1, R2, R3 by lia.
  change (2 ^ Z.of_nat (8 - 0)) with 256 in R1. change (2 ^ Z.of_nat (12 - 8)) with 16 in R2.
  change (2 ^ Z.of_nat (16 - 12)) with 16 in R3.
  repeat split; try lia. symmetry. rewrite <- Hl at 1. apply sub_full.
Qed.

Lemma info_values t prnd adkd cop : (16 <= length t)%nat -> 0 <= prnd < 256 -> 0 <= adkd < 16 -> 0 <= cop < 16 ->
  tag_tag_info t = be 8 prnd ++ be 4 adkd ++ be 4 cop ->
  load_be (sub (length t - 16) (length t - 8) t) = prnd /\
  load_be (sub (length t - 8) (length t - 4) t) = adkd /\ tag_cop t = cop.
Proof.
  intros Hl Hp Ha Hc H. destruct (tag_fields t Hl) as (_ & E). rewrite H in E.
  apply split_app in E; [|rewrite length_be, length_sub by lia; lia]. destruct E as (E1 & E).
  apply split_app in E; [|rewrite length_be, length_sub by lia; lia]. destruct E as (E2 & E3).
  unfold tag_cop. rewrite <- E1, <- E2, <- E3, !load_be_be.
  change (2 ^ Z.of_nat 8) with 256. change (2 ^ Z.of_nat 4) with 16. rewrite !Z.mod_small by lia. auto.
Qed.

Lemma prnd_of_value t v : load_be (sub (length t - 16) (length t - 8) t) = v ->
  tag_prnd t = if (1 <=? v) && (v <=? 36) then PrndSvid v else if v =? 255 then PrndConstellation else PrndReserved.
Proof. intros <-. reflexivity. Qed.

Lemma adkd_of_value t v : load_be (sub (length t - 8) (length t - 4) t) = v ->
  tag_adkd t = if v =? 0 then AdkdInavCed else if v =? 4 then AdkdInavTiming
               else if v =? 12 then AdkdSlowMac else AdkdReserved.
Proof.
  intros <-. unfold tag_adkd. set (v := load_be _).
  destruct v as [|p|p]; try reflexivity.
  do 4 (destruct p as [p|p|]; try reflexivity).
Qed.

Lemma validate_adkd_spec c prna g j t code prnd adkd cop :
  (1 <= j < nt)%nat -> mack_tag_and_info m j = Ok t ->
  0 <= prnd < 256 -> 0 <= adkd < 16 -> 0 <= cop < 16 ->
  info_at bits ts j = be 8 prnd ++ be 4 adkd ++ be 4 cop ->
  (exists codes, icd_sequence (ch_maclt c) (half_minute g) = Some codes /\ nth_error codes j = Some code) ->
  (validate_adkd c j t prna g = Ok (ROk tt) <-> code_allows code prna prnd adkd).
Proof.
  intros Hj Et Hp Ha Hcop Hi (codes & Hs & Hcode). destruct (icd_codes _ _ _ _ _ Hs Hcode) as (Nq & N4).
  destruct (tag_at_spec j Hj) as (t' & Et' & Hl & Hinfo & _). rewrite Et in Et'. injection Et' as <-.
  rewrite Hi in Hinfo. destruct (info_values t prnd adkd cop) as (V1 & V2 & _); auto; [lia|].
  unfold validate_adkd.
  pose proof (get_maclt_entry_icd (ch_maclt c) (half_minute g) j (half_minute_lt g) ltac:(lia)) as H.
  rewrite Hs, Hcode in H. destruct H as (s & -> & Hsc). cbn [bind].
  rewrite (prnd_of_value t prnd V1), (adkd_of_value t adkd V2).
  unfold num_svns. change (Z.of_nat 36) with 36. unfold code_allows. subst code.
  destruct s as [a o|]; cbn [slot_code].
  2:{ split; auto. }
  destruct a, o; cbn [slot_code adkd_eqb auth_object_eqb negb] in *; try (exfalso; congruence);
  destruct (adkd =? 0) eqn:A0; cbn [adkd_eqb negb];
  try (destruct (adkd =? 4) eqn:A4; cbn [adkd_eqb negb]);
  try (destruct (adkd =? 12) eqn:A12; cbn [adkd_eqb negb]);
  destruct ((1 <=? prnd) && (prnd <=? 36)) eqn:P1; try rewrite P1;
  try (destruct (prnd =? 255)); cbn [andb];
  try (destruct (prnd =? prna) eqn:P2); cbn [negb andb];
  (split;
   [first [discriminate
          |intros _; right; split; [lia|];
           first [left; repeat split; (reflexivity || lia)
                 |right; left; repeat split; (reflexivity || lia)
                 |right; right; left; repeat split; (reflexivity || lia)
                 |right; right; right; left; repeat split; (reflexivity || lia)
                 |right; right; right; right; repeat split; (reflexivity || lia)]]
   |intros [K|(R & [(K & K2 & K3)|[(K & K2)|[(K & K2 & K3)|[(K & K2 & K3)|(K & K2)]]]])];
    first [discriminate K|reflexivity|exfalso; lia]]).
Qed.

Lemma validate_adkds_total k prna g js : Forall (fun j => (1 <= j < nt)%nat) js ->
  exists r, validate_adkds k m prna g js = Ok r.
Proof.
  induction 1 as [|j js Hj Hjs IH]; cbn [validate_adkds]; [eauto|].
  destruct (tag_at_spec j Hj) as (t & -> & _). cbn [bind].
  destruct (validate_adkd_total (k_chain k) j t prna g) as (r & ->); [lia|]. cbn [bind].
  destruct r; eauto.
Qed.

Lemma validate_adkds_spec k prna g js codes : Forall (fun j => (1 <= j < nt)%nat) js ->
  icd_sequence (ch_maclt (k_chain k)) (half_minute g) = Some codes ->
  (validate_adkds k m prna g js = Ok (ROk tt) <->
   forall j, In j js -> exists code prnd adkd cop,
        nth_error codes j = Some code /\ 0 <= prnd < 256 /\ 0 <= adkd < 16 /\
        info_at bits ts j = be 8 prnd ++ be 4 adkd ++ be 4 cop /\
        code_allows code prna prnd adkd).
Proof.
  intros Hjs Hs. induction Hjs as [|j js Hj Hjs IH]; cbn [validate_adkds].
  - split; [intros _ j []|reflexivity].
  - destruct (tag_at_spec j Hj) as (t & Et & _). rewrite Et. cbn [bind].
    destruct (validate_adkd_total (k_chain k) j t prna g) as (r & Er); [lia|]. rewrite Er. cbn [bind].
    destruct (info_fields j ltac:(lia)) as (prnd & adkd & cop & R1 & R2 & R3 & Ei).
    assert (Hone : r = ROk tt <-> exists code prnd adkd cop,
        nth_error codes j = Some code /\ 0 <= prnd < 256 /\ 0 <= adkd < 16 /\
        info_at bits ts j = be 8 prnd ++ be 4 adkd ++ be 4 cop /\
        code_allows code prna prnd adkd).
    { split.
      - intros ->. destruct (nth_error codes j) as [code|] eqn:Ec.
        + exists code, prnd, adkd, cop. repeat split; auto; try lia.
          eapply validate_adkd_spec; eauto.
        + exfalso. unfold validate_adkd in Er.
          pose proof (get_maclt_entry_icd (ch_maclt (k_chain k)) (half_minute g) j (half_minute_lt g) ltac:(lia)) as H.
          rewrite Hs, Ec in H. rewrite H in Er. cbn [bind] in Er. discriminate.
      - intros (code & p & a & c & Ec & Rp & Ra & Ei' & Hc).
        assert (p = prnd /\ a = adkd) as (-> & ->).
        { rewrite Ei in Ei'. apply split_app in Ei'; [|now rewrite !length_be]. destruct Ei' as (E1 & E').
          apply split_app in E'; [|now rewrite !length_be]. destruct E' as (E2 & _).
          apply be_inj in E1, E2. change (2 ^ Z.of_nat 8) with 256 in E1. change (2 ^ Z.of_nat 4) with 16 in E2.
          rewrite !Z.mod_small in E1, E2 by lia. auto. }
        apply (validate_adkd_spec (k_chain k) prna g j t code prnd adkd cop) in Hc; eauto. congruence. }
    destruct r as [u|e].
    + destruct u. rewrite IH. split.
      * intros H j' [<-|Hj']; auto. now apply Hone.
      * intros H j' Hj'. apply H. now right.
    + split; [discriminate|]. intros H. specialize (H j (or_introl eq_refl)). apply Hone in H. discriminate.
Qed.

(** The exact result of [mack_validate]. *)
Lemma mack_validate_exact k prna g : key_ok k -> mac_usable k -> gst_ok g -> is_byte prna ->
  flx_in_range (k_chain k) g ->
  exists r, mack_validate m k prna g = Ok r /\
    (match r with ROk m' => m' = m | RErr _ => True end) /\
    ((exists m', r = ROk m') <-> mack_valid (k_chain k) (key_bytes k) prna (time_of g) data ks ts).
Proof.
  intros Hk Hu Hg Hp Hf. unfold mack_validate.
  destruct (validate_macseq_spec k prna g Hk Hu Hg Hp Hf) as (r & -> & Hr). cbn [bind].
  assert (Hnt : nt = ((480 - ks) / (ts + 16))%nat) by reflexivity.
  unfold mack_valid. fold bits. rewrite <- (half_minute_time g Hg). rewrite <- Hnt.
  destruct r as [[]|e].
  2:{ eexists. split; [reflexivity|]. split; [exact I|]. split; [intros (m' & K); discriminate|].
      intros (codes & Hc & _ & Ht & _). exfalso.
      assert (K : RErr e = (ROk tt : result unit macseq_error)) by (apply Hr; eauto). discriminate. }
  destruct (proj1 Hr eq_refl) as (codes & Hc & Ht).
  assert (Hjs : Forall (fun j => (1 <= j < nt)%nat) (seq 1 (nt - 1))).
  { apply Forall_forall. intros j Hj. apply in_seq in Hj. lia. }
  fold nt. destruct (validate_adkds_total k prna g _ Hjs) as (r & Er). rewrite Er. cbn [bind].
  pose proof (validate_adkds_spec k prna g _ codes Hjs Hc) as Ha. rewrite Er in Ha.
  destruct r as [[]|e].
  - eexists. split; [reflexivity|]. split; [reflexivity|]. split; [|eauto].
    intros _. exists codes. repeat split; auto. intros j Hj. apply (proj1 Ha eq_refl). apply in_seq. lia.
  - eexists. split; [reflexivity|]. split; [exact I|]. split; [intros (m' & K); discriminate|].
    intros (codes' & Hc' & _ & _ & Hall). exfalso. rewrite Hc in Hc'. injection Hc' as <-.
    assert (K : Ok (RErr e) = Ok (ROk tt : result unit mack_error)).
    { apply Ha. intros j Hj. apply in_seq in Hj. apply Hall. lia. }
    discriminate.
Qed.

(** It panics exactly for an unusable MAC or a flexible position that does not exist. *)
Lemma mack_validate_panic k prna g : key_ok k -> gst_ok g -> is_byte prna ->
  (mack_validate m k prna g = Panic <-> ~ mac_usable k \/ ~ flx_in_range (k_chain k) g).
Proof.
  intros Hk Hg Hp. split.
  - intros H.
    assert (Hdu : mac_usable k \/ ~ mac_usable k).
    { unfold mac_usable. destruct (ch_mac (k_chain k)); [left; discriminate|].
      destruct (Nat.eq_dec (ch_key_bytes (k_chain k)) 16); [left; auto|right; intros K; auto]. }
    destruct Hdu as [Hu|Hu]; [|auto]. right. intros Hf.
    destruct (mack_validate_exact k prna g Hk Hu Hg Hp Hf) as (r & E & _). congruence.
  - intros [Hu|Hf]; unfold mack_validate, validate_macseq.
    + unfold mac_digest_ok, mac_usable in *. rewrite length_key_bytes by auto.
      destruct (ch_mac (k_chain k)); [exfalso; apply Hu; discriminate|].
      unfold assert_. replace (ch_key_bytes (k_chain k) =? 16)%nat with false; [reflexivity|].
      symmetry. apply Nat.eqb_neq. intros K. apply Hu. auto.
    + destruct (mac_digest_ok k); [|reflexivity]. cbn [bind].
      rewrite get_flx_indices_positions by apply half_minute_lt.
      unfold flx_in_range in Hf.
      destruct (icd_sequence (ch_maclt (k_chain k)) (half_minute g)) as [codes|]; cbn [bind].
      * rewrite flx_tag_infos_panic; [reflexivity|].
        destruct (Exists_dec (fun i => (nt <= i)%nat) (flx_positions codes)) as [He|He].
        { intros x. destruct (le_lt_dec nt x); [left; auto|right; lia]. }
        { exact He. }
        exfalso. apply Hf. intros codes' K. injection K as <-.
        apply Forall_forall. intros i Hi. destruct (le_lt_dec nt i); [|lia].
        exfalso. apply He. apply Exists_exists. eauto.
      * exfalso. apply Hf. intros codes K. discriminate.
Qed.

End Mack.
End Crypto.

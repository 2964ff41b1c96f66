(** Valid tags add up. *)
From Coq Require Import ZArith List Bool Lia ZifyBool ZifyNat Sorted.
From Verif Require Import Model.Prelude Model.Params Model.Gst Model.Svn Model.Bitfields
  Model.Maclt Model.Tesla Model.Merkle Model.Subframe Model.Dsm Model.MackStore Model.Nav Model.Osnma
  Spec.TimeSpec Spec.CollectSpec Spec.StoreSpec Spec.NavSpec Spec.TeslaSpec Spec.KrootSpec
  Spec.MerkleSpec Spec.MacltSpec Spec.KeySpec Spec.SystemSpec Spec.StoredSpec Spec.CompleteSpec
  Proofs.Base Proofs.Ring Proofs.Rows Proofs.GstProofs Proofs.LayoutProofs Proofs.SubframeProofs Proofs.DsmProofs
  Proofs.MackProofs Proofs.NavProofs Proofs.EntryProofs Proofs.NavInv Proofs.TeslaProofs
  Proofs.KrootProofs Proofs.MackValidProofs Proofs.MerkleProofs Proofs.TagProofs Proofs.NavHistory
  Proofs.SystemProofs Proofs.GetterProofs Proofs.KeyStoreProofs Proofs.StepProofs Proofs.StoredProofs Proofs.RecentProofs
  Proofs.CompleteProofs.
Import ListNotations.
Open Scope Z_scope.
Ltac Zify.zify_post_hook ::= Z.div_mod_to_equations.

(** ** Sums *)

Definition sumw {A} (l : list A) (w : A -> Z) : Z := fold_right (fun x a => w x + a) 0 l.
Lemma sumw_nonneg {A} (l : list A) w : (forall x, 0 <= w x) -> 0 <= sumw l w.
Proof. intros H. unfold sumw. induction l as [|x l IH]; cbn [fold_right]; [lia|]. specialize (H x). lia. Qed.
Lemma sumw_plus {A} (l : list A) u v : sumw l (fun x => u x + v x) = sumw l u + sumw l v.
Proof. unfold sumw. induction l as [|x l IH]; cbn [fold_right]; lia. Qed.
Lemma sumw_scale {A} (l : list A) c u : sumw l (fun x => c * u x) = c * sumw l u.
Proof. unfold sumw. induction l as [|x l IH]; cbn [fold_right]; lia. Qed.
Lemma sumw_one {A} (l : list A) w x : (forall x, 0 <= w x) -> In x l -> w x <= sumw l w.
Proof.
  intros H. induction l as [|y l IH]; [intros []|]. intros [->|Hin].
  - pose proof (sumw_nonneg l w H). unfold sumw in *. cbn [fold_right]. lia.
  - specialize (IH Hin). specialize (H y). unfold sumw in *. cbn [fold_right]. lia.
Qed.

(** The number of elements of [J] that are in [l]. *)
Lemma sumw_members (l J : list nat) c : 0 <= c -> NoDup J -> incl J l ->
  c * Z.of_nat (length J) <= sumw l (fun j => if in_dec Nat.eq_dec j J then c else 0).
Proof.
  intros Hc Hn Hi.
  assert (E : sumw l (fun j => if in_dec Nat.eq_dec j J then c else 0)
              = c * Z.of_nat (length (filter (fun j => if in_dec Nat.eq_dec j J then true else false) l))).
  { clear Hn Hi. unfold sumw. induction l as [|y l IH]; cbn [fold_right filter length]; [lia|].
    destruct (in_dec Nat.eq_dec y J); cbn [length]; lia. }
  rewrite E. apply Z.mul_le_mono_nonneg_l; [exact Hc|]. apply inj_le. apply NoDup_incl_length; [exact Hn|].
  intros j Hj. apply filter_In. split; [now apply Hi|]. destruct (in_dec Nat.eq_dec j J); [reflexivity|contradiction].
Qed.

(** The tags of each satellite. *)
Definition of_sat (y : Z) (L : list (Z * nat)) : list nat := map snd (filter (fun a => fst a =? y) L).
Lemma sumw_sats (l : list Z) (L : list (Z * nat)) : (forall a, In a L -> In (fst a) l) ->
  Z.of_nat (length L) <= sumw l (fun y => Z.of_nat (length (of_sat y L))).
Proof.
  induction L as [|a L IH]; intros H; cbn [length].
  - apply sumw_nonneg. intros x. lia.
  - assert (IH' : Z.of_nat (length L) <= sumw l (fun y => Z.of_nat (length (of_sat y L)))) by (apply IH; intros b Hb; apply H; now right).
    assert (H1 : 1 <= sumw l (fun y => if fst a =? y then 1 else 0)).
    { pose proof (sumw_one l (fun y => if fst a =? y then 1 else 0) (fst a)) as H1. cbn beta in H1. rewrite Z.eqb_refl in H1.
      apply H1; [intros x; destruct (fst a =? x); lia|]. apply H. now left. }
    assert (E : sumw l (fun y => Z.of_nat (length (of_sat y (a :: L)))) =
                sumw l (fun y => (if fst a =? y then 1 else 0) + Z.of_nat (length (of_sat y L)))).
    { unfold sumw, of_sat. clear. induction l as [|y l IH]; cbn [fold_right]; [reflexivity|]. rewrite IH. f_equal.
      cbn [filter]. destruct (fst a =? y); cbn [map length]; lia. }
    rewrite E, sumw_plus. lia.
Qed.
Lemma of_sat_in y j L : In j (of_sat y L) <-> In (y, j) L.
Proof.
  unfold of_sat. rewrite in_map_iff. split.
  - intros ((y', j') & E & H). apply filter_In in H. destruct H as (H & E'). cbn [fst snd] in *. apply Z.eqb_eq in E'. now subst.
  - intros H. exists (y, j). split; [reflexivity|]. apply filter_In. split; [exact H|apply Z.eqb_refl].
Qed.
Lemma of_sat_nodup y L : NoDup L -> NoDup (of_sat y L).
Proof.
  unfold of_sat. induction 1 as [|(y', j') L Hn H IH]; cbn [filter]; [constructor|].
  cbn [fst]. destruct (y' =? y) eqn:E; [|exact IH]. cbn [map snd]. constructor; [|exact IH].
  apply Z.eqb_eq in E. subst y'. intros Hin. apply Hn. now apply of_sat_in.
Qed.

Section Storage.
Context {S : storage}.

(** ** The authentication bits of all the entries with the data *)

(** The entries of [svn] with the data [bits] have [w] more authentication bits. *)
Definition gain (k : nav_kind) (svn : Z) (bits : list bool) (w : Z) (e e' : entry) : Prop :=
  grown e e' /\
  (e_svn e = Some svn -> message_bits k e = bits -> e_authbits e <= 65535 ->
   Z.min 65535 (e_authbits e + w) <= e_authbits e').
Definition gains (k : nav_kind) (svn : Z) (bits : list bool) (w : Z) (n n' : nav) : Prop :=
  nav_grown n n' /\ Forall2 (gain k svn bits w) (nv_arr k n) (nv_arr k n').

Lemma gain_trans k svn bits w1 w2 a b c : 0 <= w1 -> 0 <= w2 -> gain k svn bits w1 a b -> gain k svn bits w2 b c ->
  gain k svn bits (w1 + w2) a c.
Proof.
  intros H1 H2 (G1 & A1) (G2 & A2). split; [eauto using grown_trans|]. intros Hs Hb Ha.
  destruct G1 as (E1 & E2 & E3 & E4). specialize (A1 Hs Hb Ha). specialize (E4 Ha).
  assert (Hs' : e_svn b = Some svn) by congruence.
  assert (Hb' : message_bits k b = bits) by (rewrite <- Hb; unfold message_bits; now rewrite E1).
  specialize (A2 Hs' Hb' ltac:(lia)). lia.
Qed.
Lemma Forall2_trans' {A} (P Q R : A -> A -> Prop) a b c : (forall x y z, P x y -> Q y z -> R x z) ->
  Forall2 P a b -> Forall2 Q b c -> Forall2 R a c.
Proof.
  intros H Hab. revert c. induction Hab as [|x y a b Hxy Hab IH]; intros c Hbc; inversion Hbc; subst; constructor; eauto.
Qed.
Lemma gains_trans k svn bits w1 w2 a b c : 0 <= w1 -> 0 <= w2 -> gains k svn bits w1 a b -> gains k svn bits w2 b c ->
  gains k svn bits (w1 + w2) a c.
Proof.
  intros H1 H2 (G1 & A1) (G2 & A2). split; [eauto using nav_grown_trans|].
  eapply Forall2_trans'; [|exact A1|exact A2]. intros x y z. now apply gain_trans.
Qed.
Lemma gains_grown k svn bits n n' : nav_grown n n' -> gains k svn bits 0 n n'.
Proof.
  intros G. split; [exact G|]. destruct G as (_ & _ & G). specialize (G k).
  induction G as [|e e' l l' Hg G IH]; constructor; [|exact IH]. split; [exact Hg|]. intros _ _ Ha.
  destruct Hg as (_ & _ & _ & Hg). specialize (Hg Ha). lia.
Qed.
Lemma gains_le k svn bits w w' n n' : w' <= w -> gains k svn bits w n n' -> gains k svn bits w' n n'.
Proof.
  intros Hw (G & A). split; [exact G|]. induction A as [|e e' l l' (Hg & Ha) A IH]; constructor; [|exact IH].
  split; [exact Hg|]. intros H1 H2 H3. specialize (Ha H1 H2 H3). lia.
Qed.

Lemma fold_gains {A} (f : nav -> A -> outcome nav) (P : nav -> Prop) (w : A -> Z) k svn bits l : (forall x, 0 <= w x) ->
  (forall n n', P n -> nav_grown n n' -> P n') ->
  (forall x n n', In x l -> P n -> f n x = Ok n' -> gains k svn bits (w x) n n') ->
  forall n n', P n -> fold_outcome f l n = Ok n' -> gains k svn bits (sumw l w) n n'.
Proof.
  intros Hw HP. induction l as [|x l IH]; intros Hf n n' Hn H; cbn [fold_outcome] in H.
  - injection H as <-. apply gains_grown. apply nav_grown_refl.
  - bind_inv H. pose proof (Hf x n x0 (or_introl eq_refl) Hn E) as G.
    change (sumw (x :: l) w) with (w x + sumw l w).
    apply gains_trans with (b := x0); [apply Hw|now apply sumw_nonneg|exact G|].
    apply IH; [intros y u v Hy; apply Hf; now right|eapply HP; [exact Hn|apply G]|exact H].
Qed.

(** The entry in a row. *)
Lemma gains_stored k svn bits w n n' j e : gains k svn bits w n n' -> stored k n j svn e -> data_of k e = bits -> e_authbits e <= 65535 ->
  exists e', stored k n' j svn e' /\ data_of k e' = bits /\ Z.min 65535 (e_authbits e + w) <= e_authbits e'.
Proof.
  intros ((G1 & G2 & G3) & A) (Hin & Hs) Hb Ha. rewrite stored_row_row in Hin.
  pose proof (Forall2_row _ _ _ num_sats ((nav_depth + nv_wp n - j) mod nav_depth) A) as HF.
  destruct (Forall2_in _ _ _ e HF Hin) as (e' & Hin' & (Hg1 & Hg2 & Hg3 & Hg4) & Hga). rewrite <- G2, <- stored_row_row in Hin'.
  exists e'. split; [split; [exact Hin'|congruence]|]. split; [rewrite <- Hb; unfold data_of; now rewrite Hg1|].
  apply Hga; [exact Hs|rewrite <- Hb; symmetry; apply data_of_bits|exact Ha].
Qed.

Section Crypto.
Context {C : crypto} {B : build}.
Hypothesis HC : crypto_ok C.

(** One tag. *)
Lemma process_one_tag_gains k key tag cop gm gn prnd svn prna j s n n' bits :
  key_ok key -> gst_ok gm -> is_byte prnd -> is_byte prna -> (length tag <= 128)%nat ->
  (length bits <= 550)%nat -> has_data n k svn gn bits 0 0 -> 0 < cop < 16 ->
  s = NmaTest \/ s = NmaOperational ->
  tag_of (ch_mac (k_chain key)) (key_bytes key) (tag_message j prnd prna (time_of gm) s bits) tag ->
  process_one_tag k key tag cop gm gn prnd svn prna j s n = Ok n' ->
  gains k svn bits (Z.of_nat (length tag)) n n'.
Proof.
  intros Hk Hgm Hprnd Hprna Ht Hbl (e & He & Hb & Hm & Ha) Hcop Hs Htag H.
  split; [now apply process_one_tag_grown in H|].
  assert (Hes : e_svn e = Some svn).
  { unfold find_entry in He. bind_inv He. destruct x as [i|]; [|discriminate]. bind_inv He. injection He as He.
    unfold find_first in He. apply find_some in He. destruct He as (_ & He). apply option_eqb_eq in He; [exact He|].
    intros; apply Z.eqb_eq. }
  unfold process_one_tag in H. replace (cop =? 0) with false in H by lia. rewrite He in H. cbn [bind] in H.
  replace (sat_add_u8 (max_age e) 1 <=? cop) with true in H by (unfold sat_add_u8; lia).
  bind_inv H. destruct x as (r & l). injection H as <-.
  destruct (nav_validate_tag_spec HC key tag gm prnd prna j s k e (nv_arr k n) r l) as (Hr & ->);
    [exact Hk|exact Hgm|exact Hprnd|exact Hprna|exact Ht|rewrite Hb; exact Hbl|exact E|].
  assert (r = true) as -> by (apply Hr; rewrite Hb; exact Htag).
  assert (Hl : (match s with NmaOperational | NmaTest => add_authbits_all k tag e (nv_arr k n) | _ => nv_arr k n end)
               = add_authbits_all k tag e (nv_arr k n)) by (destruct Hs as [-> | ->]; reflexivity).
  rewrite Hl. clear Hl E Hr. rewrite nv_arr_set.
  replace (match k with Ced => match k with Ced => add_authbits_all k tag e (nv_arr k n) | Timing => nv_arr k n end
     | Timing => match k with Ced => nv_arr k n | Timing => add_authbits_all k tag e (nv_arr k n) end end)
    with (add_authbits_all k tag e (nv_arr k n)) by now destruct k.
  unfold add_authbits_all. rewrite Hes, Hb. induction (nv_arr k n) as [|y l IH]; cbn [map]; constructor; [|exact IH].
  destruct (option_eqb Z.eqb (Some svn) (e_svn y) && bits_eqb bits (message_bits k y)) eqn:Ey.
  - unfold gain, grown. cbn [add_authbits e_data e_age e_svn e_authbits]. unfold sat_add_u16.
    split; [split; [reflexivity|]; split; [reflexivity|]; split; [reflexivity|]; lia|]. intros _ _ Hy. lia.
  - split; [apply grown_refl|]. intros Hy1 Hy2 _. exfalso.
    rewrite Hy1, Hy2, bits_eqb_refl in Ey. cbn [option_eqb] in Ey. rewrite Z.eqb_refl in Ey. discriminate Ey.
Qed.

(** ** A MACK message *)
Section Mack.
Variables (data : list Z) (key : tkey) (prna : Z) (gm : gst) (s : nma_status_t).
Hypothesis Hdata : length data = 60%nat.
Hypothesis Hkey : key_ok key.
Hypothesis Hgm : gst_ok gm.
Hypothesis Hprna : 1 <= prna <= 36.
Hypothesis Hs : s = NmaTest \/ s = NmaOperational.
Let ks := (ch_key_bytes (k_chain key) * 8)%nat.
Let ts := ch_tag_bits (k_chain key).
Let m := mack_new data ks ts.
Variables (k : nav_kind) (svn delay : Z) (bits : list bool) (gn : gst).
Hypothesis Hsvn : 1 <= svn <= 36.
Hypothesis Hbits : (length bits <= 550)%nat.

(** Tag [j] is a valid tag for the data. *)
Definition valid_at (j : nat) : Prop := exists adkd cop tag,
  adkd_means adkd k delay /\ 0 < cop < 16 /\
  tag_at (k_chain key) (key_bytes key) prna (time_of gm) s data svn adkd cop bits tag j.

Lemma valid_info j : valid_at j -> exists adkd cop tag, adkd_means adkd k delay /\ 0 < cop < 16 /\ (j < mack_num_tags m)%nat /\
  match j with
  | O => svn = prna /\ adkd = 0 /\ mack_cop m = Ok cop /\ mack_tag0 m = Ok tag
  | _ => exists t, mack_tag_and_info m j = Ok t /\ tag_tag t = tag /\ tag_cop t = cop /\ tag_prnd t = PrndSvid svn /\
           tag_adkd t = (if adkd =? 0 then AdkdInavCed else if adkd =? 4 then AdkdInavTiming else AdkdSlowMac)
  end /\ length tag = ts /\ (ts <= 128)%nat /\
  tag_of (ch_mac (k_chain key)) (key_bytes key) (tag_message j svn prna (time_of gm) s bits) tag.
Proof.
  intros (adkd & cop & tag & Hadkd & Hcop & Hfit & Et & Hj). fold ts in Hfit, Et. exists adkd, cop, tag.
  split; [exact Hadkd|]. split; [exact Hcop|].
  pose proof (fits_num_tags data key Hdata bits [] 0 Hbits j Hfit) as Hn. fold ks ts m in Hn. split; [exact Hn|].
  pose proof (mack_sizes key Hkey) as (Hks & Hts). fold ks ts in Hks, Hts.
  pose proof (length_bits_of_bytes data) as Hlb. rewrite Hdata in Hlb.
  assert (Hlt : length tag = ts) by (rewrite Et, length_sub; lia).
  pose proof (tag_size_le data key Hdata Hkey) as Hle. fold ts in Hle.
  destruct j as [|j].
  - destruct Hj as (E1 & E2 & (macseq & Hi) & Hmac). split; [|split; [lia|split; [lia|exact Hmac]]].
    split; [exact E1|]. split; [exact E2|]. unfold mack_cop, mack_tag0, m, mack_new. cbn [mk_data mk_tag_size].
    rewrite !slice_in by lia. cbn [bind]. fold ts in Hi. unfold info_at in Hi.
    replace ((ts + 16) * 0 + ts)%nat with ts in Hi by lia. replace ((ts + 16) * (0 + 1))%nat with (ts + 12 + 4)%nat in Hi by lia.
    rewrite (sub_join ts (ts + 12)) in Hi by lia. apply app_inj_l in Hi.
    2: { rewrite length_sub by lia. rewrite length_be. lia. }
    destruct Hi as (_ & Hi). rewrite Hi. split.
    + f_equal. rewrite load_be_be. apply Z.mod_small. cbn. lia.
    + rewrite Et. replace ((ts + 16) * 0)%nat with 0%nat by lia. reflexivity.
  - destruct Hj as (Hi & Hmac). split; [|split; [lia|split; [lia|exact Hmac]]].
    destruct (tag_at_spec data ks ts Hdata (mack_sizes key Hkey) (Datatypes.S j)) as (t & Et' & Hlen & Hinfo & Ht'); [fold m; lia|].
    fold ts in Hi. rewrite Hi in Hinfo.
    assert (0 <= adkd < 16) by (destruct Hadkd as [H|[H|H]]; lia).
    destruct (info_values data ks ts Hdata t svn adkd cop) as (V1 & V2 & V3); [lia..|exact Hinfo|].
    exists t. split; [exact Et'|]. split; [rewrite Ht', Et; reflexivity|]. split; [exact V3|]. split.
    + rewrite (prnd_of_value t svn V1). now replace ((1 <=? svn) && (svn <=? 36)) with true by lia.
    + rewrite (adkd_of_value t adkd V2). destruct Hadkd as [(-> & _)|[(-> & _)|(-> & _)]]; reflexivity.
Qed.

Let has n := has_data n k svn gn bits 0 0.
Lemma has_grown n n' : has n -> nav_grown n n' -> has n'.
Proof. intros H G. exact (has_data_grown _ _ _ _ _ _ _ _ G H). Qed.
Let weight (J : list nat) (j : nat) : Z := if in_dec Nat.eq_dec j J then Z.of_nat ts else 0.
Lemma weight_nonneg J j : 0 <= weight J j.
Proof. unfold weight. destruct (in_dec Nat.eq_dec j J); lia. Qed.
Lemma weight_sum J N : NoDup J -> (forall j, In j J -> (j < N)%nat) -> (0 < N)%nat ->
  Z.of_nat ts * Z.of_nat (length J) <= weight J 0%nat + sumw (seq 1 (N - 1)) (weight J).
Proof.
  intros Hn Hj HN. pose proof (sumw_members (seq 0 N) J (Z.of_nat ts) ltac:(lia) Hn) as H.
  replace N with (Datatypes.S (N - 1)) in H at 2 by lia. cbn [seq] in H.
  apply H. intros j Hin. apply in_seq. specialize (Hj j Hin). lia.
Qed.

Lemma process_mack_gains J n n' : delay = 30 -> add_seconds gm (-30) = Ok gn -> NoDup J -> (forall j, In j J -> valid_at j) ->
  has n -> process_mack n m key prna gm s = Ok n' -> gains k svn bits (Z.of_nat ts * Z.of_nat (length J)) n n'.
Proof.
  intros Hd Hgn Hnd HJ Hn H.
  unfold process_mack in H. rewrite Hgn in H. cbn [bind] in H. bind_inv H. bind_inv H. bind_inv H.
  assert (Hb : is_byte prna /\ is_byte svn) by (unfold is_byte; lia). destruct Hb as (Hb1 & Hb2).
  destruct J as [|j0 J0].
  { cbn [length]. rewrite Z.mul_0_r. apply gains_grown.
    apply process_one_tag_grown in E1. eapply nav_grown_trans; [exact E1|].
    eapply fold_grown; [|exact H]. intros y u v. apply process_mack_tag_grown. }
  set (J := j0 :: J0) in *.
  eapply gains_le; [apply (weight_sum J (mack_num_tags m) Hnd)|].
  { intros j Hj. destruct (valid_info j (HJ j Hj)) as (? & ? & ? & _ & _ & Hlt & _). exact Hlt. }
  { destruct (valid_info j0 (HJ j0 (or_introl eq_refl))) as (? & ? & ? & _ & _ & Hlt & _). lia. }
  assert (G0 : gains k svn bits (weight J 0%nat) n x1).
  { unfold weight. destruct (in_dec Nat.eq_dec 0%nat J) as [Hin|_]; [|apply gains_grown; now apply process_one_tag_grown in E1].
    destruct (valid_info 0%nat (HJ 0%nat Hin)) as (adkd & cop & tag & Hadkd & Hcop & _ & (E2 & E3 & E4 & E5) & Hlt & Hle & Hmac).
    rewrite E4 in E. injection E as <-. rewrite E5 in E0. injection E0 as <-.
    assert (k = Ced) as Ek by (destruct Hadkd as [(_ & -> & _)|[(E' & _)|(E' & _)]]; [reflexivity|lia|lia]).
    rewrite <- Hlt. unfold has in Hn. rewrite Ek in *. rewrite <- E2 in *.
    eapply (process_one_tag_gains Ced key tag cop gm gn svn svn svn 0 s n x1 bits Hkey Hgm Hb2 Hb1); [lia|exact Hbits|exact Hn|exact Hcop|exact Hs|exact Hmac|exact E1]. }
  apply gains_trans with (b := x1); [apply weight_nonneg|apply sumw_nonneg; apply weight_nonneg|exact G0|].
  refine (fold_gains (process_mack_tag m key prna gm gn s) has (weight J) k svn bits _ (weight_nonneg J) has_grown _ x1 n' (has_grown _ _ Hn (proj1 G0)) H).
  intros j u v Hj Hu F2. unfold weight. destruct (in_dec Nat.eq_dec j J) as [Hin|_]; [|apply gains_grown; now apply process_mack_tag_grown in F2].
  destruct j as [|j]; [apply in_seq in Hj; lia|].
  destruct (valid_info (Datatypes.S j) (HJ _ Hin)) as (adkd & cop & tag & Hadkd & Hcop & _ & (t & T1 & T2 & T3 & T4 & T5) & Hlt & Hle & Hmac).
  unfold process_mack_tag in F2. rewrite T1 in F2. cbn [bind] in F2. rewrite T4 in F2. cbn [prnd_to_u8] in F2.
  assert (Hsv : svn_try_from svn = Some svn) by (apply svn_try_from_iff; auto).
  rewrite T5, T2, T3, Hsv in F2. rewrite <- Hlt. unfold has in Hu.
  destruct Hadkd as [(E' & Ek & _)|[(E' & Ek & _)|(E' & _ & E'')]]; [| |lia]; rewrite E' in F2; cbn [Z.eqb] in F2; rewrite Ek in *;
    (eapply (process_one_tag_gains _ key tag cop gm gn svn svn prna _ s u v bits Hkey Hgm Hb2 Hb1); [lia|exact Hbits|exact Hu|exact Hcop|exact Hs|exact Hmac|exact F2]).
Qed.

Lemma process_slowmac_gains J n n' : delay = 330 -> add_seconds gm (-30) = Ok gn -> NoDup J -> (forall j, In j J -> valid_at j) ->
  has n -> process_mack_slowmac n m key prna gm s = Ok n' -> gains k svn bits (Z.of_nat ts * Z.of_nat (length J)) n n'.
Proof.
  intros Hd Hgn Hnd HJ Hn H.
  unfold process_mack_slowmac in H. rewrite Hgn in H. cbn [bind] in H.
  assert (Hb : is_byte prna /\ is_byte svn) by (unfold is_byte; lia). destruct Hb as (Hb1 & Hb2).
  destruct J as [|j0 J0].
  { cbn [length]. rewrite Z.mul_0_r. apply gains_grown.
    eapply fold_grown; [|exact H]. intros y u v. apply process_slowmac_tag_grown. }
  set (J := j0 :: J0) in *.
  assert (Hinfo : forall j, In j J -> exists cop tag t, k = Ced /\ 0 < cop < 16 /\ (0 < j < mack_num_tags m)%nat /\
    mack_tag_and_info m j = Ok t /\ tag_tag t = tag /\ tag_cop t = cop /\ tag_prnd t = PrndSvid svn /\ tag_adkd t = AdkdSlowMac /\
    length tag = ts /\ (ts <= 128)%nat /\
    tag_of (ch_mac (k_chain key)) (key_bytes key) (tag_message j svn prna (time_of gm) s bits) tag).
  { intros j Hj. destruct (valid_info j (HJ j Hj)) as (adkd & cop & tag & Hadkd & Hcop & Hlt & Hi & Hl & Hle & Hmac).
    assert (E12 : adkd = 12 /\ k = Ced) by (destruct Hadkd as [(_ & _ & E')|[(_ & _ & E')|(E' & E'' & _)]]; [lia|lia|auto]).
    destruct E12 as (E12 & Ek). destruct j as [|j]; [destruct Hi as (_ & E3 & _); lia|].
    destruct Hi as (t & T1 & T2 & T3 & T4 & T5). rewrite E12 in T5. cbn [Z.eqb] in T5.
    exists cop, tag, t. split; [exact Ek|]. split; [exact Hcop|]. split; [lia|]. auto 10. }
  assert (Hw0 : weight J 0%nat = 0).
  { unfold weight. destruct (in_dec Nat.eq_dec 0%nat J) as [Hin|]; [|reflexivity].
    destruct (Hinfo 0%nat Hin) as (? & ? & ? & _ & _ & Hlt & _). lia. }
  assert (Hsum : Z.of_nat ts * Z.of_nat (length J) <= sumw (seq 1 (mack_num_tags m - 1)) (weight J)).
  { rewrite <- (Z.add_0_l (sumw _ _)), <- Hw0. apply weight_sum; [exact Hnd| |].
    - intros j Hj. destruct (Hinfo j Hj) as (? & ? & ? & _ & _ & Hlt & _). lia.
    - destruct (Hinfo j0 (or_introl eq_refl)) as (? & ? & ? & _ & _ & Hlt & _). lia. }
  eapply gains_le; [exact Hsum|].
  refine (fold_gains (process_slowmac_tag m key prna gm gn s) has (weight J) k svn bits _ (weight_nonneg J) has_grown _ n n' Hn H).
  intros j u v Hj Hu F2. unfold weight. destruct (in_dec Nat.eq_dec j J) as [Hin|_]; [|apply gains_grown; now apply process_slowmac_tag_grown in F2].
  destruct (Hinfo j Hin) as (cop & tag & t & Ek & Hcop & _ & T1 & T2 & T3 & T4 & T5 & Hlt & Hle & Hmac).
  unfold process_slowmac_tag in F2. rewrite T1 in F2. cbn [bind] in F2. rewrite T5 in F2. cbn [adkd_eqb negb] in F2.
  rewrite T4 in F2. cbn [prnd_to_u8] in F2.
  assert (Hsv : svn_try_from svn = Some svn) by (apply svn_try_from_iff; auto).
  rewrite T2, T3, Hsv in F2. rewrite <- Hlt. unfold has in Hu. rewrite Ek in *.
  eapply (process_one_tag_gains _ key tag cop gm gn svn svn prna _ s u v bits Hkey Hgm Hb2 Hb1); [lia|exact Hbits|exact Hu|exact Hcop|exact Hs|exact Hmac|exact F2].
Qed.
End Mack.

(** ** The tags for a new key *)

(** Tag [j] of [prna] can be verified when [key] is known. *)
Definition tag_due (o : osnma) (key : tkey) (k : nav_kind) (svn : Z) (bits : list bool) (delay : Z) (mkey : tkey) (a : Z * nat) : Prop :=
  exists gm gn message s,
    seconds_after gm (k_gst key) delay /\ seconds_after gn gm 30 /\ has_data (o_nav o) k svn gn bits 0 0 /\
    1 <= fst a <= 36 /\ length message = 60%nat /\ mack_get (o_mack o) (fst a) gm = Ok (Some (message, s)) /\
    (s = NmaTest \/ s = NmaOperational) /\
    mack_valid (k_chain mkey) (key_bytes mkey) (fst a) (time_of gm) message
               (8 * ch_key_bytes (k_chain key)) (ch_tag_bits (k_chain key)) /\
    valid_at message key (fst a) gm s k svn delay bits (snd a).

Lemma process_tags_gains o key o' k svn bits mkey Lf Ls : key_ok key -> 1 <= svn <= 36 -> (length bits <= 550)%nat ->
  NoDup Lf -> NoDup Ls -> (Lf <> [] -> o_slow o = false) ->
  (Ls <> [] -> key_ok mkey /\ exists g10, add_seconds (k_gst key) (-300) = Ok g10 /\ slowmac_key_of (o_keys o) g10 = Ok (Some mkey)) ->
  (forall a, In a Lf -> tag_due o key k svn bits 30 key a) -> (forall a, In a Ls -> tag_due o key k svn bits 330 mkey a) ->
  process_tags o key = Ok o' ->
  gains k svn bits (Z.of_nat (ch_tag_bits (k_chain key)) * Z.of_nat (length Lf + length Ls)) (o_nav o) (o_nav o').
Proof.
  intros Hkey Hsvn Hbl Hnf Hns Hslow Hmk HLf HLs H.
  assert (Hgk : gst_ok (k_gst key)) by apply Hkey.
  unfold process_tags in H. bind_inv H. bind_inv H. bind_inv H. bind_inv H. bind_inv H. injection H as <-.
  cbn [set_nav o_nav]. set (T := Z.of_nat (ch_tag_bits (k_chain key))).
  set (w := fun y => T * (Z.of_nat (length (of_sat y Lf)) + Z.of_nat (length (of_sat y Ls)))).
  assert (HT : 0 <= T) by (unfold T; lia).
  assert (Hw : forall y, 0 <= w y) by (intros y; unfold w; nia).
  apply gains_le with (w := sumw svn_iter w).
  { unfold w. rewrite sumw_scale, sumw_plus. apply Z.mul_le_mono_nonneg_l; [exact HT|].
    assert (Hf : Z.of_nat (length Lf) <= sumw svn_iter (fun y => Z.of_nat (length (of_sat y Lf)))).
    { apply sumw_sats. intros a Ha. apply svn_iter_in. destruct (HLf a Ha) as (? & ? & ? & ? & _ & _ & _ & Hp & _). exact Hp. }
    assert (Hs : Z.of_nat (length Ls) <= sumw svn_iter (fun y => Z.of_nat (length (of_sat y Ls)))).
    { apply sumw_sats. intros a Ha. apply svn_iter_in. destruct (HLs a Ha) as (? & ? & ? & ? & _ & _ & _ & Hp & _). exact Hp. }
    lia. }
  refine (fold_gains _ (nav_grown (o_nav o)) w k svn bits svn_iter Hw (fun u v => nav_grown_trans _ u v) _ (o_nav o) _ (nav_grown_refl _) E3).
  intros y u v Hy Hu F. bind_inv F. apply svn_iter_in in Hy. unfold w. rewrite Z.mul_add_distr_l.
  assert (Gf : gains k svn bits (T * Z.of_nat (length (of_sat y Lf))) u x4).
  { destruct (of_sat y Lf) as [|j0 J0] eqn:EJ.
    { cbn [length]. rewrite Z.mul_0_r. apply gains_grown. now apply tags_fast_grown in E4. }
    assert (Hj0 : In (y, j0) Lf) by (apply of_sat_in; rewrite EJ; now left).
    destruct (HLf _ Hj0) as (gm & gn & message & s & Hgm & Hgn & Hhas & _ & Hlen & Hget & Hs & Hv & _).
    cbn [fst snd] in *.
    pose proof (seconds_before_unique (k_gst key) x gm 30 ltac:(lia) E Hgk Hgm) as Egm. subst x.
    unfold process_tags_fast in E4. rewrite (Hslow ltac:(intros ->; destruct Hj0)), Hget in E4. cbn [bind] in E4. bind_inv E4.
    apply (validate_mack_complete HC) in E5; auto; [|apply Hgm]. rewrite E5 in E4. clear E5. unfold mack_of_chain in E4.
    assert (Hgn' : add_seconds gm (-30) = Ok gn).
    { unfold process_mack in E4. bind_inv E4. rewrite E5. f_equal. symmetry. eapply (seconds_before_unique gm _ gn 30); [lia|exact E5|apply Hgm|exact Hgn]. }
    eapply (process_mack_gains message key y gm s Hlen Hkey (proj1 Hgm) Hy Hs k svn 30 bits gn Hsvn Hbl); [reflexivity|exact Hgn'| | | |exact E4].
    - rewrite <- EJ. now apply of_sat_nodup.
    - intros j Hj. rewrite <- EJ in Hj. apply of_sat_in in Hj. destruct (HLf _ Hj) as (gm' & gn' & message' & s' & Hgm' & _ & _ & _ & _ & Hget' & _ & _ & Hval).
      cbn [fst snd] in *. assert (gm' = gm).
      { rewrite (seconds_before_unique (k_gst key) gm gm' 30 ltac:(lia) E Hgk Hgm'). reflexivity. }
      subst gm'. rewrite Hget in Hget'. assert (message' = message /\ s' = s) as (-> & ->) by (split; congruence). exact Hval.
    - exact (has_data_grown _ _ _ _ _ _ _ _ Hu Hhas). }
  assert (Gs : gains k svn bits (T * Z.of_nat (length (of_sat y Ls))) x4 v).
  { destruct (of_sat y Ls) as [|j0 J0] eqn:EJ.
    { cbn [length]. rewrite Z.mul_0_r. apply gains_grown. now apply tags_slow_grown in F. }
    assert (Hj0 : In (y, j0) Ls) by (apply of_sat_in; rewrite EJ; now left).
    destruct (Hmk ltac:(intros ->; destruct Hj0)) as (Hmkey & g10 & H10 & Hslk).
    assert (x1 = g10) by congruence. subst x1. assert (x2 = Some mkey) by congruence. subst x2.
    pose proof (seconds_before_n (k_gst key) x 30 Hgk ltac:(lia) E) as S1.
    pose proof (seconds_before_n x x0 300 (proj1 S1) ltac:(lia) E0) as S2.
    pose proof (seconds_after_trans _ _ _ _ _ S2 S1) as (S3 & _ & S4).
    assert (Hu0 : forall gm, seconds_after gm (k_gst key) 330 -> gm = x0).
    { intros gm (S5 & _ & S6). apply time_of_inj; auto. pose proof (gst_time_bound gm S5). pose proof (gst_time_bound x0 S3). lia. }
    destruct (HLs _ Hj0) as (gm & gn & message & s & Hgm & Hgn & Hhas & _ & Hlen & Hget & Hs & Hv & _).
    cbn [fst snd] in *. pose proof (Hu0 gm Hgm) as Egm. subst x0.
    unfold process_tags_slow in F. rewrite Hget in F. cbn [bind] in F. bind_inv F.
    apply (validate_mack_complete HC) in E5; auto. rewrite E5 in F. clear E5. unfold mack_of_chain in F.
    assert (Hgn' : add_seconds gm (-30) = Ok gn).
    { unfold process_mack_slowmac in F. bind_inv F. rewrite E5. f_equal. symmetry. eapply (seconds_before_unique gm _ gn 30); [lia|exact E5|apply Hgm|exact Hgn]. }
    eapply (process_slowmac_gains message key y gm s Hlen Hkey (proj1 Hgm) Hy Hs k svn 330 bits gn Hsvn Hbl); [reflexivity|exact Hgn'| | | |exact F].
    - rewrite <- EJ. now apply of_sat_nodup.
    - intros j Hj. rewrite <- EJ in Hj. apply of_sat_in in Hj. destruct (HLs _ Hj) as (gm' & gn' & message' & s' & Hgm' & _ & _ & _ & _ & Hget' & _ & _ & Hval).
      cbn [fst snd] in *. pose proof (Hu0 gm' Hgm') as Eg. subst gm'.
      rewrite Hget in Hget'. assert (message' = message /\ s' = s) as (-> & ->) by (split; congruence). exact Hval.
    - exact (has_data_grown _ _ _ _ _ _ _ _ (nav_grown_trans _ _ _ Hu (proj1 Gf)) Hhas). }
  apply gains_trans with (b := x4); [nia|nia|exact Gf|exact Gs].
Qed.

End Crypto.
End Storage.

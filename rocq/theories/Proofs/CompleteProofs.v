(** Valid tags do authenticate. *)
From Coq Require Import ZArith List Bool Lia ZifyBool ZifyNat Sorted.
From Verif Require Import Model.Prelude Model.Params Model.Gst Model.Svn Model.Bitfields
  Model.Maclt Model.Tesla Model.Merkle Model.Subframe Model.Dsm Model.MackStore Model.Nav Model.Osnma
  Spec.TimeSpec Spec.CollectSpec Spec.StoreSpec Spec.NavSpec Spec.TeslaSpec Spec.KrootSpec
  Spec.MerkleSpec Spec.MacltSpec Spec.KeySpec Spec.SystemSpec Spec.StoredSpec
  Proofs.Base Proofs.Ring Proofs.Rows Proofs.GstProofs Proofs.LayoutProofs Proofs.SubframeProofs Proofs.DsmProofs
  Proofs.MackProofs Proofs.NavProofs Proofs.EntryProofs Proofs.NavInv Proofs.TeslaProofs
  Proofs.KrootProofs Proofs.MackValidProofs Proofs.MerkleProofs Proofs.TagProofs Proofs.NavHistory
  Proofs.SystemProofs Proofs.GetterProofs Proofs.KeyStoreProofs Proofs.StepProofs Proofs.StoredProofs Proofs.RecentProofs.
Import ListNotations.
Open Scope Z_scope.
Ltac Zify.zify_post_hook ::= Z.div_mod_to_equations.

Lemma be_inj n v w : 0 <= v < 2 ^ Z.of_nat n -> 0 <= w < 2 ^ Z.of_nat n -> be n v = be n w -> v = w.
Proof.
  revert v w. induction n as [|n IH]; intros v w Hv Hw H.
  - cbn in Hv, Hw. lia.
  - cbn [be] in H. apply app_inj_tail in H. destruct H as (H1 & H2).
    rewrite Nat2Z.inj_succ, Z.pow_succ_r in Hv, Hw by lia.
    assert (v / 2 = w / 2) by (apply IH; [| |exact H1]; lia).
    rewrite (Z.div_mod v 2), (Z.div_mod w 2) by lia. rewrite !Zmod_odd. rewrite H2. lia.
Qed.
Lemma app_inj_l {A} (a b c d : list A) : length a = length c -> a ++ b = c ++ d -> a = c /\ b = d.
Proof.
  revert c. induction a as [|x a IH]; intros [|y c] Hl H; cbn in Hl; try discriminate; [auto|].
  cbn in H. injection H as -> H. destruct (IH c) as (-> & ->); auto.
Qed.

Section Storage.
Context {S : storage}.

(** ** Finding data *)

Lemma find_grown svn l l' e : Forall2 grown l l' ->
  find (fun e => option_eqb Z.eqb (e_svn e) (Some svn)) l = Some e ->
  exists e', find (fun e => option_eqb Z.eqb (e_svn e) (Some svn)) l' = Some e' /\ grown e e'.
Proof.
  induction 1 as [|x y l l' Hg H IH]; cbn [find]; [discriminate|]. intros Hf.
  destruct Hg as (G1 & G2 & G3 & G4). rewrite G3.
  destruct (option_eqb Z.eqb (e_svn x) (Some svn)); [|auto].
  injection Hf as <-. exists y. split; [reflexivity|]. exact (conj G1 (conj G2 (conj G3 G4))).
Qed.
Lemma Forall2_len {A B} (R : A -> B -> Prop) l l' : Forall2 R l l' -> length l = length l'.
Proof. induction 1; cbn; congruence. Qed.
Lemma Forall2_sub {A B} (R : A -> B -> Prop) a b l l' : Forall2 R l l' -> Forall2 R (sub a b l) (sub a b l').
Proof.
  intros H. unfold sub.
  assert (Hs : forall n l l', Forall2 R l l' -> Forall2 R (skipn n l) (skipn n l')).
  { intros n. induction n; intros k k' Hk; [exact Hk|]. destruct Hk; cbn [skipn]; auto. }
  assert (Hf : forall n l l', Forall2 R l l' -> Forall2 R (firstn n l) (firstn n l')).
  { intros n. induction n; intros k k' Hk; [constructor|]. destruct Hk; cbn [firstn]; constructor; auto. }
  auto.
Qed.
Lemma find_entry_grown n n' k svn g e : nav_grown n n' -> find_entry k n svn g = Ok (Some e) ->
  exists e', find_entry k n' svn g = Ok (Some e') /\ grown e e'.
Proof.
  intros (H1 & _ & H2) H. unfold find_entry, find_gst in *. rewrite H1.
  destruct (is_subframe g); cbn [assert_ bind] in *; [|discriminate].
  destruct (position _ (nv_gsts n)) as [i|]; [|discriminate].
  bind_inv H. unfold row_of in *. apply slice_ok in E. destruct E as (E1 & E2 & ->).
  specialize (H2 k). rewrite (Forall2_len _ _ _ H2) in E2. rewrite slice_in by lia. cbn [bind].
  injection H as H. unfold find_first in *.
  destruct (find_grown svn _ _ e (Forall2_sub grown (i * num_sats) ((i + 1) * num_sats) _ _ H2) H) as (e' & E' & Hg).
  exists e'. now rewrite E'.
Qed.

(** The data of the satellite in the subframe [g], with at least [a] authentication bits. *)
Definition has_data (n : nav) (k : nav_kind) (svn : Z) (g : gst) (bits : list bool) (age a : Z) : Prop :=
  exists e, find_entry k n svn g = Ok (Some e) /\ message_bits k e = bits /\ max_age e = age /\
    a <= e_authbits e <= 65535.
Lemma has_data_grown n n' k svn g bits age a : nav_grown n n' -> has_data n k svn g bits age a ->
  has_data n' k svn g bits age a.
Proof.
  intros H (e & He & Hb & Hm & Ha). destruct (find_entry_grown _ _ _ _ _ _ H He) as (e' & He' & G1 & G2 & G3 & G4).
  exists e'. split; [exact He'|]. unfold message_bits, max_age in *. rewrite G1, G2. split; [exact Hb|]. split; [exact Hm|].
  specialize (G4 (proj2 Ha)). lia.
Qed.

Section Crypto.
Context {C : crypto} {B : build}.
Hypothesis HC : crypto_ok C.

Lemma find_map_bump k tag e0 svn l e :
  find (fun e => option_eqb Z.eqb (e_svn e) (Some svn)) l = Some e ->
  find (fun e => option_eqb Z.eqb (e_svn e) (Some svn)) (add_authbits_all k tag e0 l) =
  Some (if option_eqb Z.eqb (e_svn e0) (e_svn e) && bits_eqb (message_bits k e0) (message_bits k e)
        then add_authbits tag e else e).
Proof.
  unfold add_authbits_all. induction l as [|x l IH]; cbn [find map]; [discriminate|].
  set (y := if option_eqb Z.eqb (e_svn e0) (e_svn x) && _ then add_authbits tag x else x).
  assert (E : e_svn y = e_svn x) by (unfold y; destruct (option_eqb Z.eqb (e_svn e0) (e_svn x) && bits_eqb (message_bits k e0) (message_bits k x)); reflexivity). rewrite E.
  destruct (option_eqb Z.eqb (e_svn x) (Some svn)); [|exact IH]. intros H. injection H as <-. reflexivity.
Qed.
Lemma sub_map {A D} (f : A -> D) a b l : sub a b (map f l) = map f (sub a b l).
Proof. unfold sub. now rewrite skipn_map, firstn_map. Qed.

(** One tag. *)
Lemma process_one_tag_adds k key tag cop gm gn prnd svn prna j s n n' bits age a :
  key_ok key -> gst_ok gm -> is_byte prnd -> is_byte prna -> (length tag <= 128)%nat ->
  (length bits <= 550)%nat -> has_data n k svn gn bits age a -> 0 <= age < cop -> cop < 16 -> 0 <= a ->
  s = NmaTest \/ s = NmaOperational ->
  tag_of (ch_mac (k_chain key)) (key_bytes key) (tag_message j prnd prna (time_of gm) s bits) tag ->
  process_one_tag k key tag cop gm gn prnd svn prna j s n = Ok n' ->
  has_data n' k svn gn bits age (Z.min 65535 (a + Z.of_nat (length tag))).
Proof.
  intros Hk Hgm Hprnd Hprna Ht Hbl (e & He & Hb & Hm & Ha) Hage Hcop Ha0 Hs Htag H.
  unfold process_one_tag in H. replace (cop =? 0) with false in H by lia. rewrite He in H. cbn [bind] in H.
  replace (sat_add_u8 (max_age e) 1 <=? cop) with true in H by (unfold sat_add_u8; lia).
  bind_inv H. destruct x as (r & l). injection H as <-.
  destruct (nav_validate_tag_spec HC key tag gm prnd prna j s k e (nv_arr k n) r l) as (Hr & ->);
    [exact Hk|exact Hgm|exact Hprnd|exact Hprna|exact Ht|rewrite Hb; exact Hbl|exact E|].
  assert (r = true) as -> by (apply Hr; rewrite Hb; exact Htag).
  assert (Hl : (match s with NmaOperational | NmaTest => add_authbits_all k tag e (nv_arr k n) | _ => nv_arr k n end)
               = add_authbits_all k tag e (nv_arr k n)) by (destruct Hs as [-> | ->]; reflexivity).
  rewrite Hl. clear Hl E Hr.
  unfold find_entry, find_gst in He. unfold has_data, find_entry, find_gst.
  destruct (is_subframe gn); cbn [assert_ bind] in *; [|discriminate].
  replace (nv_gsts (set_nv_arr k _ n)) with (nv_gsts n) by now destruct k.
  rewrite nv_arr_set. replace (match k with Ced => match k with Ced => add_authbits_all k tag e (nv_arr k n) | Timing => nv_arr k n end
     | Timing => match k with Ced => nv_arr k n | Timing => add_authbits_all k tag e (nv_arr k n) end end)
    with (add_authbits_all k tag e (nv_arr k n)) by now destruct k.
  destruct (position _ (nv_gsts n)) as [i|]; [|discriminate]. bind_inv He. injection He as He.
  unfold row_of in *. apply slice_ok in E. destruct E as (E1 & E2 & ->).
  rewrite slice_in by (unfold add_authbits_all; rewrite ?map_length; lia). cbn [bind].
  exists (add_authbits tag e). split.
  { f_equal. unfold find_first in *. unfold add_authbits_all. rewrite sub_map.
    change (map _ (sub (i * num_sats) ((i + 1) * num_sats) (nv_arr k n)))
      with (add_authbits_all k tag e (sub (i * num_sats) ((i + 1) * num_sats) (nv_arr k n))).
    rewrite (find_map_bump k tag e svn _ e He).
    assert (option_eqb Z.eqb (e_svn e) (e_svn e) = true) as -> by (apply option_eqb_eq; [intros; apply Z.eqb_eq|reflexivity]).
    rewrite bits_eqb_refl. reflexivity. }
  split; [exact Hb|]. split; [exact Hm|]. cbn [add_authbits e_authbits]. unfold sat_add_u16. lia.
Qed.

(** ** A MACK message *)

Lemma fold_outcome_split {A T} (f : T -> A -> outcome T) l x s s' : In x l -> fold_outcome f l s = Ok s' ->
  exists l1 l2 s1 s2, l = l1 ++ x :: l2 /\ fold_outcome f l1 s = Ok s1 /\ f s1 x = Ok s2 /\ fold_outcome f l2 s2 = Ok s'.
Proof.
  intros Hin H. apply in_split in Hin. destruct Hin as (l1 & l2 & ->). rewrite fold_outcome_app in H. bind_inv H.
  cbn [fold_outcome] in H. bind_inv H. exists l1, l2, x0, x1. auto.
Qed.
Lemma fold_grown {A} (f : nav -> A -> outcome nav) l n n' :
  (forall x n n', f n x = Ok n' -> nav_grown n n') -> fold_outcome f l n = Ok n' -> nav_grown n n'.
Proof.
  intros Hf H. apply (fold_outcome_inv f (nav_grown n)) in H; auto using nav_grown_refl.
  intros n1 x n2 _ H1 H2. apply Hf in H2. eauto using nav_grown_trans.
Qed.
Lemma process_mack_tag_grown m key prna gm gn s n j n' : process_mack_tag m key prna gm gn s n j = Ok n' -> nav_grown n n'.
Proof.
  unfold process_mack_tag. intros H2.
  bind_inv H2. destruct (prnd_to_u8 _); [|injection H2 as <-; apply nav_grown_refl].
  destruct (tag_adkd _); try (injection H2 as <-; apply nav_grown_refl);
    (destruct (svn_try_from _); [|injection H2 as <-; apply nav_grown_refl]; now apply process_one_tag_grown in H2).
Qed.
Lemma process_slowmac_tag_grown m key prna gm gn s n j n' : process_slowmac_tag m key prna gm gn s n j = Ok n' -> nav_grown n n'.
Proof.
  unfold process_slowmac_tag. intros H2. bind_inv H2. destruct (negb _); [injection H2 as <-; apply nav_grown_refl|].
  destruct (prnd_to_u8 _); [|injection H2 as <-; apply nav_grown_refl].
  destruct (svn_try_from _); [|injection H2 as <-; apply nav_grown_refl]. now apply process_one_tag_grown in H2.
Qed.

Section Mack.
Variables (data : list Z) (key : tkey) (prna : Z) (gm : gst) (s : nma_status_t).
Hypothesis Hdata : length data = 60%nat.
Hypothesis Hkey : key_ok key.
Hypothesis Hgm : gst_ok gm.
Hypothesis Hprna : 1 <= prna <= 36.
Hypothesis Hs : s = NmaTest \/ s = NmaOperational.
Let ks := (ch_key_bytes (k_chain key) * 8)%nat.
Let ts := ch_tag_bits (k_chain key).
Let m := mack_new data ks ts.
Variables (k : nav_kind) (svn adkd delay cop : Z) (bits tag : list bool) (age a : Z) (gn : gst).
Hypothesis Hsvn : 1 <= svn <= 36.
Hypothesis Hadkd : adkd_means adkd k delay.
Hypothesis Htag : tag_in_mack (k_chain key) (key_bytes key) prna (time_of gm) s data svn adkd cop bits tag.
Hypothesis Hbits : (length bits <= 550)%nat.
Hypothesis Hage : 0 <= age < cop.
Hypothesis Hcop : cop < 16.
Hypothesis Ha : 0 <= a.

Let more := Z.min 65535 (a + Z.of_nat (length tag)).

Lemma fits_num_tags j : ((ts + 16) * (j + 1) + 8 * ch_key_bytes (k_chain key) <= 480)%nat -> (j < mack_num_tags m)%nat.
Proof.
  intros H. unfold mack_num_tags, m, mack_new. cbn [mk_key_size mk_tag_size]. unfold ks.
  assert (Nat.div ((ts + 16) * (j + 1)) (ts + 16) <= (480 - ch_key_bytes (k_chain key) * 8) / (ts + 16))%nat as H1.
  { apply Nat.div_le_mono; lia. }
  rewrite Nat.mul_comm, Nat.div_mul in H1 by lia. lia.
Qed.

(** The information about a tag other than tag 0. *)
Lemma other_tag_info : exists j, (j < mack_num_tags m)%nat /\
  match j with
  | O => svn = prna /\ adkd = 0 /\ mack_cop m = Ok cop /\ mack_tag0 m = Ok tag
  | _ => exists t, mack_tag_and_info m j = Ok t /\ tag_tag t = tag /\ tag_cop t = cop /\ tag_prnd t = PrndSvid svn /\
           tag_adkd t = (if adkd =? 0 then AdkdInavCed else if adkd =? 4 then AdkdInavTiming else AdkdSlowMac)
  end /\ (length tag <= 128)%nat /\
  tag_of (ch_mac (k_chain key)) (key_bytes key) (tag_message j svn prna (time_of gm) s bits) tag.
Proof.
  destruct Htag as (j & Hfit & Et & Hj). fold ts in Hfit, Et.
  pose proof (fits_num_tags j Hfit) as Hn. exists j. split; [exact Hn|].
  pose proof (mack_sizes key Hkey) as (Hks & Hts). fold ks ts in Hks, Hts.
  pose proof (length_bits_of_bytes data) as Hlb. rewrite Hdata in Hlb.
  assert (Hlt : length tag = ts) by (rewrite Et, length_sub; lia).
  pose proof (tag_size_le data key Hdata Hkey) as Hle. fold ts in Hle.
  destruct j as [|j].
  - destruct Hj as (E1 & E2 & (macseq & Hi) & Hmac). split; [|split; [lia|exact Hmac]].
    split; [exact E1|]. split; [exact E2|]. unfold mack_cop, mack_tag0, m, mack_new. cbn [mk_data mk_tag_size].
    rewrite !slice_in by lia. cbn [bind]. fold ts in Hi. unfold info_at in Hi.
    replace ((ts + 16) * 0 + ts)%nat with ts in Hi by lia. replace ((ts + 16) * (0 + 1))%nat with (ts + 12 + 4)%nat in Hi by lia.
    rewrite (sub_join ts (ts + 12)) in Hi by lia. apply app_inj_l in Hi.
    2: { rewrite length_sub by lia. rewrite length_be. lia. }
    destruct Hi as (_ & Hi). rewrite Hi. split.
    + f_equal. rewrite load_be_be. apply Z.mod_small. cbn. lia.
    + rewrite Et. replace ((ts + 16) * 0)%nat with 0%nat by lia. reflexivity.
  - destruct Hj as (Hi & Hmac). split; [|split; [lia|exact Hmac]].
    destruct (tag_at_spec data ks ts Hdata (mack_sizes key Hkey) (Datatypes.S j)) as (t & Et' & Hlen & Hinfo & Ht'); [fold m; lia|].
    fold ts in Hi. rewrite Hi in Hinfo.
    assert (0 <= adkd < 16) by (destruct Hadkd as [H|[H|H]]; lia).
    destruct (info_values data ks ts Hdata t svn adkd cop) as (V1 & V2 & V3); [lia..|exact Hinfo|].
    exists t. split; [exact Et'|]. split; [rewrite Ht', Et; reflexivity|]. split; [exact V3|]. split.
    + rewrite (prnd_of_value t svn V1). now replace ((1 <=? svn) && (svn <=? 36)) with true by lia.
    + rewrite (adkd_of_value t adkd V2). destruct Hadkd as [(-> & _)|[(-> & _)|(-> & _)]]; reflexivity.
Qed.

Lemma process_mack_adds n n' : delay = 30 -> add_seconds gm (-30) = Ok gn ->
  has_data n k svn gn bits age a -> process_mack n m key prna gm s = Ok n' -> has_data n' k svn gn bits age more.
Proof.
  intros Hd Hgn Hn H. destruct other_tag_info as (j & Hj & Hinfo & Hlt & Hmac).
  unfold process_mack in H. rewrite Hgn in H. cbn [bind] in H. bind_inv H. bind_inv H. bind_inv H.
  assert (Hb : is_byte prna /\ is_byte svn) by (unfold is_byte; lia). destruct Hb as (Hb1 & Hb2).
  destruct j as [|j].
  - destruct Hinfo as (E2 & E3 & E4 & E5). rewrite E4 in E. injection E as <-. rewrite E5 in E0. injection E0 as <-.
    assert (k = Ced) as -> by (destruct Hadkd as [(_ & -> & _)|[(E' & _)|(E' & _)]]; [reflexivity|lia|lia]).
    rewrite <- E2 in *.
    apply (fun X => has_data_grown _ _ _ _ _ _ _ _ X
      (process_one_tag_adds Ced key tag cop gm gn svn svn svn 0 s n x1 bits age a Hkey Hgm Hb2 Hb1 Hlt Hbits Hn Hage Hcop Ha Hs Hmac E1)).
    eapply fold_grown; [|exact H]. intros y n1 n2. apply process_mack_tag_grown.
  - destruct Hinfo as (t & T1 & T2 & T3 & T4 & T5).
    assert (Hin : In (Datatypes.S j) (seq 1 (mack_num_tags m - 1))) by (apply in_seq; lia).
    destruct (fold_outcome_split _ _ _ _ _ Hin H) as (l1 & l2 & n1 & n2 & _ & F1 & F2 & F3).
    apply process_one_tag_grown in E1.
    assert (G1 : nav_grown x1 n1) by (eapply fold_grown; [|exact F1]; intros y u v; apply process_mack_tag_grown).
    assert (G2 : nav_grown n2 n') by (eapply fold_grown; [|exact F3]; intros y u v; apply process_mack_tag_grown).
    apply (has_data_grown _ _ _ _ _ _ _ _ G2).
    pose proof (has_data_grown _ _ _ _ _ _ _ _ (nav_grown_trans _ _ _ E1 G1) Hn) as Hn1.
    unfold process_mack_tag in F2. rewrite T1 in F2. cbn [bind] in F2. rewrite T4 in F2. cbn [prnd_to_u8] in F2.
    assert (Hsv : svn_try_from svn = Some svn) by (apply svn_try_from_iff; auto).
    rewrite T5, T2, T3, Hsv in F2.
    destruct Hadkd as [(E' & -> & _)|[(E' & -> & _)|(E' & _ & E'')]]; [| |lia]; rewrite E' in F2; cbn [Z.eqb] in F2;
      exact (process_one_tag_adds _ key tag cop gm gn svn svn prna _ s n1 n2 bits age a Hkey Hgm Hb2 Hb1 Hlt Hbits Hn1 Hage Hcop Ha Hs Hmac F2).
Qed.

Lemma process_slowmac_adds n n' : delay = 330 -> add_seconds gm (-30) = Ok gn ->
  has_data n k svn gn bits age a -> process_mack_slowmac n m key prna gm s = Ok n' -> has_data n' k svn gn bits age more.
Proof.
  intros Hd Hgn Hn H. destruct other_tag_info as (j & Hj & Hinfo & Hlt & Hmac).
  unfold process_mack_slowmac in H. rewrite Hgn in H. cbn [bind] in H.
  assert (Hb : is_byte prna /\ is_byte svn) by (unfold is_byte; lia). destruct Hb as (Hb1 & Hb2).
  assert (E12 : adkd = 12 /\ k = Ced) by (destruct Hadkd as [(_ & _ & E')|[(_ & _ & E')|(E' & E'' & _)]]; [lia|lia|auto]).
  destruct E12 as (E12 & ->).
  destruct j as [|j]; [destruct Hinfo as (_ & E3 & _); lia|].
  destruct Hinfo as (t & T1 & T2 & T3 & T4 & T5).
  assert (Hin : In (Datatypes.S j) (seq 1 (mack_num_tags m - 1))) by (apply in_seq; lia).
  destruct (fold_outcome_split _ _ _ _ _ Hin H) as (l1 & l2 & n1 & n2 & _ & F1 & F2 & F3).
  assert (G1 : nav_grown n n1) by (eapply fold_grown; [|exact F1]; intros y u v; apply process_slowmac_tag_grown).
  assert (G2 : nav_grown n2 n') by (eapply fold_grown; [|exact F3]; intros y u v; apply process_slowmac_tag_grown).
  apply (has_data_grown _ _ _ _ _ _ _ _ G2).
  pose proof (has_data_grown _ _ _ _ _ _ _ _ G1 Hn) as Hn1.
  unfold process_slowmac_tag in F2. rewrite T1 in F2. cbn [bind] in F2. rewrite T5, E12 in F2. cbn [Z.eqb adkd_eqb negb] in F2.
  rewrite T4 in F2. cbn [prnd_to_u8] in F2.
  assert (Hsv : svn_try_from svn = Some svn) by (apply svn_try_from_iff; auto).
  rewrite T2, T3, Hsv in F2.
  exact (process_one_tag_adds _ key tag cop gm gn svn svn prna _ s n1 n2 bits age a Hkey Hgm Hb2 Hb1 Hlt Hbits Hn1 Hage Hcop Ha Hs Hmac F2).
Qed.
End Mack.

(** ** The tags for a new key *)

Lemma validate_mack_complete message key mkey prna g r : length message = 60%nat ->
  key_ok key -> key_ok mkey -> gst_ok g -> 1 <= prna <= 36 ->
  mack_valid (k_chain mkey) (key_bytes mkey) prna (time_of g) message
             (8 * ch_key_bytes (k_chain key)) (ch_tag_bits (k_chain key)) ->
  validate_mack (mack_of_chain message key) mkey prna g = Ok r -> r = Some (mack_of_chain message key).
Proof.
  intros Hlen Hkey Hmkey Hg Hprna Hv H. unfold validate_mack in H. bind_inv H. injection H as <-.
  unfold mack_of_chain in *. rewrite (Nat.mul_comm 8) in Hv.
  set (ks := (ch_key_bytes (k_chain key) * 8)%nat) in *. set (ts := ch_tag_bits (k_chain key)) in *.
  assert (Hsz : sizes_ok ks ts) by (apply announced_sizes_ok; apply Hkey).
  assert (Hp : is_byte prna) by (unfold is_byte; lia).
  assert (Hnp : ~ (~ mac_usable mkey \/ ~ flx_in_range message ks ts (k_chain mkey) g)).
  { intros Hc. apply (mack_validate_panic HC message ks ts Hlen Hsz mkey prna g Hmkey Hg Hp) in Hc. congruence. }
  destruct (mac_usable_dec mkey) as [Hu|Hu]; [|exfalso; apply Hnp; auto].
  destruct (flx_in_range_dec message ks ts (k_chain mkey) g) as [Hf|Hf]; [|exfalso; apply Hnp; auto].
  destruct (mack_validate_exact HC message ks ts Hlen Hsz mkey prna g Hmkey Hu Hg Hp Hf) as (r & Er & Hr1 & Hr2).
  rewrite Er in E. injection E as <-. apply Hr2 in Hv. destruct Hv as (m' & ->). now subst m'.
Qed.

Lemma seconds_before_unique g g' g'' s : 0 <= s < 604800 -> add_seconds g (- s) = Ok g' -> gst_ok g -> seconds_after g'' g s -> g'' = g'.
Proof.
  intros Hs H Hg (H1 & _ & H2). pose proof (seconds_before_n g g' s Hg Hs H) as (H3 & _ & H4).
  apply time_of_inj; auto. pose proof (gst_time_bound g' H3). pose proof (gst_time_bound g'' H1). lia.
Qed.

Lemma process_tags_adds o key o' prna gm gn message s k svn adkd cop bits tag age a :
  key_ok key -> o_slow o = false -> length message = 60%nat -> 1 <= prna <= 36 ->
  s = NmaTest \/ s = NmaOperational -> 1 <= svn <= 36 -> adkd_means adkd k 30 ->
  seconds_after gm (k_gst key) 30 -> seconds_after gn gm 30 ->
  mack_get (o_mack o) prna gm = Ok (Some (message, s)) ->
  mack_valid (k_chain key) (key_bytes key) prna (time_of gm) message
             (8 * ch_key_bytes (k_chain key)) (ch_tag_bits (k_chain key)) ->
  tag_in_mack (k_chain key) (key_bytes key) prna (time_of gm) s message svn adkd cop bits tag ->
  (length bits <= 550)%nat -> 0 <= age < cop -> cop < 16 -> 0 <= a ->
  has_data (o_nav o) k svn gn bits age a -> process_tags o key = Ok o' ->
  has_data (o_nav o') k svn gn bits age (Z.min 65535 (a + Z.of_nat (length tag))).
Proof.
  intros Hkey Hslow Hlen Hprna Hs Hsvn Had Hgm Hgn Hget Hv Htag Hb Hage Hcop Ha Hn H.
  assert (Hgk : gst_ok (k_gst key)) by apply Hkey.
  unfold process_tags in H. bind_inv H. bind_inv H. bind_inv H. bind_inv H. bind_inv H. injection H as <-.
  cbn [set_nav o_nav].
  rewrite <- (seconds_before_unique (k_gst key) x gm 30 ltac:(lia) E Hgk Hgm) in *.
  assert (Hin : In prna svn_iter) by now apply svn_iter_in.
  destruct (fold_outcome_split _ _ prna _ _ Hin E3) as (l1 & l2 & n1 & n2 & _ & F1 & F2 & F3).
  assert (Hgr : forall y u v, (n <- process_tags_fast (o_mack o) (o_slow o) key gm y u;;
                process_tags_slow (o_mack o) x2 key x0 y n) = Ok v -> nav_grown u v).
  { intros y u v Hx. bind_inv Hx. apply tags_fast_grown in E4. apply tags_slow_grown in Hx. eauto using nav_grown_trans. }
  assert (G1 : nav_grown (o_nav o) n1) by (eapply fold_grown; [|exact F1]; exact Hgr).
  assert (G2 : nav_grown n2 x3) by (eapply fold_grown; [|exact F3]; exact Hgr).
  apply (has_data_grown _ _ _ _ _ _ _ _ G2).
  pose proof (has_data_grown _ _ _ _ _ _ _ _ G1 Hn) as Hn1.
  bind_inv F2. apply tags_slow_grown in F2. apply (has_data_grown _ _ _ _ _ _ _ _ F2).
  unfold process_tags_fast in E4. rewrite Hslow, Hget in E4. cbn [bind] in E4. bind_inv E4.
  apply validate_mack_complete in E5; auto; [|apply Hgm]. subst x5. 
  unfold mack_of_chain in E4.
  assert (Hgn' : add_seconds gm (-30) = Ok gn).
  { unfold process_mack in E4. bind_inv E4. rewrite E5. f_equal. symmetry. eapply (seconds_before_unique gm x5 gn 30); try lia; auto. apply Hgm. }
  eapply process_mack_adds; [exact Hlen|exact Hkey|exact (proj1 Hgm)|exact Hprna|exact Hs|exact Hsvn|exact Had|exact Htag|
    exact Hb|exact Hage|exact Hcop|exact Ha|reflexivity|exact Hgn'|exact Hn1|exact E4].
Qed.


Lemma process_tags_adds_slow o key o' prna gm gn message s svn cop bits tag age a mkey g10 :
  key_ok key -> length message = 60%nat -> 1 <= prna <= 36 ->
  s = NmaTest \/ s = NmaOperational -> 1 <= svn <= 36 ->
  seconds_after gm (k_gst key) 330 -> seconds_after gn gm 30 ->
  mack_get (o_mack o) prna gm = Ok (Some (message, s)) ->
  add_seconds (k_gst key) (-300) = Ok g10 -> slowmac_key_of (o_keys o) g10 = Ok (Some mkey) -> key_ok mkey ->
  mack_valid (k_chain mkey) (key_bytes mkey) prna (time_of gm) message
             (8 * ch_key_bytes (k_chain key)) (ch_tag_bits (k_chain key)) ->
  tag_in_mack (k_chain key) (key_bytes key) prna (time_of gm) s message svn 12 cop bits tag ->
  (length bits <= 550)%nat -> 0 <= age < cop -> cop < 16 -> 0 <= a ->
  has_data (o_nav o) Ced svn gn bits age a -> process_tags o key = Ok o' ->
  has_data (o_nav o') Ced svn gn bits age (Z.min 65535 (a + Z.of_nat (length tag))).
Proof.
  intros Hkey Hlen Hprna Hs Hsvn Hgm Hgn Hget H10 Hslow Hmkey Hv Htag Hb Hage Hcop Ha Hn H.
  assert (Hgk : gst_ok (k_gst key)) by apply Hkey.
  unfold process_tags in H. bind_inv H. bind_inv H. rewrite H10 in H. cbn [bind] in H. rewrite Hslow in H. cbn [bind] in H.
  bind_inv H. injection H as <-. cbn [set_nav o_nav].
  assert (gm = x0) as <-.
  { pose proof (seconds_before_n (k_gst key) x 30 Hgk ltac:(lia) E) as S1.
    pose proof (seconds_before_n x x0 300 (proj1 S1) ltac:(lia) E0) as S2.
    pose proof (seconds_after_trans _ _ _ _ _ S2 S1) as (S3 & _ & S4). destruct Hgm as (S5 & _ & S6).
    apply time_of_inj; auto. pose proof (gst_time_bound gm S5). pose proof (gst_time_bound x0 S3). lia. }
  assert (Hin : In prna svn_iter) by now apply svn_iter_in.
  destruct (fold_outcome_split _ _ prna _ _ Hin E1) as (l1 & l2 & n1 & n2 & _ & F1 & F2 & F3).
  assert (Hgr : forall y u v, (n <- process_tags_fast (o_mack o) (o_slow o) key x y u;;
                process_tags_slow (o_mack o) (Some mkey) key gm y n) = Ok v -> nav_grown u v).
  { intros y u v Hx. bind_inv Hx. apply tags_fast_grown in E2. apply tags_slow_grown in Hx. eauto using nav_grown_trans. }
  assert (G1 : nav_grown (o_nav o) n1) by (eapply fold_grown; [|exact F1]; exact Hgr).
  assert (G2 : nav_grown n2 x1) by (eapply fold_grown; [|exact F3]; exact Hgr).
  apply (has_data_grown _ _ _ _ _ _ _ _ G2).
  bind_inv F2. apply tags_fast_grown in E2.
  pose proof (has_data_grown _ _ _ _ _ _ _ _ (nav_grown_trans _ _ _ G1 E2) Hn) as Hn1.
  unfold process_tags_slow in F2. rewrite Hget in F2. cbn [bind] in F2. bind_inv F2.
  apply validate_mack_complete in E3; auto; [|apply Hgm]. rewrite E3 in F2. clear E3.
  unfold mack_of_chain in F2.
  assert (Hgn' : add_seconds gm (-30) = Ok gn).
  { unfold process_mack_slowmac in F2. bind_inv F2. rewrite E3. f_equal. symmetry. eapply (seconds_before_unique gm _ gn 30); [lia|exact E3|apply Hgm|exact Hgn]. }
  assert (Had : adkd_means 12 Ced 330) by (right; right; auto).
  eapply process_slowmac_adds; [exact Hlen|exact Hkey|exact (proj1 Hgm)|exact Hprna|exact Hs|exact Hsvn|exact Had|exact Htag|
    exact Hb|exact Hage|exact Hcop|exact Ha|reflexivity|exact Hgn'|exact Hn1|exact F2].
Qed.

End Crypto.
End Storage.

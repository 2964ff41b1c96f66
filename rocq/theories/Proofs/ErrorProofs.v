(** The reasons that the errors give. *)
From Coq Require Import ZArith String List Bool Lia ZifyBool ZifyNat.
From Verif Require Import Model.Prelude Model.Params Model.Gst Model.Bitfields Model.Maclt Model.Tesla Model.Merkle
  Spec.TimeSpec Spec.TeslaSpec Spec.MacltSpec Spec.KrootSpec Spec.MerkleSpec Spec.FieldSpec Spec.ErrorSpec
  Proofs.Base Proofs.GstProofs Proofs.MacltProofs Proofs.LayoutProofs Proofs.TeslaProofs Proofs.KrootProofs
  Proofs.DsmProofs Proofs.EntryProofs
  Proofs.MackValidProofs Proofs.MerkleProofs Proofs.FieldProofs.
Import ListNotations.
Open Scope list_scope.
Open Scope Z_scope.
Ltac Zify.zify_post_hook ::= Z.div_mod_to_equations.

Local Lemma ok_inj {A} (x y : A) : Ok x = Ok y -> x = y.
Proof. congruence. Qed.

(** ** Codes in a message of any length *)

Lemma bits_at_in d a b v : bits_at d a b = Ok v -> (b <= 8 * List.length d)%nat.
Proof.
  unfold bits_at. intros H. bind_inv H. apply slice_ok in E. rewrite length_bits_of_bytes in E. lia.
Qed.

Lemma bits_at_one d i a b lo hi g : lo = (8 * i + a)%nat -> hi = (8 * i + b)%nat -> Forall is_byte d -> (i < List.length d)%nat -> (a <= b <= 8)%nat ->
  (forall x, is_byte x -> load_be (sub a b (bits_of_byte x)) = g x) ->
  bits_at d lo hi = Ok (g (nth i d 0)).
Proof.
  intros -> -> Hd Hi Hab Hg. assert (E : d = firstn i d ++ nth i d 0 :: skipn (Datatypes.S i) d).
  { rewrite <- (firstn_skipn i d) at 1. f_equal. clear Hd Hg. revert d Hi. induction i as [|i IH]; intros [|x d] Hi; cbn [List.length] in Hi; try lia; [reflexivity|].
    cbn [skipn nth]. apply IH. lia. }
  assert (Hb : is_byte (nth i d 0)) by (rewrite Forall_forall in Hd; apply Hd, nth_In; exact Hi).
  pose proof (bits_at_byte (firstn i d) (nth i d 0) (skipn (Datatypes.S i) d) a b Hb Hab) as K.
  rewrite firstn_length, Nat.min_l in K by lia. rewrite <- E in K. rewrite K. now rewrite Hg.
Qed.

Lemma byte_mid x : is_byte x -> load_be (sub 4 6 (bits_of_byte x)) = x / 4 mod 4.
Proof.
  intros H. apply Z.eqb_eq. revert x H. apply (byte_cases (fun x => load_be (sub 4 6 (bits_of_byte x)) =? x / 4 mod 4)).
  vm_compute. reflexivity.
Qed.
Lemma byte_last x : is_byte x -> load_be (sub 6 8 (bits_of_byte x)) = x mod 4.
Proof.
  intros H. apply Z.eqb_eq. revert x H. apply (byte_cases (fun x => load_be (sub 6 8 (bits_of_byte x)) =? x mod 4)).
  vm_compute. reflexivity.
Qed.

Lemma nth_is_byte d i : Forall is_byte d -> is_byte (nth i d 0).
Proof.
  intros Hd. destruct (Nat.lt_ge_cases i (List.length d)) as [H|H].
  - rewrite Forall_forall in Hd. now apply Hd, nth_In.
  - rewrite nth_overflow by exact H. unfold is_byte. lia.
Qed.

Lemma kroot_codes d : Forall is_byte d ->
  (kroot_hash_function d = Ok None -> reserved hash_table (nth 1 d 0 / 4 mod 4)) /\
  (kroot_mac_function d = Ok None -> reserved mac_table (nth 1 d 0 mod 4)) /\
  (kroot_key_size d = Ok None -> reserved key_size_table (nth 2 d 0 / 16)) /\
  (kroot_tag_size d = Ok None -> reserved tag_size_table (nth 2 d 0 mod 16)).
Proof.
  intros Hd. pose proof (nth_is_byte d 1 Hd) as B1. pose proof (nth_is_byte d 2 Hd) as B2. unfold is_byte in B1, B2.
  split; [|split; [|split]]; intros H.
  - unfold kroot_hash_function in H. bind_inv H. pose proof (bits_at_in _ _ _ _ E) as Hl.
    rewrite (bits_at_one d 1 4 6 12 14 (fun x => x / 4 mod 4) eq_refl eq_refl Hd) in E by (lia || exact byte_mid). apply ok_inj in E. apply ok_inj in H.
    subst x. pose proof (by_cases hash_fn_eqb hash_fn_eqb_eq hash_table (fun v => match v with 0 => Some HashSha256 | 2 => Some HashSha3_256 | _ => None end) 4 eq_refl (nth 1 d 0 / 4 mod 4) ltac:(lia)) as M.
    cbn beta in M. rewrite H in M. exact M.
  - unfold kroot_mac_function in H. bind_inv H. pose proof (bits_at_in _ _ _ _ E) as Hl.
    rewrite (bits_at_one d 1 6 8 14 16 (fun x => x mod 4) eq_refl eq_refl Hd) in E by (lia || exact byte_last). apply ok_inj in E. apply ok_inj in H.
    subst x. pose proof (by_cases mac_fn_eqb mac_fn_eqb_eq mac_table (fun v => match v with 0 => Some MacHmacSha256 | 1 => Some MacCmacAes | _ => None end) 4 eq_refl (nth 1 d 0 mod 4) ltac:(lia)) as M.
    cbn beta in M. rewrite H in M. exact M.
  - unfold kroot_key_size in H. bind_inv H. pose proof (bits_at_in _ _ _ _ E) as Hl.
    rewrite (bits_at_one d 2 0 4 16 20 (fun x => x / 16) eq_refl eq_refl Hd) in E by (lia || exact byte_high). apply ok_inj in E. apply ok_inj in H.
    subst x. pose proof (by_cases Nat.eqb nat_eqb_eq key_size_table (fun v => match v with
      | 0 => Some 96%nat | 1 => Some 104%nat | 2 => Some 112%nat | 3 => Some 120%nat
      | 4 => Some 128%nat | 5 => Some 160%nat | 6 => Some 192%nat | 7 => Some 224%nat
      | 8 => Some 256%nat | _ => None
      end) 16 eq_refl (nth 2 d 0 / 16) ltac:(lia)) as M.
    cbn beta in M. rewrite H in M. exact M.
  - unfold kroot_tag_size in H. bind_inv H. pose proof (bits_at_in _ _ _ _ E) as Hl.
    rewrite (bits_at_one d 2 4 8 20 24 (fun x => x mod 16) eq_refl eq_refl Hd) in E by (lia || exact byte_low). apply ok_inj in E. apply ok_inj in H.
    subst x. pose proof (by_cases Nat.eqb nat_eqb_eq tag_size_table (fun v => match v with
      | 5 => Some 20%nat | 6 => Some 24%nat | 7 => Some 28%nat | 8 => Some 32%nat
      | 9 => Some 40%nat | _ => None
      end) 16 eq_refl (nth 2 d 0 mod 16) ltac:(lia)) as M.
    cbn beta in M. rewrite H in M. exact M.
Qed.

Section Crypto.
Context {C : crypto} {B : build}.
Hypothesis HC : crypto_ok C.

(** ** Keys *)

Lemma validate_key_says self other e : key_ok self -> key_ok other -> validate_key self other = Ok (RErr e) ->
  match e with
  | DifferentChain => k_chain self <> k_chain other
  | _ => k_chain self = k_chain other /\ key_error_documented self other e
  end.
Proof.
  intros Hs Ho H. pose proof Hs as [Hsc (Hsd & _) Hsg Hss]. pose proof Ho as [Hoc (Hod & _) Hog Hos].
  pose proof H as Hbad.
  unfold validate_key in H. destruct (chain_eqb (k_chain self) (k_chain other)) eqn:Ec; cbn [negb] in H.
  2:{ injection H as <-. intros K. rewrite K, (proj2 (chain_eqb_eq _ _) eq_refl) in Ec. discriminate. }
  apply chain_eqb_eq in Ec.
  pose proof (gst_ltb_time _ _ Hsg Hog) as Hlt.
  pose proof (subframes_difference_exact _ _ Hog Hsg Hos Hss) as Hd.
  set (dd := subframes_difference (k_gst other) (k_gst self)) in *.
  destruct (gst_ltb (k_gst self) (k_gst other)) eqn:El; cbn [negb] in H.
  2:{ injection H as <-. split; [exact Ec|]. cbn [key_error_documented].
      destruct (Z.le_gt_cases (time_of (k_gst other)) (time_of (k_gst self))) as [K|K]; [exact K|].
      assert (false = true) by (apply Hlt; lia). discriminate. }
  assert (Hlt' : time_of (k_gst self) < time_of (k_gst other)) by now apply Hlt.
  unfold assert_ in H. replace (1 <=? dd) with true in H by lia. cbn [bind] in H.
  destruct (3000 <? dd) eqn:E3.
  { injection H as <-. split; [exact Ec|]. cbn [key_error_documented]. lia. }
  assert (He : e = WrongOneWayFunction).
  { bind_inv H. destruct (gst_eqb (k_gst x) (k_gst self)); [|discriminate]. cbn [bind] in H. bind_inv H. bind_inv H.
    destruct (bytes_eqb x0 x1); [discriminate|]. now injection H as <-. }
  subst e. split; [exact Ec|]. cbn [key_error_documented]. exists (Z.to_nat dd). split; [lia|]. split; [lia|].
  intros Hk. destruct (validate_key_exact HC self other Hs Ho) as (r & Er & _ & Hr).
  rewrite Hbad in Er. apply ok_inj in Er. subst r. destruct (proj2 Hr) as (k & K); [|discriminate].
  split; [auto|]. exists (Z.to_nat dd). split; [lia|]. split; [lia|exact Hk].
Qed.

(** ** DSM-KROOT *)

Lemma key_from_dsm_kroot_says h d pk e : is_byte h -> Forall is_byte d ->
  (forall k521, pk = VkP521 k521 -> feature_p521 = true) ->
  key_from_dsm_kroot h d pk = Ok (RErr e) -> kroot_error_documented h d pk e.
Proof.
  intros Hh Hd H521 H. unfold key_from_dsm_kroot in H. bind_inv H. destruct x as [c|].
  2:{ injection H as <-. cbn [kroot_error_documented]. destruct (kroot_codes d Hd) as (K1 & K2 & K3 & K4).
      unfold chain_from_dsm_kroot in E. bind_inv E. destruct x; [|left; exact (K1 E0)].
      bind_inv E. destruct x; [|right; left; exact (K2 E1)].
      bind_inv E. destruct x; [|right; right; left; exact (K3 E2)]. bind_inv E.
      bind_inv E. destruct x0; [|right; right; right; exact (K4 E4)].
      bind_inv E. bind_inv E. bind_inv E. discriminate. }
  bind_inv H. rename x into pad, E0 into Ep.
  assert (HL : exists f, kroot_layout d f).
  { unfold kroot_check_padding in Ep. bind_inv Ep. bind_inv Ep. unfold kroot_digital_signature in E1. bind_inv E1. bind_inv E1.
    destruct (ecdsa_function_layout d x1 Hd E2) as (f & HL & _). exists f. exact HL. }
  destruct HL as (f & HL).
  destruct (kroot_message_layout d f HL Hd h Hh) as (m & Em & Hm).
  destruct (kroot_check_padding_layout HC d f HL Hd h m Em) as (r & Er & Hr).
  rewrite Ep in Er. apply ok_inj in Er. subst r.
  destruct pad; cbn [negb] in H.
  2:{ injection H as <-. exists f, m. split; [exact HL|]. split; [exact Hm|]. intros K. apply Hr in K. discriminate. }
  rewrite (kroot_ecdsa_layout d f HL Hd) in H. cbn [bind] in H.
  pose proof (kl_sig _ _ HL) as Hs.
  destruct pk as [k|k].
  - pose proof (check_p256 d f HL Hd h k m Hh Hm) as Hc.
    destruct (Nat.eqb_spec (List.length (kf_sig f)) 64) as [E64|E64].
    + rewrite Hc in H. cbn [andb] in H. destruct (p256_sig_parses (kf_sig f)); [|discriminate].
      cbn [bind] in H. destruct (p256_verify k m (kf_sig f)) eqn:Ev; cbn [bind] in H.
      * repeat bind_inv H. discriminate.
      * injection H as <-. exists f, m. split; [exact HL|]. split; [exact Hm|]. split; [exact E64|exact Ev].
    + cbn [bind] in H. injection H as <-. exists f. split; [exact HL|]. lia.
  - pose proof (check_p521 d f HL Hd h k m Hh Hm) as Hc. rewrite (H521 k eq_refl) in H.
    destruct (Nat.eqb_spec (List.length (kf_sig f)) 64) as [E64|E64].
    + cbn [bind] in H. injection H as <-. exists f. split; [exact HL|]. exact E64.
    + assert (E132 : List.length (kf_sig f) = 132%nat) by lia. rewrite Hc, E132 in H. cbn [andb Nat.eqb] in H.
      destruct (p521_sig_parses (kf_sig f)); [|discriminate].
      cbn [bind] in H. destruct (p521_verify k m (kf_sig f)) eqn:Ev; cbn [bind] in H.
      * repeat bind_inv H. discriminate.
      * injection H as <-. exists f, m. split; [exact HL|]. split; [exact Hm|]. split; [exact E132|exact Ev].
Qed.

(** ** DSM-PKR *)

Lemma pkr_type_code d t : Forall is_byte d -> pkr_new_public_key_type d = Ok t ->
  (130 <= List.length d)%nat /\ t = npkt_of (nth 129 d 0 / 16).
Proof.
  intros Hd H. unfold pkr_new_public_key_type in H. bind_inv H. pose proof (bits_at_in _ _ _ _ E) as Hl.
  split; [lia|]. change 1036%nat with (8 * 129 + 4)%nat in E. change 1032%nat with (8 * 129)%nat in E.
  rewrite (bits_at_nibble d 129 Hd) in E by lia. apply ok_inj in E. apply ok_inj in H. subst x.
  pose proof (nth_is_byte d 129 Hd) as Hb. unfold is_byte in Hb. subst t.
  assert (Hr : 0 <= nth 129 d 0 / 16 < 16) by lia. set (v := nth 129 d 0 / 16) in *. clearbody v. clear -Hr.
  destruct v as [|p|p]; try lia; try reflexivity. do 4 (try (destruct p as [p|p|]; try reflexivity)); lia.
Qed.

Lemma npkt_reserved v : npkt_of v = NpktReserved -> reserved npkt_table v.
Proof.
  unfold npkt_of, reserved, npkt_table. intros H x K. cbn [In] in K.
  destruct K as [K|[K|[K|[]]]]; apply pair_equal_spec in K; destruct K as (<- & _); discriminate H.
Qed.

Lemma merkle_validate_says root d e : Forall is_byte d -> merkle_validate root d = Ok (RErr e) ->
  e <> PkrNoPublicKey /\ e <> PkrNotAlert /\ pkr_error_documented root d e.
Proof.
  intros Hd H. unfold merkle_validate in H. bind_inv H. destruct x as [leaf|].
  2:{ injection H as <-. split; [discriminate|]. split; [discriminate|]. cbn [pkr_error_documented].
      unfold pkr_merkle_tree_leaf in E. bind_inv E. destruct x as [n|]; [bind_inv E; discriminate|].
      unfold pkr_key_size in E0. bind_inv E0. rename E1 into Et. destruct (pkr_type_code d x Hd Et) as (Hl & ->).
      destruct (npkt_of (nth 129 d 0 / 16)) as [[|]| |] eqn:En; try discriminate.
      - right. bind_inv E0. unfold pkr_number_of_blocks in E1.
        change 4%nat with (8 * 0 + 4)%nat in E1. change 0%nat with (8 * 0)%nat in E1 at 1.
        rewrite (bits_at_nibble d 0 Hd) in E1 by lia. cbn [bind] in E1. apply ok_inj in E1. subst x.
        destruct ((7 <=? nth 0 d 0 / 16) && (nth 0 d 0 / 16 <=? 10)) eqn:Eb; [discriminate|].
        set (v := nth 0 d 0 / 16) in *. clearbody v. clear -Eb. unfold reserved, nb_dp_table. intros x K. cbn [In] in K.
        destruct K as [K|[K|[K|[K|[]]]]]; apply pair_equal_spec in K; destruct K as (<- & _); discriminate Eb.
      - left. now apply npkt_reserved. }
  destruct (pkr_leaf_inv d leaf Hd E) as (f & HL).
  assert (Hv : merkle_validate root d = Ok (RErr e)) by (unfold merkle_validate; rewrite E; exact H).
  rewrite (merkle_validate_layout root d f HL) in Hv.
  destruct (bytes_eqb (sha256 (path_input f 4)) root) eqn:Eb; [discriminate|].
  injection Hv as <-. split; [discriminate|]. split; [discriminate|]. exists f. split; [exact HL|].
  intros K. rewrite K, bytes_eqb_refl in Eb. discriminate.
Qed.

Lemma npkt_of_inv v t : npkt_of v = t ->
  match t with
  | NpktEcdsaKey P256Sha256 => v = 1
  | NpktEcdsaKey P521Sha512 => v = 3
  | NpktAlert => v = 4
  | NpktReserved => v <> 1 /\ v <> 3 /\ v <> 4
  end.
Proof.
  intros <-. unfold npkt_of. destruct (Z.eqb_spec v 1); [auto|]. destruct (Z.eqb_spec v 3); [auto|].
  destruct (Z.eqb_spec v 4); auto.
Qed.

Lemma validate_pkr_says root d e : Forall is_byte d -> validate_pkr root d = Ok (RErr e) ->
  e <> PkrNotAlert /\ pkr_error_documented root d e.
Proof.
  intros Hd H. unfold validate_pkr in H. bind_inv H. destruct (pkr_type_code d x Hd E) as (Hl & Ex).
  symmetry in Ex. apply npkt_of_inv in Ex. destruct x as [fn| |].
  2,3: injection H as <-; split; [discriminate|]; cbn [pkr_error_documented]; lia.
  bind_inv H. destruct x as [[]|e'].
  2:{ injection H as <-. destruct (merkle_validate_says root d e' Hd E0) as (_ & K2 & K3). auto. }
  unfold pubkey_from_pkr in H. bind_inv H. bind_inv H. rewrite E in H. cbn [bind] in H. destruct fn.
  - bind_inv H. bind_inv H. discriminate.
  - destruct feature_p521 eqn:Ef; [bind_inv H; bind_inv H; discriminate|]. injection H as <-.
    split; [discriminate|]. cbn [pkr_error_documented]. auto.
Qed.

Lemma validate_alert_says root d e : Forall is_byte d -> validate_alert_message root d = Ok (RErr e) ->
  match e with
  | PkrNoPublicKey => nth 129 d 0 / 16 <> 4
  | _ => nth 129 d 0 / 16 = 4 /\ pkr_error_documented root d e
  end.
Proof.
  intros Hd H. unfold validate_alert_message in H. bind_inv H. destruct (pkr_type_code d x Hd E) as (Hl & Ex).
  symmetry in Ex. apply npkt_of_inv in Ex. destruct x as [fn| |].
  1,3: injection H as <-; try destruct fn; lia.
  destruct (merkle_validate_says root d e Hd H) as (K1 & K2 & K3). destruct e; auto; now destruct K1.
Qed.

(** ** MACK *)

Section Mack.
Variables (data : list Z) (ks ts : nat).
Hypothesis Hdata : List.length data = 60%nat.
Hypothesis Hsizes : sizes_ok ks ts.
Let m := mack_new data ks ts.
Let nt := mack_num_tags m.
Let bits := bits_of_bytes data.

Lemma validate_adkd_says c prna g j t e codes prnd adkd cop :
  (1 <= j < nt)%nat -> mack_tag_and_info m j = Ok t ->
  0 <= prnd < 256 -> 0 <= adkd < 16 -> 0 <= cop < 16 ->
  info_at bits ts j = be 8 prnd ++ be 4 adkd ++ be 4 cop ->
  icd_sequence (ch_maclt c) (half_minute g) = Some codes ->
  validate_adkd c j t prna g = Ok (RErr e) ->
  match e with
  | AdkdMacLT InvalidMaclt => False
  | AdkdMacLT InvalidTagNumber => (List.length codes <= j)%nat
  | WrongAdkd => exists code a, nth_error codes j = Some code /\ code_adkd code = Some a /\ adkd <> a
  | WrongPrnd => exists code, nth_error codes j = Some code /\ code_adkd code = Some adkd /\
                   (~ 1 <= prnd <= 36 \/ code_self code = true /\ prnd <> prna)
  end.
Proof.
  intros Hj Et Hp Ha Hcop Hi Hs H.
  destruct (tag_at_spec data ks ts Hdata Hsizes j Hj) as (t' & Et' & Hl & Hinfo & _). fold m in Et'. rewrite Et in Et'. injection Et' as <-.
  fold bits in Hinfo. rewrite Hi in Hinfo. destruct (info_values data ks ts Hdata t prnd adkd cop) as (V1 & V2 & _); auto; [lia|].
  unfold validate_adkd in H.
  pose proof (get_maclt_entry_icd (ch_maclt c) (half_minute g) j (half_minute_lt g) ltac:(lia)) as G.
  rewrite Hs in G. destruct (nth_error codes j) as [code|] eqn:Hcode.
  2:{ rewrite G in H. cbn [bind] in H. injection H as <-. now apply nth_error_None. }
  destruct (icd_codes _ _ _ _ _ Hs Hcode) as (Nq & N4).
  destruct G as (s & Gs & Hsc). rewrite Gs in H. cbn [bind] in H.
  rewrite (prnd_of_value t prnd V1), (adkd_of_value t adkd V2) in H.
  unfold num_svns in H. change (Z.of_nat 36) with 36 in H. subst code.
  destruct s as [a o|]; cbn [slot_code] in H; [|discriminate].
  assert (Hinv : (e = WrongAdkd /\ (if adkd =? 0 then AdkdInavCed else if adkd =? 4 then AdkdInavTiming
               else if adkd =? 12 then AdkdSlowMac else AdkdReserved) <> a) \/
            (e = WrongPrnd /\ (if adkd =? 0 then AdkdInavCed else if adkd =? 4 then AdkdInavTiming
               else if adkd =? 12 then AdkdSlowMac else AdkdReserved) = a /\
             (~ 1 <= prnd <= 36 \/ o = SelfAuth /\ prnd <> prna))).
  { set (x := if adkd =? 0 then AdkdInavCed else _) in *. clearbody x.
    destruct (adkd_eqb x a) eqn:Ea; cbn [negb] in H.
    - right. assert (x = a) by (destruct x, a; (reflexivity || discriminate)).
      destruct ((1 <=? prnd) && (prnd <=? 36)) eqn:P1; try rewrite P1 in H.
      + destruct o, (prnd =? prna) eqn:P2; cbn [auth_object_eqb andb negb] in H; try discriminate;
          injection H as <-; (split; [reflexivity|]; split; [assumption|]; right; split; [reflexivity|lia]).
      + destruct (prnd =? 255); injection H as <-; (split; [reflexivity|]; split; [assumption|]; left; lia).
    - left. injection H as <-. split; [reflexivity|]. intros ->. destruct a; discriminate. }
  clear H V1 V2. destruct Hinv as [(-> & Hne)|(-> & Hx & Hq)].
  - destruct a, o; cbn [slot_code] in *; try (exfalso; congruence);
    (eexists _, _; split; [reflexivity|]; split; [reflexivity|]; intros K; rewrite K in Hne; exact (Hne eq_refl)).
  - assert (Hadkd : match a with AdkdInavCed => adkd = 0 | AdkdInavTiming => adkd = 4 | AdkdSlowMac => adkd = 12 | AdkdReserved => True end).
    { destruct (Z.eqb_spec adkd 0); [subst a; assumption|]. destruct (Z.eqb_spec adkd 4); [subst a; assumption|].
      destruct (Z.eqb_spec adkd 12); subst a; auto. }
    destruct a, o; cbn [slot_code] in *; try (exfalso; congruence); subst adkd;
      (eexists; split; [reflexivity|]; split; [reflexivity|];
       destruct Hq as [Hq|(Hq & Hq')]; [left; exact Hq|first [discriminate Hq|right; split; [reflexivity|exact Hq']]]).
Qed.

Lemma validate_adkds_says k prna g js e codes : Forall (fun j => (1 <= j < nt)%nat) js ->
  icd_sequence (ch_maclt (k_chain k)) (half_minute g) = Some codes ->
  validate_adkds k m prna g js = Ok (RErr e) ->
  exists l1 j l2 e', js = l1 ++ j :: l2 /\ e = MackWrongAdkd j e' /\
    validate_adkds k m prna g l1 = Ok (ROk tt) /\
    exists t, mack_tag_and_info m j = Ok t /\ validate_adkd (k_chain k) j t prna g = Ok (RErr e').
Proof.
  intros Hjs Hs. induction Hjs as [|j js Hj Hjs IH]; cbn [validate_adkds]; intros H; [discriminate|].
  bind_inv H. bind_inv H. destruct x0 as [[]|e'].
  - destruct (IH H) as (l1 & j' & l2 & e' & -> & -> & H1 & H2). exists (j :: l1), j', l2, e'.
    split; [reflexivity|]. split; [reflexivity|]. split; [|exact H2]. cbn [validate_adkds]. rewrite E. cbn [bind].
    rewrite E0. cbn [bind]. exact H1.
  - injection H as <-. exists [], j, js, e'. split; [reflexivity|]. split; [reflexivity|]. split; [reflexivity|]. eauto.
Qed.

Lemma seq_split_at a n l1 j l2 : seq a n = l1 ++ j :: l2 -> l1 = seq a (j - a) /\ (a <= j)%nat.
Proof.
  revert a n. induction l1 as [|x l1 IH]; intros a n H.
  - destruct n; [discriminate|]. cbn [seq app] in H. injection H as -> _. now rewrite Nat.sub_diag.
  - destruct n; [discriminate|]. cbn [seq app] in H. injection H as -> H. apply IH in H. destruct H as (-> & Hj).
    split; [|lia]. replace (j - x)%nat with (Datatypes.S (j - Datatypes.S x)) by lia. reflexivity.
Qed.

Lemma mack_validate_says k prna g e : key_ok k -> mac_usable k -> gst_ok g -> is_byte prna ->
  flx_in_range data ks ts (k_chain k) g ->
  mack_validate m k prna g = Ok (RErr e) ->
  mack_error_documented (k_chain k) (key_bytes k) prna (time_of g) data ks ts e.
Proof.
  intros Hk Hu Hg Hp Hf H. unfold mack_validate in H.
  destruct (validate_macseq_spec HC data ks ts Hdata Hsizes k prna g Hk Hu Hg Hp Hf) as (r & Er & Hr).
  fold m in Er. rewrite Er in H. cbn [bind] in H. fold bits in Hr.
  unfold mack_error_documented. fold bits. rewrite <- (half_minute_time g Hg).
  assert (Hnt : nt = ((480 - ks) / (ts + 16))%nat) by reflexivity. rewrite <- Hnt.
  destruct r as [[]|em].
  2:{ injection H as <-. destruct em as [le|].
      - unfold validate_macseq in Er. bind_inv Er. rewrite get_flx_indices_positions in Er by apply half_minute_lt.
        destruct (icd_sequence (ch_maclt (k_chain k)) (half_minute g)) as [codes|] eqn:Ecodes; cbn [bind] in Er.
        + bind_inv Er. bind_inv Er. bind_inv Er. destruct (bits_eqb _ _); discriminate.
        + injection Er as <-. reflexivity.
      - destruct (icd_sequence (ch_maclt (k_chain k)) (half_minute g)) as [codes|] eqn:Ecodes.
        + exists codes. split; [reflexivity|]. intros K.
          assert (Q : RErr WrongMacseq = (ROk tt : result unit macseq_error)) by (apply Hr; eauto). discriminate Q.
        + exfalso. unfold validate_macseq in Er. bind_inv Er. rewrite get_flx_indices_positions in Er by apply half_minute_lt.
          rewrite Ecodes in Er. cbn [bind] in Er. discriminate. }
  destruct (proj1 Hr eq_refl) as (codes & Hc & Ht). clear Hr.
  assert (Hjs : Forall (fun j => (1 <= j < nt)%nat) (seq 1 (nt - 1))).
  { apply Forall_forall. intros j Hj. apply in_seq in Hj. lia. }
  fold nt in H. bind_inv H. destruct x as [[]|e0]; [discriminate|]. injection H as ->. rename E into Ea.
  destruct (validate_adkds_says k prna g _ e codes Hjs Hc Ea) as (l1 & j & l2 & e' & Ejs & -> & E1 & t & Et & Ev).
  destruct (seq_split_at _ _ _ _ _ Ejs) as (El1 & Hj1).
  assert (Hj : (1 <= j < nt)%nat).
  { rewrite Ejs in Hjs. apply Forall_app in Hjs. destruct Hjs as (_ & Hjs). now inversion Hjs. }
  split; [exact Hj|]. exists codes. split; [exact Hc|]. split; [exact Ht|].
  assert (Hl1 : Forall (fun j => (1 <= j < nt)%nat) l1).
  { rewrite Ejs in Hjs. now apply Forall_app in Hjs. }
  split.
  { intros i Hi. destruct (proj1 (validate_adkds_spec data ks ts Hdata Hsizes k prna g l1 codes Hl1 Hc) E1 i) as (code & prnd & adkd & cop & Q1 & Q2 & Q3 & Q4 & Q5).
    - rewrite El1. apply in_seq. lia.
    - exists code, prnd, adkd. split; [|exact Q5]. split; [exact Q1|]. split; [exact Q2|]. split; [exact Q3|]. exists cop. exact Q4. }
  destruct (info_fields data ks ts Hdata Hsizes j ltac:(exact (proj2 Hj))) as (prnd & adkd & cop & R1 & R2 & R3 & Ei).
  pose proof (validate_adkd_says (k_chain k) prna g j t e' codes prnd adkd cop Hj Et R1 R2 R3 Ei Hc Ev) as Hsay.
  destruct e' as [[|]| |].
  - exact Hsay.
  - exact Hsay.
  - destruct Hsay as (code & a & S1 & S2 & S3). exists code, prnd, adkd, a. split; [|auto].
    split; [exact S1|]. split; [exact R1|]. split; [exact R2|]. exists cop. exact Ei.
  - destruct Hsay as (code & S1 & S2 & S3). exists code, prnd, adkd. split; [|auto].
    split; [exact S1|]. split; [exact R1|]. split; [exact R2|]. exists cop. exact Ei.
Qed.
End Mack.
End Crypto.

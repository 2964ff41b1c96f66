(** Property C55: whoever receives a correct transmission gets authenticated data. *)
From Coq Require Import ZArith String List Bool Lia.
From Verif Require Import Model.Prelude Model.Params Model.Gst Model.Svn Model.Bitfields Model.Tesla Model.Merkle
  Model.Dsm Model.MackStore Model.Nav Model.Osnma
  Spec.TimeSpec Spec.CollectSpec Spec.NavSpec Spec.TeslaSpec Spec.KrootSpec Spec.KeySpec Spec.SystemSpec Spec.StoredSpec
  Spec.CompleteSpec Spec.PanicSpec Spec.HonestSpec
  Proofs.Base Proofs.GstProofs Proofs.TeslaProofs Proofs.KrootProofs Proofs.StoredProofs Proofs.HonestKeys Proofs.HonestProofs
  Examples.Vectors Props.SystemProps Examples.Demo Examples.Toy Examples.Transmit Props.KeyProps Props.CompleteProps Props.PanicProps.
Import ListNotations.
Open Scope list_scope.
Open Scope Z_scope.
Local Existing Instance toy_crypto.

(** ** C55 *)

(** A receiver that starts with the right public key receives a transmission: every subframe
    that it receives completely is of the transmission, in the order of time; the navigation data
    and the words of incomplete subframes may be anything.  It never panics.  As soon as it
    has received a DSM-KROOT (in any order, possibly mixed with incomplete ones, and starting
    at any subframe of the transmission) it holds, after each complete subframe, the key disclosed
    in that subframe.  The transmission may have any length, and its DSM-KROOT may be replaced by
    newer ones; there must be no gap of more than 25 hours in the reception. *)
Theorem C55_key_of_each_subframe :
  forall (C : crypto) (B : build) (S : storage), crypto_ok C -> storage_ok S ->
  forall pk slow t h, transmission_ok pk t -> Forall op_ok h -> honest t h ->
  (exists o, run (osnma_new None (Some pk) slow) h = Ok o) /\
  forall p x q hkroot mack g, h = p ++ x :: q -> in_subframe_order h -> no_long_gap t (kroot_received t) (p ++ [x]) ->
  completes p x hkroot mack g -> kroot_received t (p ++ [x]) ->
  (forall y, In y q -> subframe_of (op_gst y) = g) ->
  exists o key, run (osnma_new None (Some pk) slow) h = Ok o /\ current_key (o_keys o) = Some key /\ k_gst key = g /\
    k_chain key = tr_chain t /\ key_bytes key = tr_key t (time_of g).
Proof.
  intros C B S HC HS pk slow t h Ht Hok Hh. split.
  - destruct (honest_run HC HS pk t Ht None (Some pk) slow h Hok (hears_pubkey pk t None h Hh (or_introl eq_refl))) as (o & Hr & _). exists o. exact Hr.
  - intros p x q hk mk g E Hord Hgap Hc Hrec. apply (received_pubkey pk t None) in Hrec. apply (no_long_gap_pubkey pk t None) in Hgap.
    exact (honest_key HC HS pk t Ht None (Some pk) slow h p x q hk mk g E Hok Hord (hears_pubkey pk t None h Hh (or_introl eq_refl)) Hgap Hc Hrec).
Qed.

(** The receiver receives, in order:
    - [hA]: anything of the transmission;
    - [hN], in the subframe [gn]: all the words of the data [bits] of the satellite [svn], and
      anything else;
    - [hM], in the next subframe [gm]: a complete subframe of some satellite [prna] whose MACK
      message has a valid tag for [bits], and anything else;
    - [p] and [x], in later subframes, up to the subframe [g] in which the key of the tag is
      disclosed, one subframe later (11 for Slow MAC); [x] completes this subframe of some
      satellite;
    - [q]: anything, while the storage has room for the subframe [gn].
    By then a DSM-KROOT has been received; it may be in any part, even in the last subframe.
    The storage has an entry for each satellite received: 36 are always enough ([room_36_ops]).

    Then the getter returns data for the satellite.  It is [bits] if the words of the satellite
    after [hN] repeat the data. *)
Theorem C55_honest_reception_authenticates :
  forall (C : crypto) (B : build) (S : storage), crypto_ok C -> storage_ok S ->
  forall pk slow t hA hN hM p x q k svn bits gn gm g delay adkd cop tag prna hk1 mk1 hk2 mk2,
  let h := hA ++ hN ++ hM ++ p ++ x :: q in
  room_for (map op_svn h) -> delay < 30 * Z.of_nat mack_depth -> delay + 30 < 30 * Z.of_nat nav_depth ->
  transmission_ok pk t -> honest t h -> no_long_gap t (kroot_received t) (hA ++ hN ++ hM ++ p ++ [x]) ->
  Forall op_ok h -> in_subframe_order h -> (forall w, In w (inav_words h) -> 1 <= g_wn (nw_gst w)) ->
  1 <= svn <= 36 -> adkd_means adkd k delay -> (slow = true -> adkd = 12) -> 0 < cop < 16 -> (40 <= length tag)%nat ->
  (forall y, In y hN -> subframe_of (op_gst y) = gn) -> icd_data k (words_of svn (inav_words hN)) = Some bits ->
  (forall y, In y hM -> subframe_of (op_gst y) = gm) -> time_of gm = time_of gn + 30 ->
  (exists m1 data gk m2, hM = m1 ++ FeedOsnma data prna gk :: m2 /\
     completes (hA ++ hN ++ m1) (FeedOsnma data prna gk) hk1 mk1 gm) ->
  tag_transmitted t hk1 mk1 prna gm delay svn adkd cop bits tag ->
  time_of g = time_of gm + delay -> completes (hA ++ hN ++ hM ++ p) x hk2 mk2 g ->
  kroot_received t (hA ++ hN ++ hM ++ p ++ [x]) ->
  (forall y, In y p -> time_of gm < time_of (subframe_of (op_gst y))) ->
  (forall y, In y q -> time_of (subframe_of (op_gst y)) < time_of gn + 30 * Z.of_nat nav_depth) ->
  exists o d, run (osnma_new None (Some pk) slow) h = Ok o /\ getter k o svn = Ok (Some d) /\
    (repeats k svn bits (inav_words (hM ++ p ++ x :: q)) -> nd_data d = bits).
Proof.
  intros C B S HC HS pk slow t hA hN hM p x q k svn bits gn gm g delay adkd cop tag prna hk1 mk1 hk2 mk2 h
    Hroom Hmd Hnd Ht Hh Hgap Hok Hord Hwn Hsvn Had Hsl Hcop Htl HN Hdata HM Et Hcm Htag Eg Hc Hrec.
  apply (received_pubkey pk t None) in Hrec. apply (no_long_gap_pubkey pk t None) in Hgap.
  exact (honest_authenticates HC HS pk t Ht None (Some pk) slow hA hN hM p x q k svn bits gn gm g delay adkd cop tag prna hk1 mk1 hk2 mk2
           Hroom Hmd Hnd Hok Hord Hwn (hears_pubkey pk t None h Hh (or_introl eq_refl)) Hgap Hsvn Had Hsl Hcop Htl HN Hdata HM Et Hcm Htag Eg Hc Hrec).
Qed.

(** *** The hypotheses can be met *)

(** The transmission of the examples: chain 1, of which 31 keys are used. *)
Definition c55_kroot : list Z := Eval vm_compute in kroot_msg (tx_header 2 1 1) (pk_bytes 3) 3 chain1 tx_t0.
Definition c55_root : tkey := Eval vm_compute in c33_key_at (tx_t0 - 30).
Definition c55_keys : list (list Z) := Eval vm_compute in map (fun i => tx_key chain1 (tx_t0 - 30 + 30 * Z.of_nat i)) (seq 0 32).
Definition c55_key (t : Z) : list Z := nth (Z.to_nat ((t - (tx_t0 - 30)) / 30)) c55_keys [].
Definition c55_header : Z := Eval vm_compute in tx_header 2 1 1.
Definition c55_m : kroot_message := mkKM 7 c55_header c55_kroot c55_root.
Definition c55_t : transmission := mkTr c33_chain [c55_m] (tx_t0 - 30) c55_key 31.
Definition c55_pk : public_key := Eval vm_compute in tx_pub 3.

Definition c55_f : kroot_fields := Eval vm_compute in
  mkKF 2 3 1 0 0 0 4 9 33 0 1200 2 (ch_alpha c33_chain) (firstn 16 (k_data c55_root))
       (sub 29 93 c55_kroot) (sub 93 104 c55_kroot).
Lemma c55_layout : kroot_layout c55_kroot c55_f.
Proof.
  constructor; try (vm_compute; reflexivity).
  - repeat (constructor; [vm_compute; split; congruence|]). constructor.
  - split; [|split]; apply all_bytes; vm_compute; reflexivity.
  - vm_compute. intuition congruence.
  - left. reflexivity.
  - split; [vm_compute; lia|]. exists 8%nat. reflexivity.
Qed.
Lemma c55_kroot_ok : kroot_verified c55_header c55_f (pk_key c55_pk) /\ kroot_key c55_f c55_root.
Proof.
  assert (E : key_from_dsm_kroot c55_header c55_kroot (pk_key c55_pk) = Ok (ROk c55_root)) by (vm_compute; reflexivity).
  apply (key_from_dsm_kroot_sound toy_crypto_ok) in E;
    [|unfold is_byte, c55_header; lia|apply all_bytes; vm_compute; reflexivity].
  destruct E as (f & F1 & F2 & F3 & _). rewrite (kroot_layout_fun _ _ _ F1 c55_layout) in F2, F3. auto.
Qed.
(** Each key gives the one before. *)
Lemma c55_keys_ok n : (1 <= n <= 31)%nat ->
  List.length (c55_key (tx_t0 - 30 + 30 * Z.of_nat n)) = 16%nat /\
  Forall is_byte (c55_key (tx_t0 - 30 + 30 * Z.of_nat n)) /\
  previous_key c33_chain (c55_key (tx_t0 - 30 + 30 * Z.of_nat n)) (tx_t0 - 30 + 30 * Z.of_nat n)
               (c55_key (tx_t0 - 30 + 30 * (Z.of_nat n - 1))).
Proof.
  intros Hn.
  set (chk := fun n =>
    let t := tx_t0 - 30 + 30 * Z.of_nat n in let key := c55_key t in
    let m := key ++ gst_bytes (t - 30) ++ tx_alpha chain1 in
    (List.length key =? 16)%nat && forallb (fun x => (0 <=? x) && (x <? 256)) m &&
    bits_eqb (bits_of_bytes m) (bits_of_bytes key ++ gst_field (t - 30) ++ be 48 (ch_alpha c33_chain)) &&
    bytes_eqb (c55_key (tx_t0 - 30 + 30 * (Z.of_nat n - 1))) (firstn 16 (toy_sha256 m))).
  assert (H : forallb chk (seq 1 31) = true) by (vm_compute; reflexivity).
  rewrite forallb_forall in H. specialize (H n ltac:(apply in_seq; lia)). unfold chk in H. clear chk.
  rewrite !andb_true_iff in H. destruct H as (((H1 & H2) & H3) & H4).
  apply Nat.eqb_eq in H1. apply all_bytes in H2. apply bits_eqb_eq in H3. apply bytes_eqb_eq in H4.
  split; [exact H1|]. split; [apply Forall_app in H2; apply H2|].
  eexists. split; [|exact H4]. split; [exact H2|]. exists 0%nat. split; [lia|]. now rewrite app_nil_r.
Qed.
Lemma c55_transmission : transmission_ok c55_pk c55_t.
Proof.
  constructor; cbn [c55_t tr_chain tr_kroots tr_start tr_key tr_length].
  - vm_compute. discriminate.
  - split; [repeat constructor; intros []|]. intros m [<-|[]]. constructor; cbn [c55_m km_id km_header km_data km_root].
    + split; [unfold is_byte, c55_header; lia|]. split; [right; reflexivity|]. split; [reflexivity|discriminate].
    + lia.
    + split; [apply all_bytes; vm_compute; reflexivity|]. exists c55_f. split; [exact c55_layout|]. split; [reflexivity|].
      split; [apply c55_kroot_ok|]. split; [apply c55_kroot_ok|]. split; [cbn; lia|]. split; cbn; lia.
    + exists 8%nat. split; reflexivity.
    + split; [reflexivity|]. exists 0%nat. split; [cbn; lia|]. split; vm_compute; reflexivity.
  - exact I.
  - apply chain_fitsb_ok. vm_compute. reflexivity.
  - exact c55_keys_ok.
Qed.

(** A check that all the complete subframes are of the transmission. *)
Definition transmitsb (t : transmission) (hk mk : list Z) (g : gst) : bool :=
  let n := Z.to_nat ((time_of g - tr_start t) / 30) in
  let c := tr_chain t in
  let a := ((480 - 8 * ch_key_bytes c) / (ch_tag_bits c + 16))%nat in
  let i := Z.to_nat (nth 1 hk 0 mod 16) in
  ((12 <=? nth 1 hk 0 / 16) ||
   existsb (fun m => (nth 0 hk 0 =? km_header m) && (13 * (i + 1) <=? List.length (km_data m))%nat &&
     (nth 1 hk 0 =? 16 * km_id m + Z.of_nat i) && bytes_eqb (skipn 2 hk) (firstn 13 (skipn (13 * i) (km_data m))) &&
     (time_of (k_gst (km_root m)) <? time_of g)) (tr_kroots t)) &&
  (1 <=? n)%nat && (n <=? tr_length t)%nat && (time_of g =? tr_start t + 30 * Z.of_nat n) &&
  bits_eqb (bits_of_bytes (key_bytes (tr_tkey t g)))
           (sub ((ch_tag_bits c + 16) * a) ((ch_tag_bits c + 16) * a + 8 * ch_key_bytes c) (bits_of_bytes mk)).
Lemma transmitsb_ok t hk mk g : transmitsb t hk mk g = true -> transmits t hk mk g.
Proof.
  unfold transmitsb. rewrite !andb_true_iff, orb_true_iff, existsb_exists. intros ((((H1 & H5) & H6) & H7) & H8).
  apply Z.eqb_eq in H7. apply Nat.leb_le in H5, H6. apply bits_eqb_eq in H8.
  split.
  { destruct H1 as [H1|(m & Hm & H1)]; [left; now apply Z.leb_le|right]. rewrite !andb_true_iff in H1.
    destruct H1 as ((((H1 & H2) & H3) & H4) & H9).
    apply Z.eqb_eq in H1, H3. apply Nat.leb_le in H2. apply bytes_eqb_eq in H4. apply Z.ltb_lt in H9.
    exists m. split; [exact Hm|]. split; [|exact H9].
    split; [exact H1|]. eexists. split; [exact H2|]. split; [exact H3|exact H4]. }
  split; [|exact H8]. eexists. split; [split; [exact H5|exact H6]|exact H7].
Qed.
Definition honestb (t : transmission) (h : list op) : bool :=
  forallb (fun i => match nth_error h i with
    | Some (FeedOsnma data svn g) =>
        match expected_subframe (osnma_words (firstn i h)) (mkWord data svn g) with
        | Some (hk, mk, g) => transmitsb t hk mk g
        | None => true
        end
    | _ => true end) (seq 0 (List.length h)).
Lemma honestb_ok t h : honestb t h = true -> honest t h.
Proof.
  unfold honestb. rewrite forallb_forall. intros H h1 x h2 hk mk g -> (data & svn & gk & -> & _ & E).
  specialize (H (List.length h1)). rewrite in_seq, app_length in H. cbn [List.length] in H. specialize (H ltac:(lia)).
  rewrite nth_error_app2, Nat.sub_diag in H by lia. cbn [nth_error] in H.
  rewrite firstn_app, Nat.sub_diag, firstn_O, app_nil_r, firstn_all, E in H. now apply transmitsb_ok.
Qed.
Fixpoint take_dsm (id : Z) (bl : list block) : list block :=
  match bl with b :: r => if b_dsm b =? id then b :: take_dsm id r else [] | [] => [] end.
Lemma take_dsm_prefix id bl : exists r, bl = take_dsm id bl ++ r.
Proof.
  induction bl as [|b bl (r & IH)]; [exists []; reflexivity|]. cbn [take_dsm]. destruct (b_dsm b =? id); [|exists (b :: bl); reflexivity].
  exists r. cbn [app]. now rewrite <- IH.
Qed.
Lemma take_dsm_id id bl b : In b (take_dsm id bl) -> b_dsm b = id.
Proof.
  induction bl as [|c bl IH]; [contradiction|]. cbn [take_dsm]. destruct (b_dsm c =? id) eqn:E; [|contradiction].
  intros [<-|H]; [now apply Z.eqb_eq|now apply IH].
Qed.
(** The first blocks received are all of one DSM-KROOT. *)
Definition kroot_receivedb (t : transmission) (h : list op) : bool :=
  let bl := blocks_received (osnma_words h) in
  existsb (fun m =>
    forallb (fun i => existsb (fun b => b_num b =? Z.of_nat i) (take_dsm (km_id m) bl)) (seq 0 (List.length (km_data m) / 13)) &&
    (List.length (km_data m) mod 13 =? 0)%nat) (tr_kroots t).
Lemma kroot_receivedb_ok t h : kroot_receivedb t h = true -> kroot_received t h.
Proof.
  unfold kroot_receivedb. rewrite existsb_exists. intros (m & Hm & H). rewrite andb_true_iff, forallb_forall, Nat.eqb_eq in H.
  destruct H as (H2 & H3). destruct (take_dsm_prefix (km_id m) (blocks_received (osnma_words h))) as (r & Er).
  exists m, [], (take_dsm (km_id m) (blocks_received (osnma_words h))), r.
  split; [exact Hm|]. split; [exact Er|]. split; [apply take_dsm_id|].
  intros i Hi. specialize (H2 i). rewrite in_seq in H2.
  assert (Hi' : (i < List.length (km_data m) / 13)%nat).
  { pose proof (Nat.div_mod (List.length (km_data m)) 13 ltac:(lia)). lia. }
  specialize (H2 ltac:(lia)). apply existsb_exists in H2. destruct H2 as (b & Hb & E). exists b. split; [exact Hb|]. now apply Z.eqb_eq.
Qed.
Lemma all_in_subframe l g : forallb (fun y => gst_eqb (subframe_of (op_gst y)) g) l = true ->
  forall y, In y l -> subframe_of (op_gst y) = g.
Proof. rewrite forallb_forall. intros H y Hy. apply gst_eqb_eq. now apply H. Qed.

(** The nominal sequence: words, a subframe with the DSM-KROOT in blocks from 8 satellites, a
    subframe of one satellite. *)
Definition c55_N : list op := Eval vm_compute in firstn 14 tx_nominal.
Definition c55_M : list op := Eval vm_compute in firstn 120 (skipn 14 tx_nominal).
Definition c55_p : list op := Eval vm_compute in firstn 14 (skipn 134 tx_nominal).
Definition c55_x : op := Eval vm_compute in last tx_nominal (FeedOsnma [] 0 (gst_at 0)).
Definition c55_hk1 : list Z := Eval vm_compute in tx_block (tx_header 2 1 1) 7 c55_kroot 0.
Definition c55_bits : list bool := Eval vm_compute in tx_ced demo_nav2.
Definition c55_M1 : list op := Eval vm_compute in firstn 112 c55_M.
Definition c55_M2 : list op := Eval vm_compute in skipn 113 c55_M.
Definition c55_data : list Z := Eval vm_compute in match nth_error c55_M 112 with Some (FeedOsnma d _ _) => d | _ => [] end.
Example c55_nominal : c55_N ++ c55_M ++ c55_p ++ [c55_x] = tx_nominal.
Proof. reflexivity. Qed.
Lemma inb_ok (l l' : list Z) : forallb (fun s => existsb (Z.eqb s) l') l = true -> forall s, In s l -> In s l'.
Proof.
  rewrite forallb_forall. intros H s Hs. specialize (H s Hs). apply existsb_exists in H. destruct H as (y & Hy & E).
  now apply Z.eqb_eq in E; subst y.
Qed.
Example C55_example_fast :
  let h := [] ++ c55_N ++ c55_M ++ c55_p ++ c55_x :: [] in
  storage_ok small_storage /\ room_for (S := small_storage) (map op_svn h) /\
  30 < 30 * Z.of_nat (mack_depth (storage := small_storage)) /\ 30 + 30 < 30 * Z.of_nat (nav_depth (storage := small_storage)) /\
  transmission_ok c55_pk c55_t /\ honest c55_t h /\
  no_long_gap c55_t (kroot_received c55_t) ([] ++ c55_N ++ c55_M ++ c55_p ++ [c55_x]) /\ Forall op_ok h /\ in_subframe_order h /\
  (forall w, In w (inav_words h) -> 1 <= g_wn (nw_gst w)) /\
  (forall y, In y c55_N -> subframe_of (op_gst y) = gst_at (tx_t0 - 30)) /\
  icd_data Ced (words_of 2 (inav_words c55_N)) = Some c55_bits /\
  (forall y, In y c55_M -> subframe_of (op_gst y) = gst_at tx_t0) /\
  c55_M = c55_M1 ++ FeedOsnma c55_data 1 (gst_at (tx_t0 + 28)) :: c55_M2 /\
  completes ([] ++ c55_N ++ c55_M1) (FeedOsnma c55_data 1 (gst_at (tx_t0 + 28))) c55_hk1 c33_mack (gst_at tx_t0) /\
  tag_transmitted c55_t c55_hk1 c33_mack 1 (gst_at tx_t0) 30 2 0 1 c55_bits (c33_tag 1) /\
  List.length (c33_tag 1) = 40%nat /\
  completes ([] ++ c55_N ++ c55_M ++ c55_p) c55_x c33_hk c33_mack_x (gst_at (tx_t0 + 30)) /\
  kroot_received c55_t ([] ++ c55_N ++ c55_M ++ c55_p ++ [c55_x]) /\
  (forall y, In y c55_p -> time_of (gst_at tx_t0) < time_of (subframe_of (op_gst y))) /\
  repeats Ced 2 c55_bits (inav_words (c55_M ++ c55_p ++ c55_x :: [])).
Proof.
  split; [repeat split; vm_compute; repeat constructor|].
  split; [exists [1; 2; 3; 4; 5; 6; 7; 8; 9; 10; 11; 12]; split; [vm_compute; repeat constructor|]; apply inb_ok; vm_compute; reflexivity|].
  split; [reflexivity|]. split; [reflexivity|]. split; [exact c55_transmission|].
  assert (Hh : honest c55_t ([] ++ c55_N ++ c55_M ++ c55_p ++ c55_x :: [])) by (apply honestb_ok; vm_compute; reflexivity).
  split; [exact Hh|]. split; [apply (short_no_long_gap c55_pk); [exact c55_transmission|exact Hh|cbn; lia]|]. split; [apply op_okb_ok; vm_compute; reflexivity|].
  split; [apply in_subframe_orderb; vm_compute; reflexivity|].
  split. { assert (H : forallb (fun w => 1 <=? g_wn (nw_gst w)) (inav_words ([] ++ c55_N ++ c55_M ++ c55_p ++ c55_x :: [])) = true) by (vm_compute; reflexivity).
    rewrite forallb_forall in H. intros w Hw. specialize (H w Hw). now apply Z.leb_le. }
  split; [apply all_in_subframe; vm_compute; reflexivity|]. split; [vm_compute; reflexivity|].
  split; [apply all_in_subframe; vm_compute; reflexivity|]. split; [reflexivity|].
  split. { eexists _, _, _. split; [reflexivity|]. split; vm_compute; reflexivity. }
  split. { split; [right; reflexivity|]. split; [exact c33_mack_valid|exact c33_tag_fast]. }
  split; [reflexivity|].
  split. { eexists _, _, _. split; [reflexivity|]. split; vm_compute; reflexivity. }
  split; [apply kroot_receivedb_ok; vm_compute; reflexivity|].
  split. { intros y Hy. rewrite (all_in_subframe c55_p (gst_at (tx_t0 + 30)) ltac:(vm_compute; reflexivity) y Hy). reflexivity. }
  intros w i f [].
Qed.

(** Slow MAC: the second subframe is eleven subframes after the first; the tag is the fifth of
    the MACK message, about satellite 1. *)
Definition c55_slow_p : list op := Eval vm_compute in skipn 134 c33_slow_h.
Definition c55_bits1 : list bool := Eval vm_compute in tx_ced demo_nav1.
Example C55_example_slow :
  let h := [] ++ c55_N ++ c55_M ++ c55_slow_p ++ c33_slow_x :: [] in
  room_for (map op_svn h) /\ 330 < 30 * Z.of_nat mack_depth /\ 330 + 30 < 30 * Z.of_nat nav_depth /\
  honest c55_t h /\ Forall op_ok h /\ in_subframe_order h /\
  icd_data Ced (words_of 1 (inav_words c55_N)) = Some c55_bits1 /\
  tag_transmitted c55_t c55_hk1 c33_mack 1 (gst_at tx_t0) 330 1 12 1 c55_bits1 (c33_tag 4) /\
  completes ([] ++ c55_N ++ c55_M ++ c55_slow_p) c33_slow_x c33_hk c33_slow_mack_x (gst_at (tx_t0 + 330)) /\
  kroot_received c55_t ([] ++ c55_N ++ c55_M ++ c55_slow_p ++ [c33_slow_x]).
Proof.
  split; [apply room_36_ops; [vm_compute; repeat constructor|apply op_okb_ok; vm_compute; reflexivity]|].
  split; [reflexivity|]. split; [reflexivity|].
  split; [apply honestb_ok; vm_compute; reflexivity|]. split; [apply op_okb_ok; vm_compute; reflexivity|].
  split; [apply in_subframe_orderb; vm_compute; reflexivity|]. split; [vm_compute; reflexivity|].
  split. { split; [right; reflexivity|]. split; [exact c33_mack_valid|exact c33_tag_slow]. }
  split. { eexists _, _, _. split; [reflexivity|]. split; vm_compute; reflexivity. }
  apply kroot_receivedb_ok; vm_compute; reflexivity.
Qed.
(** What the theorem says of these. *)
Definition c55_small_get (h : list op) (k : nav_kind) (svn : Z) : outcome (option Z) :=
  o <- run (S := small_storage) (osnma_new (S := small_storage) None (Some c55_pk) false) h ;;
  d <- getter (S := small_storage) k o svn ;; Ok (option_map nd_authbits d).
Example C55_example_results :
  tx_get (run (osnma_new None (Some c55_pk) false) (c55_N ++ c55_M ++ c55_p ++ [c55_x])) Ced 2 = Ok (Some (80, gst_at (tx_t0 - 30))) /\
  tx_get (run (osnma_new None (Some c55_pk) true) (c55_N ++ c55_M ++ c55_slow_p ++ [c33_slow_x])) Ced 1 = Ok (Some (40, gst_at (tx_t0 - 30))) /\
  c55_small_get (c55_N ++ c55_M ++ c55_p ++ [c55_x]) Ced 2 = Ok (Some 80).
Proof. vm_compute. repeat split. Qed.

Print Assumptions C55_key_of_each_subframe.
Print Assumptions C55_honest_reception_authenticates.

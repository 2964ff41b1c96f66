(** Property C76: tags shorter than 40 bits add up. *)
From Coq Require Import ZArith String List Bool Lia.
From Verif Require Import Model.Prelude Model.Params Model.Gst Model.Svn Model.Bitfields Model.Tesla Model.Merkle
  Model.Dsm Model.MackStore Model.Nav Model.Osnma
  Spec.TimeSpec Spec.CollectSpec Spec.NavSpec Spec.TeslaSpec Spec.KrootSpec Spec.MerkleSpec Spec.MacltSpec Spec.KeySpec Spec.SystemSpec Spec.StoredSpec
  Spec.CompleteSpec Spec.PanicSpec Spec.HonestSpec Spec.SumSpec
  Proofs.Base Proofs.GstProofs Proofs.TeslaProofs Proofs.KrootProofs Proofs.MackValidProofs Proofs.StoredProofs Proofs.HonestKeys Proofs.HonestProofs
  Proofs.SumRun
  Examples.Vectors Props.SystemProps Examples.Demo Examples.Toy Examples.Transmit Props.KeyProps Props.CompleteProps Props.PanicProps
  Props.HonestProps.
Import ListNotations.
Open Scope list_scope.
Open Scope Z_scope.
Local Existing Instance toy_crypto.

(** ** C76 *)

(** A chain may have tags of 20, 24, 28, 32 or 40 bits.  Data is given to the user once it has
    been authenticated by 40 bits in all: so a single tag may not be enough, and the receiver
    must add up the lengths of several.

    A receiver starts and receives a transmission as in C61 (the public key, or the root of the
    Merkle tree and a DSM-PKR).  It receives, in order:
    - [hA]: anything of the transmission;
    - [hN], in the subframe [gn]: all the words of the data [bits] of the satellite [svn], and
      anything else;
    - [hR]: anything of the transmission that does not change the data: the words of the
      satellite repeat it.
    Among all this, it receives what is needed to verify each of the tags of a list [tags]
    ([tag_received]): they are in different places, in subframes after [gn], of any satellites,
    with any delays; each of them is preceded by the words of the data in the subframe before its
    own, and its key is disclosed.  There is no bound on how many subframes these tags extend over.

    If the tags have 40 bits together, then the getter returns the data. *)
Theorem C76_short_tags_add_up :
  forall (C : crypto) (B : build) (S : storage), crypto_ok C -> storage_ok S ->
  forall root user pk slow t hA hN hR k svn bits gn tags,
  let h := hA ++ hN ++ hR in
  transmission_ok pk t -> hears root user pk t h -> no_long_gap t (kroot_received_then root user pk t) h ->
  room_for (map op_svn h) -> Forall op_ok h -> in_subframe_order h ->
  (forall w, In w (inav_words h) -> 1 <= g_wn (nw_gst w)) -> 1 <= svn <= 36 ->
  (forall y, In y hN -> subframe_of (op_gst y) = gn) -> icd_data k (words_of svn (inav_words hN)) = Some bits ->
  repeats k svn bits (inav_words hR) ->
  NoDup (map place tags) ->
  (forall c, In c tags -> time_of gn < time_of (st_subframe c) /\ tag_received root user pk slow t h k svn bits c /\
     st_delay c < 30 * Z.of_nat mack_depth /\ st_delay c + 30 < 30 * Z.of_nat nav_depth) ->
  (40 <= ch_tag_bits (tr_chain t) * List.length tags)%nat ->
  exists o d, run (osnma_new root user slow) h = Ok o /\ getter k o svn = Ok (Some d) /\ nd_data d = bits.
Proof.
  intros C B S HC HS root user pk slow t hA hN hR k svn bits gn tags h Ht Hh Hgap Hroom Hok Hord Hwn Hsvn HN Hdata Hrep Hpl HL H40.
  exact (tags_add_up HC HS pk t Ht root user slow h k svn bits tags Hroom Hok Hord Hh Hgap Hsvn Hpl
           (fun c Hc => proj2 (HL c Hc)) hA hN hR gn eq_refl Hwn HN Hdata Hrep (fun c Hc => proj1 (HL c Hc)) H40).
Qed.

(** *** The hypotheses can be met *)

(** A chain with keys of 12 bytes and tags of 20 bits, 10 of them in a MACK message (MACLT 28).
    The DSM-KROOT has 7 blocks. *)
Definition c76_alpha : list Z := [37; 211; 150; 77; 163; 3].
Definition c76_last : list Z := Eval vm_compute in firstn 12 (toy_sha256 [76]).
Fixpoint c76_down (n : nat) (k : list Z) (t : Z) : list Z :=
  match n with
  | O => k
  | S n => c76_down n (firstn 12 (toy_sha256 (k ++ gst_bytes (t - 30) ++ c76_alpha))) (t - 30)
  end.
Definition c76_keys : list (list Z) := Eval vm_compute in
  map (fun i => c76_down (4 - i) c76_last (tx_t0 + 90)) (seq 0 5).
Definition c76_key (t : Z) : list Z := nth (Z.to_nat ((t - (tx_t0 - 30)) / 30)) c76_keys [].
Definition c76_header : Z := Eval vm_compute in tx_header 2 1 1.
Definition c76_kroot : list Z := Eval vm_compute in
  let signed := [64; 0 * 16 + 5; 28] ++ bytes_be 2 1200 ++ [2] ++ c76_alpha ++ c76_key (tx_t0 - 30) in
  let m := c76_header :: signed in
  let sig := toy_sign (pk_bytes 3) m in
  let d := (1 * 16 + 3) :: signed ++ sig in
  d ++ firstn (91 - List.length d) (toy_sha256 (m ++ sig)).
Definition c76_chain : chain := Eval vm_compute in
  mkChain 1 HashSha256 MacHmacSha256 12 20 28 (fold_left (fun a b => 256 * a + b) c76_alpha 0).
Definition c76_root : tkey := Eval vm_compute in mkKey (c76_key (tx_t0 - 30) ++ repeat 0 20) c76_chain (gst_at (tx_t0 - 30)).
Definition c76_m : kroot_message := mkKM 7 c76_header c76_kroot c76_root.
Definition c76_t : transmission := mkTr c76_chain [c76_m] (tx_t0 - 30) c76_key 4.
Definition c76_f : kroot_fields := Eval vm_compute in
  mkKF 1 3 1 0 0 0 0 5 28 0 1200 2 (ch_alpha c76_chain) (firstn 12 (k_data c76_root))
       (sub 25 89 c76_kroot) (sub 89 91 c76_kroot).
Lemma c76_layout : kroot_layout c76_kroot c76_f.
Proof.
  constructor; try (vm_compute; reflexivity).
  - repeat (constructor; [vm_compute; split; congruence|]). constructor.
  - split; [|split]; apply all_bytes; vm_compute; reflexivity.
  - vm_compute. intuition congruence.
  - left. reflexivity.
  - split; [vm_compute; lia|]. exists 7%nat. reflexivity.
Qed.
Lemma c76_kroot_ok : kroot_verified c76_header c76_f (pk_key c55_pk) /\ kroot_key c76_f c76_root.
Proof.
  assert (E : key_from_dsm_kroot c76_header c76_kroot (pk_key c55_pk) = Ok (ROk c76_root)) by (vm_compute; reflexivity).
  apply (key_from_dsm_kroot_sound toy_crypto_ok) in E;
    [|unfold is_byte, c76_header; lia|apply all_bytes; vm_compute; reflexivity].
  destruct E as (f & F1 & F2 & F3 & _). rewrite (kroot_layout_fun _ _ _ F1 c76_layout) in F2, F3. auto.
Qed.
Lemma c76_keys_ok n : (1 <= n <= 4)%nat ->
  List.length (c76_key (tx_t0 - 30 + 30 * Z.of_nat n)) = 12%nat /\
  Forall is_byte (c76_key (tx_t0 - 30 + 30 * Z.of_nat n)) /\
  previous_key c76_chain (c76_key (tx_t0 - 30 + 30 * Z.of_nat n)) (tx_t0 - 30 + 30 * Z.of_nat n)
               (c76_key (tx_t0 - 30 + 30 * (Z.of_nat n - 1))).
Proof.
  intros Hn.
  set (chk := fun n =>
    let t := tx_t0 - 30 + 30 * Z.of_nat n in let key := c76_key t in
    let m := key ++ gst_bytes (t - 30) ++ c76_alpha in
    (List.length key =? 12)%nat && forallb (fun x => (0 <=? x) && (x <? 256)) m &&
    bits_eqb (bits_of_bytes m) (bits_of_bytes key ++ gst_field (t - 30) ++ be 48 (ch_alpha c76_chain)) &&
    bytes_eqb (c76_key (tx_t0 - 30 + 30 * (Z.of_nat n - 1))) (firstn 12 (toy_sha256 m))).
  assert (H : forallb chk (seq 1 4) = true) by (vm_compute; reflexivity).
  rewrite forallb_forall in H. specialize (H n ltac:(apply in_seq; lia)). unfold chk in H. clear chk.
  rewrite !andb_true_iff in H. destruct H as (((H1 & H2) & H3) & H4).
  apply Nat.eqb_eq in H1. apply all_bytes in H2. apply bits_eqb_eq in H3. apply bytes_eqb_eq in H4.
  split; [exact H1|]. split; [apply Forall_app in H2; apply H2|].
  eexists. split; [|exact H4]. split; [exact H2|]. exists 0%nat. split; [lia|]. now rewrite app_nil_r.
Qed.
Lemma c76_transmission : transmission_ok c55_pk c76_t.
Proof.
  constructor; cbn [c76_t tr_chain tr_kroots tr_start tr_key tr_length].
  - vm_compute. discriminate.
  - split; [repeat constructor; intros []|]. intros m [<-|[]]. constructor; cbn [c76_m km_id km_header km_data km_root].
    + split; [unfold is_byte, c76_header; lia|]. split; [right; reflexivity|]. split; [reflexivity|discriminate].
    + lia.
    + split; [apply all_bytes; vm_compute; reflexivity|]. exists c76_f. split; [exact c76_layout|]. split; [reflexivity|].
      split; [apply c76_kroot_ok|]. split; [apply c76_kroot_ok|]. split; [cbn; lia|]. split; cbn; lia.
    + exists 7%nat. split; reflexivity.
    + split; [reflexivity|]. exists 0%nat. split; [cbn; lia|]. split; vm_compute; reflexivity.
  - exact I.
  - apply chain_fitsb_ok. vm_compute. reflexivity.
  - exact c76_keys_ok.
Qed.

(** MACK messages of satellite 1.  Only the second tag, about satellite 2, is a good one; it has 20
    bits. *)
Definition c76_bits : list bool := Eval vm_compute in tx_ced demo_nav2.
Definition c76_tag (t : Z) : list bool :=
  let bits := bits_of_bytes ([2; 1] ++ gst_bytes t ++ [2]) ++ [true; false] ++ c76_bits in
  let padded := bits ++ repeat false ((8 - List.length bits mod 8) mod 8) in
  firstn 20 (bits_of_bytes (toy_hmac (c76_key (t + 30)) (bytes_of_bits padded))).
Definition c76_infos (t : Z) : list (Z * Z) :=
  if t mod 60 =? 0 then [(2, 0); (3, 0); (4, 0); (1, 0); (5, 0); (6, 0); (1, 12); (7, 0); (8, 0)]
  else [(2, 0); (3, 0); (1, 0); (4, 0); (5, 0); (1, 4); (1, 12); (6, 0); (7, 0)].
Definition c76_mack (t : Z) : list Z :=
  let macseq := firstn 12 (bits_of_bytes (toy_hmac (c76_key (t + 30)) (1 :: gst_bytes t))) in
  bytes_of_bits
    (repeat false 20 ++ macseq ++ be 4 1
     ++ concat (map (fun '(i, (prnd, adkd)) => (if (i =? 0)%nat then c76_tag t else be 20 (Z.of_nat i)) ++ be 8 prnd ++ be 4 adkd ++ be 4 1)
                    (combine (seq 0 9) (c76_infos t)))
     ++ bits_of_bytes (c76_key t) ++ repeat false 24).
Definition c76_mack0 (t : Z) : list Z := repeat 5 45 ++ c76_key t ++ [5; 5; 5].

(** The words of the subframe before; a subframe with the DSM-KROOT in blocks from 7 satellites,
    the first of which sends a tag, and the words again; a subframe with the second tag; a
    subframe with the second key. *)
Definition c76_N : list op := Eval vm_compute in tx_nav (tx_t0 - 30).
Definition c76_N2 : list op := Eval vm_compute in tx_nav tx_t0.
Definition c76_S0 : list op := Eval vm_compute in
  tx_dsm tx_t0 c76_header 7 c76_kroot (fun svn => if svn =? 1 then c76_mack tx_t0 else c76_mack0 tx_t0).
Definition c76_S1 : list op := Eval vm_compute in tx_one (tx_t0 + 30) c76_header 7 c76_kroot (c76_mack (tx_t0 + 30)).
Definition c76_S2 : list op := Eval vm_compute in tx_one (tx_t0 + 60) c76_header 7 c76_kroot (c76_mack0 (tx_t0 + 60)).
Definition c76_R : list op := Eval vm_compute in c76_S0 ++ c76_N2 ++ c76_S1 ++ c76_S2.
Definition c76_tags : list sent_tag := [mkSent (gst_at tx_t0) 1 1 30; mkSent (gst_at (tx_t0 + 30)) 1 1 30].

Definition c76_mk1 : list Z := Eval vm_compute in c76_mack tx_t0.
Definition c76_mk2 : list Z := Eval vm_compute in c76_mack (tx_t0 + 30).
Definition c76_mk3 : list Z := Eval vm_compute in c76_mack0 (tx_t0 + 60).
Definition c76_hk : list Z := Eval vm_compute in tx_block c76_header 7 c76_kroot 0.
Definition c76_k1 : tkey := Eval vm_compute in mkKey (c76_key (tx_t0 + 30) ++ repeat 0 20) c76_chain (gst_at (tx_t0 + 30)).
Definition c76_k2 : tkey := Eval vm_compute in mkKey (c76_key (tx_t0 + 60) ++ repeat 0 20) c76_chain (gst_at (tx_t0 + 60)).
Definition c76_tag1 : list bool := Eval vm_compute in c76_tag tx_t0.
Definition c76_tag2 : list bool := Eval vm_compute in c76_tag (tx_t0 + 30).
Lemma c76_k1_ok : key_ok c76_k1. Proof. c33_key_ok. Qed.
Lemma c76_k2_ok : key_ok c76_k2. Proof. c33_key_ok. Qed.
Lemma c76_mack_valid mk k g : Forall is_byte mk -> List.length mk = 60%nat -> key_ok k -> k_chain k = c76_chain -> gst_ok g -> flx_in_range mk 96 20 (k_chain k) g ->
  (exists m', mack_validate (mack_new mk 96 20) k 1 g = Ok (ROk m')) ->
  mack_valid c76_chain (key_bytes k) 1 (time_of g) mk 96 20.
Proof.
  intros Hb Hl Hk Hc Hg Hfl (m' & E').
  destruct (mack_validate_exact toy_crypto_ok mk 96 20 Hl ltac:(unfold LayoutProofs.sizes_ok; lia)
              k 1 g Hk ltac:(unfold mac_usable; rewrite Hc; discriminate) Hg ltac:(split; lia))
    as (r & E & _ & (V & _)).
  { exact Hfl. }
  rewrite Hc in V. apply V. exists m'. congruence.
Qed.
Lemma c76_tag_of k tag g : key_ok k -> mac_usable k -> gst_ok g -> (List.length tag <= 128)%nat ->
  validate_tag k tag g 2 1 2 NmaOperational c76_bits = Ok true ->
  tag_of (ch_mac (k_chain k)) (key_bytes k) (tag_bits (Some 2) 1 (time_of g) 2 NmaOperational c76_bits) tag.
Proof.
  intros H1 H2 H3 H4 E.
  destruct (validate_tag_spec toy_crypto_ok k tag g 2 1 2 NmaOperational c76_bits H1 H2 H3) as (r & E' & V);
    [unfold is_byte; lia..|vm_compute; lia|assumption|]. apply V. congruence.
Qed.

Lemma c76_received c : In c c76_tags -> tag_received None (Some c55_pk) c55_pk false c76_t ([] ++ c76_N ++ c76_R) Ced 2 c76_bits c.
Proof.
  intros [<-|[<-|[]]].
  - exists (gst_at (tx_t0 - 30)), 0, 1, c76_tag1, c76_hk, c76_mk1, c76_hk, c76_mk2, (gst_at (tx_t0 + 30)).
    split; [reflexivity|]. split; [now left|]. split; [discriminate|]. split; [lia|].
    split. { exists [], c76_N, c76_R. split; [reflexivity|]. split; [apply all_in_subframe; vm_compute; reflexivity|].
      split; [|vm_compute; reflexivity].
      assert (H : forallb (fun y => time_of (gst_at (tx_t0 - 30)) <? time_of (subframe_of (op_gst y))) c76_R = true) by (vm_compute; reflexivity).
      rewrite forallb_forall in H. intros y Hy. apply Z.ltb_lt. now apply H. }
    split. { exists (c76_N ++ firstn 98 c76_S0), (match nth_error c76_S0 98 with Some (FeedOsnma d _ _) => d | _ => [] end), (gst_at (tx_t0 + 28)), (skipn 99 c76_S0 ++ c76_N2 ++ c76_S1 ++ c76_S2).
      split; [vm_compute; reflexivity|]. eexists _, _, _. split; [reflexivity|]. split; vm_compute; reflexivity. }
    split; [right; reflexivity|].
    split. { apply (c76_mack_valid c76_mk1 c76_k1 (gst_at tx_t0)); [apply all_bytes; vm_compute; reflexivity|reflexivity|exact c76_k1_ok|reflexivity|split; cbn; lia|intros codes Hcd; vm_compute in Hcd; injection Hcd as <-; vm_compute; constructor|eexists; vm_compute; reflexivity]. }
    split. { split; [cbn; lia|]. split; [vm_compute; reflexivity|]. split; [vm_compute; reflexivity|].
      apply (c76_tag_of c76_k1 c76_tag1 (gst_at tx_t0)); [exact c76_k1_ok|discriminate|split; cbn; lia|cbn; lia|vm_compute; reflexivity]. }
    split; [reflexivity|].
    exists (c76_N ++ c76_S0 ++ c76_N2 ++ removelast c76_S1), (last c76_S1 (FeedOsnma [] 0 (gst_at 0))), c76_S2.
    split; [vm_compute; reflexivity|]. split; [eexists _, _, _; split; [reflexivity|]; split; vm_compute; reflexivity|].
    apply received_pubkey. apply kroot_receivedb_ok. vm_compute. reflexivity.
  - exists (gst_at tx_t0), 0, 1, c76_tag2, c76_hk, c76_mk2, c76_hk, c76_mk3, (gst_at (tx_t0 + 60)).
    split; [reflexivity|]. split; [now left|]. split; [discriminate|]. split; [lia|].
    split. { exists c76_N, (c76_S0 ++ c76_N2), (c76_S1 ++ c76_S2). split; [reflexivity|]. split; [apply all_in_subframe; vm_compute; reflexivity|].
      split; [|vm_compute; reflexivity].
      assert (H : forallb (fun y => time_of (gst_at tx_t0) <? time_of (subframe_of (op_gst y))) (c76_S1 ++ c76_S2) = true) by (vm_compute; reflexivity).
      rewrite forallb_forall in H. intros y Hy. apply Z.ltb_lt. now apply H. }
    split. { exists (c76_N ++ c76_S0 ++ c76_N2 ++ removelast c76_S1), (match nth_error c76_S1 14 with Some (FeedOsnma d _ _) => d | _ => [] end), (gst_at (tx_t0 + 58)), c76_S2.
      split; [vm_compute; reflexivity|]. eexists _, _, _. split; [reflexivity|]. split; vm_compute; reflexivity. }
    split; [right; reflexivity|].
    split. { apply (c76_mack_valid c76_mk2 c76_k2 (gst_at (tx_t0 + 30))); [apply all_bytes; vm_compute; reflexivity|reflexivity|exact c76_k2_ok|reflexivity|split; cbn; lia|intros codes Hcd; vm_compute in Hcd; injection Hcd as <-; vm_compute; constructor|eexists; vm_compute; reflexivity]. }
    split. { split; [cbn; lia|]. split; [vm_compute; reflexivity|]. split; [vm_compute; reflexivity|].
      apply (c76_tag_of c76_k2 c76_tag2 (gst_at (tx_t0 + 30))); [exact c76_k2_ok|discriminate|split; cbn; lia|cbn; lia|vm_compute; reflexivity]. }
    split; [reflexivity|].
    exists (c76_N ++ c76_S0 ++ c76_N2 ++ c76_S1 ++ removelast c76_S2), (last c76_S2 (FeedOsnma [] 0 (gst_at 0))), [].
    split; [vm_compute; reflexivity|]. split; [eexists _, _, _; split; [reflexivity|]; split; vm_compute; reflexivity|].
    apply received_pubkey. apply kroot_receivedb_ok. vm_compute. reflexivity.
Qed.

Definition repeatsb (k : nav_kind) (svn : Z) (bits : list bool) (ws : list nword) : bool :=
  forallb (fun w => negb (nw_svn w =? svn) ||
    forallb (fun '(i, f) => negb (NavSpec.carries k f w) || bits_eqb (nw_bits w (f_from f) (f_to f)) (field_bits k i bits))
            (combine (seq 0 (List.length (icd_fields k))) (icd_fields k))) ws.
Lemma combine_seq {A} (l : list A) n i x : nth_error l i = Some x -> In ((n + i)%nat, x) (combine (seq n (List.length l)) l).
Proof.
  revert n i. induction l as [|y l IH]; intros n [|i] H; try discriminate H; cbn [List.length seq combine].
  - left. cbn in H. rewrite Nat.add_0_r. congruence.
  - right. rewrite <- Nat.add_succ_comm. now apply IH.
Qed.
Lemma repeatsb_ok k svn bits ws : repeatsb k svn bits ws = true -> repeats k svn bits ws.
Proof.
  unfold repeatsb. rewrite forallb_forall. intros H w i f Hw Hs Hf Hc. specialize (H w Hw).
  rewrite (proj2 (Z.eqb_eq _ _) Hs) in H. cbn [negb orb] in H. rewrite forallb_forall in H.
  specialize (H (i, f) (combine_seq (icd_fields k) 0 i f Hf)). cbn beta iota in H. rewrite Hc in H. now apply bits_eqb_eq.
Qed.

Example C76_example :
  let h := [] ++ c76_N ++ c76_R in
  transmission_ok c55_pk c76_t /\ hears None (Some c55_pk) c55_pk c76_t h /\
  no_long_gap c76_t (kroot_received_then None (Some c55_pk) c55_pk c76_t) h /\
  room_for (map op_svn h) /\ Forall op_ok h /\ in_subframe_order h /\
  (forall w, In w (inav_words h) -> 1 <= g_wn (nw_gst w)) /\
  (forall y, In y c76_N -> subframe_of (op_gst y) = gst_at (tx_t0 - 30)) /\
  icd_data Ced (words_of 2 (inav_words c76_N)) = Some c76_bits /\
  repeats Ced 2 c76_bits (inav_words c76_R) /\ NoDup (map place c76_tags) /\
  (forall c, In c c76_tags -> time_of (gst_at (tx_t0 - 30)) < time_of (st_subframe c) /\
     tag_received None (Some c55_pk) c55_pk false c76_t h Ced 2 c76_bits c /\
     st_delay c < 30 * Z.of_nat mack_depth /\ st_delay c + 30 < 30 * Z.of_nat nav_depth) /\
  ch_tag_bits (tr_chain c76_t) = 20%nat /\ List.length c76_tags = 2%nat.
Proof.
  split; [exact c76_transmission|].
  assert (Hh : honest c76_t ([] ++ c76_N ++ c76_R)) by (apply honestb_ok; vm_compute; reflexivity).
  split; [apply hears_pubkey; [exact Hh|now left]|].
  split; [apply no_long_gap_pubkey; apply (short_no_long_gap c55_pk); [exact c76_transmission|exact Hh|cbn; lia]|].
  split; [apply room_36_ops; [vm_compute; repeat constructor|apply op_okb_ok; vm_compute; reflexivity]|].
  split; [apply op_okb_ok; vm_compute; reflexivity|].
  split; [apply in_subframe_orderb; vm_compute; reflexivity|].
  split. { assert (H : forallb (fun w => 1 <=? g_wn (nw_gst w)) (inav_words ([] ++ c76_N ++ c76_R)) = true) by (vm_compute; reflexivity).
    rewrite forallb_forall in H. intros w Hw. specialize (H w Hw). now apply Z.leb_le. }
  split; [apply all_in_subframe; vm_compute; reflexivity|]. split; [vm_compute; reflexivity|].
  split; [apply repeatsb_ok; vm_compute; reflexivity|].
  split. { repeat constructor; cbn; [intros [E|[]]; discriminate E|intros []]. }
  split; [|split; reflexivity].
  intros c Hc. split; [|split; [exact (c76_received c Hc)|]]; destruct Hc as [<-|[<-|[]]]; vm_compute; split; reflexivity || reflexivity.
Qed.
(** What the theorem says of it: the data is authenticated after the second key, not before. *)
Example C76_example_results :
  tx_get (run (osnma_new None (Some c55_pk) false) (c76_N ++ c76_R)) Ced 2 = Ok (Some (40, gst_at tx_t0)) /\
  tx_get (run (osnma_new None (Some c55_pk) false) (c76_N ++ c76_S0 ++ c76_N2 ++ c76_S1)) Ced 2 = Ok None.
Proof. vm_compute. split; reflexivity. Qed.

Print Assumptions C76_short_tags_add_up.

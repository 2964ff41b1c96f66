(** Property C68: a receiver gets into step with a transmission whatever it received before. *)
From Coq Require Import ZArith String List Bool Lia.
From Verif Require Import Model.Prelude Model.Params Model.Gst Model.Svn Model.Bitfields Model.Tesla Model.Merkle
  Model.Dsm Model.MackStore Model.Nav Model.Osnma
  Spec.TimeSpec Spec.CollectSpec Spec.NavSpec Spec.TeslaSpec Spec.KrootSpec Spec.MerkleSpec Spec.KeySpec Spec.SystemSpec Spec.StoredSpec
  Spec.CompleteSpec Spec.PanicSpec Spec.HonestSpec Spec.RecoverSpec
  Proofs.Base Proofs.GstProofs Proofs.TeslaProofs Proofs.KrootProofs Proofs.SystemProofs Proofs.StoredProofs Proofs.HonestKeys Proofs.HonestProofs
  Proofs.RecoverKeys Proofs.RecoverProofs
  Examples.Vectors Props.SystemProps Examples.Demo Examples.Toy Examples.Transmit Props.KeyProps Props.CompleteProps Props.PanicProps
  Props.HonestProps.
Import ListNotations.
Open Scope list_scope.
Open Scope Z_scope.
Local Existing Instance toy_crypto.

(** ** C68 *)

(** The calls [h0] are anything, for example with forged or corrupted words; the receiver has not
    panicked.  Then it receives a transmission, [q] (see [prepared]: it has the public key, it has no
    wrong or later key for the chain, the first DSM block of [q] is of another DSM than the last one
    before, and there are no alert messages).  Once it has received a DSM-KROOT in [q], it holds
    after each complete subframe the key disclosed in it, if there is no gap of more than 25
    hours. *)
Theorem C68_key_of_each_subframe_partial :
  forall (C : crypto) (B : build) (S : storage), crypto_ok C -> storage_ok S ->
  forall root user pk slow t h0 o0 q x hkroot mack g o,
  transmission_ok pk t -> Forall op_ok (h0 ++ q ++ [x]) -> run (osnma_new root user slow) h0 = Ok o0 ->
  prepared pk t root h0 o0 (q ++ [x]) -> in_subframe_order (q ++ [x]) -> no_long_gap_after t h0 o0 (q ++ [x]) ->
  completes (h0 ++ q) x hkroot mack g -> kroot_received_after t h0 (q ++ [x]) ->
  run (osnma_new root user slow) (h0 ++ q ++ [x]) = Ok o ->
  exists key, current_key (o_keys o) = Some key /\ k_gst key = g /\ k_chain key = tr_chain t /\
    key_bytes key = tr_key t (time_of g).
Proof.
  intros C B S HC HS root user pk slow t h0 o0 q x hk mk g o Ht Hok Hr0 HP Hord Hgap Hc Hkr Hr.
  exact (after_key HC HS pk t Ht root user slow h0 o0 Hr0 (proj1 (proj1 (Forall_app _ _ _) Hok)) q x hk mk g o Hok Hord HP Hgap Hc Hkr Hr).
Qed.

(** The receiver does not panic in [q], if the chains of the keys that it has and the chain of the
    transmission can be used together, and no DSM-PKR in [q] makes it panic. *)
Theorem C68_no_panic_partial :
  forall (C : crypto) (B : build) (S : storage), crypto_ok C -> storage_ok S ->
  forall root user pk slow t h0 o0 q,
  transmission_ok pk t -> Forall op_ok (h0 ++ q) -> run (osnma_new root user slow) h0 = Ok o0 ->
  prepared pk t root h0 o0 q -> pkrs_sound_after root h0 q -> chains_usable t o0 ->
  exists o, run (osnma_new root user slow) (h0 ++ q) = Ok o.
Proof.
  intros C B S HC HS root user pk slow t h0 o0 q Ht Hok Hr0 HP Hps Hus.
  exact (after_total HC HS pk t Ht root user slow h0 o0 Hr0 (proj1 (proj1 (Forall_app _ _ _) Hok)) q Hok HP Hps Hus).
Qed.

(** And it authenticates the data: after the DSM-KROOT (received in [hA]) the words of the data
    [bits] of the satellite [svn] are received in the subframe [gn], a MACK message with a valid tag
    for them in the next one, [gm], and the key of the tag in the subframe [g]. *)
Theorem C68_authenticates_partial :
  forall (C : crypto) (B : build) (S : storage), crypto_ok C -> storage_ok S ->
  forall root user pk slow t h0 o0 hA hN hM p x q o k svn bits gn gm g delay adkd cop tag prna hk1 mk1 hk2 mk2,
  let h := h0 ++ (hA ++ hN ++ hM ++ p ++ [x]) ++ q in
  transmission_ok pk t -> run (osnma_new root user slow) h0 = Ok o0 ->
  room_for (map op_svn h) -> delay < 30 * Z.of_nat mack_depth -> delay + 30 < 30 * Z.of_nat nav_depth ->
  Forall op_ok h -> in_subframe_order h -> (forall w, In w (inav_words h) -> 1 <= g_wn (nw_gst w)) ->
  run (osnma_new root user slow) h = Ok o -> prepared pk t root h0 o0 (hA ++ hN ++ hM ++ p ++ [x]) ->
  no_long_gap_after t h0 o0 (hA ++ hN ++ hM ++ p ++ [x]) -> kroot_received_after t h0 hA ->
  1 <= svn <= 36 -> adkd_means adkd k delay -> (slow = true -> adkd = 12) -> 0 < cop < 16 -> (40 <= length tag)%nat ->
  (forall y, In y hN -> subframe_of (op_gst y) = gn) -> icd_data k (words_of svn (inav_words hN)) = Some bits ->
  (forall y, In y hM -> subframe_of (op_gst y) = gm) -> time_of gm = time_of gn + 30 ->
  (exists m1 data gk m2, hM = m1 ++ FeedOsnma data prna gk :: m2 /\
     completes (h0 ++ hA ++ hN ++ m1) (FeedOsnma data prna gk) hk1 mk1 gm) ->
  tag_transmitted t hk1 mk1 prna gm delay svn adkd cop bits tag ->
  time_of g = time_of gm + delay -> completes (h0 ++ hA ++ hN ++ hM ++ p) x hk2 mk2 g ->
  (forall y, In y p -> time_of gm < time_of (subframe_of (op_gst y))) ->
  (forall y, In y q -> time_of (subframe_of (op_gst y)) < time_of gn + 30 * Z.of_nat nav_depth) ->
  exists d, getter k o svn = Ok (Some d) /\
    (repeats k svn bits (inav_words (hM ++ p ++ x :: q)) -> nd_data d = bits).
Proof.
  intros C B S HC HS root user pk slow t h0 o0 hA hN hM p x q o k svn bits gn gm g delay adkd cop tag prna hk1 mk1 hk2 mk2 h
    Ht Hr0 Hroom Hmd Hnd Hok.
  exact (after_data HC HS root user slow pk t Ht h0 o0 Hr0 (proj1 (proj1 (Forall_app _ _ _) Hok))
           hA hN hM p x q o k svn bits gn gm g delay adkd cop tag prna hk1 mk1 hk2 mk2 Hroom Hmd Hnd Hok).
Qed.

(** Without the change of DSM this is false, and not only for a while.  If the DSM that a
    receiver without a key has completed last, correct or not, has the id [id], and all the blocks
    after it have this id too, then the receiver never gets a key: all the calls leave the key
    store as it is. *)
Theorem C68_same_dsm_never_collected_again :
  forall (C : crypto) (B : build) (S : storage), crypto_ok C -> storage_ok S ->
  forall root user slow h0 q o0 o b1 b b2 id pkr d,
  Forall op_ok (h0 ++ q) -> run (osnma_new root user slow) h0 = Ok o0 -> current_key (o_keys o0) = None ->
  blocks_received (osnma_words h0) = b1 ++ b :: b2 -> expected_dsm b1 b = Some (id, pkr, d) ->
  (forall c, In c (b2 ++ blocks_after h0 q) -> b_dsm c = id) ->
  run (osnma_new root user slow) (h0 ++ q) = Ok o -> o_keys o = o_keys o0.
Proof.
  intros C B S HC HS root user slow h0 q o0 o b1 b b2 id pkr d.
  exact (same_dsm_no_key HC HS root user slow q h0 o0 o b1 b b2 id pkr d).
Qed.

(** *** Checks *)

Definition honest_afterb (t : transmission) (h0 q : list op) : bool :=
  forallb (fun i => match nth_error q i with
    | Some (FeedOsnma data svn g) =>
        match expected_subframe (osnma_words (h0 ++ firstn i q)) (mkWord data svn g) with
        | Some (hk, mk, g) => transmitsb t hk mk g
        | None => true
        end
    | _ => true end) (seq 0 (List.length q)).
Lemma honest_afterb_ok t h0 q : honest_afterb t h0 q = true -> honest_after t h0 q.
Proof.
  unfold honest_afterb. rewrite forallb_forall. intros H h1 x h2 hk mk g -> (data & svn & gk & -> & _ & E).
  specialize (H (List.length h1)). rewrite in_seq, app_length in H. cbn [List.length] in H. specialize (H ltac:(lia)).
  rewrite nth_error_app2, Nat.sub_diag in H by lia. cbn [nth_error] in H.
  rewrite firstn_app, Nat.sub_diag, firstn_O, app_nil_r, firstn_all, E in H. now apply transmitsb_ok.
Qed.
Definition dsm_changesb (h0 q : list op) : bool :=
  match rev (blocks_received (osnma_words h0)), blocks_after h0 q with
  | b :: _, c :: _ => negb (b_dsm b =? b_dsm c)
  | _, _ => true
  end.
Lemma dsm_changesb_ok h0 q : dsm_changesb h0 q = true -> dsm_changes h0 q.
Proof.
  unfold dsm_changesb. intros H b1 b c bl E1 E2. rewrite E1, E2, rev_app_distr in H. cbn [rev app] in H.
  apply negb_true_iff in H. now apply Z.eqb_neq.
Qed.
(** The first blocks received in [q] are all of one DSM-KROOT. *)
Definition kroot_afterb (t : transmission) (h0 q : list op) : bool :=
  let bl := blocks_after h0 q in
  existsb (fun m =>
    forallb (fun i => existsb (fun b => b_num b =? Z.of_nat i) (take_dsm (km_id m) bl)) (seq 0 (List.length (km_data m) / 13)) &&
    (List.length (km_data m) mod 13 =? 0)%nat) (tr_kroots t).
Lemma kroot_afterb_ok t h0 q : kroot_afterb t h0 q = true -> kroot_received_after t h0 q.
Proof.
  unfold kroot_afterb. rewrite existsb_exists. intros (m & Hm & H). rewrite andb_true_iff, forallb_forall, Nat.eqb_eq in H.
  destruct H as (H2 & H3). destruct (take_dsm_prefix (km_id m) (blocks_after h0 q)) as (r & Er).
  exists m, [], (take_dsm (km_id m) (blocks_after h0 q)), r.
  split; [exact Hm|]. split; [exact Er|]. split; [apply take_dsm_id|].
  intros i Hi. specialize (H2 i). rewrite in_seq in H2.
  assert (Hi' : (i < List.length (km_data m) / 13)%nat).
  { pose proof (Nat.div_mod (List.length (km_data m)) 13 ltac:(lia)). lia. }
  specialize (H2 ltac:(lia)). apply existsb_exists in H2. destruct H2 as (b & Hb & E). exists b. split; [exact Hb|]. now apply Z.eqb_eq.
Qed.
(** A transmission of less than 25 hours; the receiver has no key of the chain. *)
Lemma short_no_gap_after pk t h0 o0 q : transmission_ok pk t -> honest_after t h0 q -> (tr_length t <= 3000)%nat ->
  (forall K, held (o_keys o0) K -> chain_of K <> ch_id (tr_chain t)) -> no_long_gap_after t h0 o0 q.
Proof.
  intros Ht Hh Hlen Hno p x q' hk mk g E Hc _. left. split; [|intros K HK Hcid; elim (Hno K HK Hcid)].
  intros m b Hm _ _. destruct (Hh p x q' hk mk g E Hc) as (_ & (n & Hn & En) & _).
  destruct (km_root_ok _ _ _ (message_ok pk t Ht m Hm)) as (_ & n0 & Hn0 & En0 & _). lia.
Qed.

(** *** The hypotheses can be met *)

(** The transmission of C55, with a second DSM-KROOT of the same chain, DSM 8, whose root key is
    an hour earlier. *)
Definition c68_kroot : list Z := Eval vm_compute in kroot_msg (tx_header 2 1 1) (pk_bytes 3) 3 chain1 (tx_t0 - 3600).
Definition c68_root : tkey := Eval vm_compute in c33_key_at (tx_t0 - 3630).
Definition c68_keys : list (list Z) := Eval vm_compute in map (fun i => tx_key chain1 (tx_t0 - 3630 + 30 * Z.of_nat i)) (seq 0 152).
Definition c68_key (t : Z) : list Z := nth (Z.to_nat ((t - (tx_t0 - 3630)) / 30)) c68_keys [].
Definition c68_m : kroot_message := mkKM 8 c55_header c68_kroot c68_root.
Definition c68_t : transmission := mkTr c33_chain [c55_m; c68_m] (tx_t0 - 3630) c68_key 151.
Definition c68_f : kroot_fields := Eval vm_compute in
  mkKF 2 3 1 0 0 0 4 9 33 0 1200 1 (ch_alpha c33_chain) (firstn 16 (k_data c68_root))
       (sub 29 93 c68_kroot) (sub 93 104 c68_kroot).
Lemma c68_layout : kroot_layout c68_kroot c68_f.
Proof.
  constructor; try (vm_compute; reflexivity).
  - repeat (constructor; [vm_compute; split; congruence|]). constructor.
  - split; [|split]; apply all_bytes; vm_compute; reflexivity.
  - vm_compute. intuition congruence.
  - left. reflexivity.
  - split; [vm_compute; lia|]. exists 8%nat. reflexivity.
Qed.
Lemma c68_kroot_ok : kroot_verified c55_header c68_f (pk_key c55_pk) /\ kroot_key c68_f c68_root.
Proof.
  assert (E : key_from_dsm_kroot c55_header c68_kroot (pk_key c55_pk) = Ok (ROk c68_root)) by (vm_compute; reflexivity).
  apply (key_from_dsm_kroot_sound toy_crypto_ok) in E;
    [|unfold is_byte, c55_header; lia|apply all_bytes; vm_compute; reflexivity].
  destruct E as (f & F1 & F2 & F3 & _). rewrite (kroot_layout_fun _ _ _ F1 c68_layout) in F2, F3. auto.
Qed.
Lemma c68_keys_ok n : (1 <= n <= 151)%nat ->
  List.length (c68_key (tx_t0 - 3630 + 30 * Z.of_nat n)) = 16%nat /\
  Forall is_byte (c68_key (tx_t0 - 3630 + 30 * Z.of_nat n)) /\
  previous_key c33_chain (c68_key (tx_t0 - 3630 + 30 * Z.of_nat n)) (tx_t0 - 3630 + 30 * Z.of_nat n)
               (c68_key (tx_t0 - 3630 + 30 * (Z.of_nat n - 1))).
Proof.
  intros Hn.
  set (chk := fun n =>
    let t := tx_t0 - 3630 + 30 * Z.of_nat n in let key := c68_key t in
    let m := key ++ gst_bytes (t - 30) ++ tx_alpha chain1 in
    (List.length key =? 16)%nat && forallb (fun x => (0 <=? x) && (x <? 256)) m &&
    bits_eqb (bits_of_bytes m) (bits_of_bytes key ++ gst_field (t - 30) ++ be 48 (ch_alpha c33_chain)) &&
    bytes_eqb (c68_key (tx_t0 - 3630 + 30 * (Z.of_nat n - 1))) (firstn 16 (toy_sha256 m))).
  assert (H : forallb chk (seq 1 151) = true) by (vm_compute; reflexivity).
  rewrite forallb_forall in H. specialize (H n ltac:(apply in_seq; lia)). unfold chk in H. clear chk.
  rewrite !andb_true_iff in H. destruct H as (((H1 & H2) & H3) & H4).
  apply Nat.eqb_eq in H1. apply all_bytes in H2. apply bits_eqb_eq in H3. apply bytes_eqb_eq in H4.
  split; [exact H1|]. split; [apply Forall_app in H2; apply H2|].
  eexists. split; [|exact H4]. split; [exact H2|]. exists 0%nat. split; [lia|]. now rewrite app_nil_r.
Qed.
Lemma c68_transmission : transmission_ok c55_pk c68_t.
Proof.
  constructor; cbn [c68_t tr_chain tr_kroots tr_start tr_key tr_length].
  - vm_compute. discriminate.
  - split; [repeat constructor; cbn; intuition discriminate|]. intros m [<-|[<-|[]]]; constructor; cbn [c55_m c68_m km_id km_header km_data km_root].
    + split; [unfold is_byte, c55_header; lia|]. split; [right; reflexivity|]. split; [reflexivity|discriminate].
    + lia.
    + split; [apply all_bytes; vm_compute; reflexivity|]. exists c55_f. split; [exact c55_layout|]. split; [reflexivity|].
      split; [apply c55_kroot_ok|]. split; [apply c55_kroot_ok|]. split; [cbn; lia|]. split; cbn; lia.
    + exists 8%nat. split; reflexivity.
    + split; [reflexivity|]. exists 120%nat. split; [cbn; lia|]. split; vm_compute; reflexivity.
    + split; [unfold is_byte, c55_header; lia|]. split; [right; reflexivity|]. split; [reflexivity|discriminate].
    + lia.
    + split; [apply all_bytes; vm_compute; reflexivity|]. exists c68_f. split; [exact c68_layout|]. split; [reflexivity|].
      split; [apply c68_kroot_ok|]. split; [apply c68_kroot_ok|]. split; [cbn; lia|]. split; cbn; lia.
    + exists 8%nat. split; reflexivity.
    + split; [reflexivity|]. exists 0%nat. split; [cbn; lia|]. split; vm_compute; reflexivity.
  - exact I.
  - apply chain_fitsb_ok. vm_compute. reflexivity.
  - exact c68_keys_ok.
Qed.

(** Before: chain 2 is in force, with a DSM-KROOT of its own (DSM 9); then there is a forged copy
    of block 4 of DSM 8, from satellite 5, and a block of a DSM-PKR (DSM 13).  Then DSM 8 is
    received from 8 satellites, and then the sequence of C55. *)
Definition c68_forged : list op := Eval vm_compute in
  tx_subframe (tx_t0 - 120) [(5, firstn 14 (tx_block c55_header 8 c68_kroot 4) ++ [99], tx_mack0 chain2 (tx_t0 - 120))].
Definition c68_pkr : list op := Eval vm_compute in
  tx_subframe (tx_t0 - 90) [(9, tx_block c55_header 13 (pkr_msg tx_leaves 2) 1, tx_mack0 chain2 (tx_t0 - 90))].
Definition c68_chain2 : list op := Eval vm_compute in
  tx_dsm (tx_t0 - 150) (tx_header 2 2 1) 9 (kroot_msg (tx_header 2 2 1) (pk_bytes 3) 3 chain2 (tx_t0 - 3600))
         (fun _ => tx_mack0 chain2 (tx_t0 - 150)).
Definition c68_h0 : list op := Eval vm_compute in c68_chain2 ++ c68_forged ++ c68_pkr.
Definition c68_A : list op := Eval vm_compute in tx_dsm (tx_t0 - 60) c55_header 8 c68_kroot (fun _ => tx_mack0 chain1 (tx_t0 - 60)).
Definition c68_q : list op := Eval vm_compute in c68_A ++ c55_N ++ c55_M ++ c55_p ++ [c55_x].

(** The ids and times of the keys held, of the key in force; the public key. *)
Definition c68_view (h : list op) : option (list (Z * Z) * option (Z * Z)) :=
  match run (osnma_new None (Some c55_pk) false) h with
  | Ok o =>
      match ps_current (o_pub o) with
      | Some (mkPub (VkP256 k) i) =>
          if bytes_eqb k (pk_bytes 3) && (i =? 3) then
            Some (flat_map (fun k => match k with Some k => [(chain_of k, time_of (k_gst k))] | None => [] end) [ks_k0 (o_keys o); ks_k1 (o_keys o)],
                  option_map (fun k => (chain_of k, time_of (k_gst k))) (current_key (o_keys o)))
          else None
      | _ => None
      end
  | Panic => None
  end.
Lemma c68_view_ok h l c : c68_view h = Some (l, c) ->
  exists o, run (osnma_new None (Some c55_pk) false) h = Ok o /\ ps_current (o_pub o) = Some c55_pk /\
    (forall K, held (o_keys o) K -> In (chain_of K, time_of (k_gst K)) l) /\
    option_map (fun k => (chain_of k, time_of (k_gst k))) (current_key (o_keys o)) = c.
Proof.
  unfold c68_view. destruct (run _ h) as [o|]; [|discriminate]. destruct (ps_current (o_pub o)) as [[[k|k] i]|] eqn:E; [|discriminate..].
  destruct (bytes_eqb k (pk_bytes 3) && (i =? 3)) eqn:Ek; [|discriminate]. apply andb_true_iff in Ek. destruct Ek as (E1 & E2).
  apply bytes_eqb_eq in E1. apply Z.eqb_eq in E2. subst k i. intros H. exists o. split; [reflexivity|]. split; [exact E|].
  split; [|congruence]. intros K HK. assert (El : l = flat_map (fun k => match k with Some k => [(chain_of k, time_of (k_gst k))] | None => [] end) [ks_k0 (o_keys o); ks_k1 (o_keys o)]) by congruence.
  rewrite El. cbn [flat_map]. rewrite app_nil_r. apply in_or_app. destruct HK as [-> | ->]; [left|right]; now left.
Qed.
Lemma c68_prepared h0 l c q : c68_view h0 = Some (l, c) -> forallb (fun '(i, _) => negb (i =? 1)) l = true ->
  honest_afterb c68_t h0 q = true -> dsm_changesb h0 q = true ->
  exists o0, run (osnma_new None (Some c55_pk) false) h0 = Ok o0 /\ prepared c55_pk c68_t None h0 o0 q /\
    no_long_gap_after c68_t h0 o0 q /\ option_map (fun k => (chain_of k, time_of (k_gst k))) (current_key (o_keys o0)) = c.
Proof.
  intros Hv Hl Hh Hd. destruct (c68_view_ok _ _ _ Hv) as (o0 & Hr & Hp & Hk & Hc). exists o0. split; [exact Hr|].
  assert (Hno : forall K, held (o_keys o0) K -> chain_of K <> ch_id (tr_chain c68_t)).
  { intros K HK. rewrite forallb_forall in Hl. specialize (Hl _ (Hk K HK)). cbn beta iota in Hl. apply negb_true_iff, Z.eqb_neq in Hl. exact Hl. }
  apply honest_afterb_ok in Hh. apply dsm_changesb_ok in Hd.
  split; [|split; [|exact Hc]].
  - constructor; [exact Hp| |exact Hh|exact Hd|].
    + intros K HK Hci. elim (Hno K HK Hci).
    + intros r b1 b b2 id d f Hr'. discriminate.
  - apply (short_no_gap_after c55_pk); [exact c68_transmission|exact Hh|cbn; lia|exact Hno].
Qed.
Lemma c68_run_ok h l c : c68_view h = Some (l, c) -> exists o, run (osnma_new None (Some c55_pk) false) h = Ok o.
Proof. intros H. destruct (c68_view_ok _ _ _ H) as (o & Hr & _). eauto. Qed.
Example C68_example : let h := c68_h0 ++ (c68_A ++ c55_N ++ c55_M ++ c55_p ++ [c55_x]) ++ [] in
  (exists o0, run (osnma_new None (Some c55_pk) false) c68_h0 = Ok o0 /\
    prepared c55_pk c68_t None c68_h0 o0 (c68_A ++ c55_N ++ c55_M ++ c55_p ++ [c55_x]) /\
    no_long_gap_after c68_t c68_h0 o0 (c68_A ++ c55_N ++ c55_M ++ c55_p ++ [c55_x]) /\
    option_map (fun k => (chain_of k, time_of (k_gst k))) (current_key (o_keys o0)) = Some (2, tx_t0 - 90)) /\
  (exists o, run (osnma_new None (Some c55_pk) false) h = Ok o) /\
  transmission_ok c55_pk c68_t /\ room_for (map op_svn h) /\ Forall op_ok h /\ in_subframe_order h /\
  (forall w, In w (inav_words h) -> 1 <= g_wn (nw_gst w)) /\ kroot_received_after c68_t c68_h0 c68_A /\
  (forall y, In y c55_N -> subframe_of (op_gst y) = gst_at (tx_t0 - 30)) /\
  icd_data Ced (words_of 2 (inav_words c55_N)) = Some c55_bits /\
  (forall y, In y c55_M -> subframe_of (op_gst y) = gst_at tx_t0) /\
  c55_M = c55_M1 ++ FeedOsnma c55_data 1 (gst_at (tx_t0 + 28)) :: c55_M2 /\
  completes (c68_h0 ++ c68_A ++ c55_N ++ c55_M1) (FeedOsnma c55_data 1 (gst_at (tx_t0 + 28))) c55_hk1 c33_mack (gst_at tx_t0) /\
  tag_transmitted c68_t c55_hk1 c33_mack 1 (gst_at tx_t0) 30 2 0 1 c55_bits (c33_tag 1) /\
  completes (c68_h0 ++ c68_A ++ c55_N ++ c55_M ++ c55_p) c55_x c33_hk c33_mack_x (gst_at (tx_t0 + 30)) /\
  (forall y, In y c55_p -> time_of (gst_at tx_t0) < time_of (subframe_of (op_gst y))) /\
  repeats Ced 2 c55_bits (inav_words (c55_M ++ c55_p ++ c55_x :: [])).
Proof.
  intros h.
  split. { apply (c68_prepared _ [(2, tx_t0 - 90)]); vm_compute; reflexivity. }
  split. { apply (c68_run_ok _ [(2, tx_t0 - 90); (1, tx_t0 + 30)] (Some (1, tx_t0 + 30))). vm_compute. reflexivity. }
  split; [exact c68_transmission|].
  assert (Hok : Forall op_ok h) by (apply op_okb_ok; vm_compute; reflexivity).
  split; [apply room_36_ops; [vm_compute; repeat constructor|exact Hok]|]. split; [exact Hok|].
  split; [apply in_subframe_orderb; vm_compute; reflexivity|].
  split. { assert (H : forallb (fun w => 1 <=? g_wn (nw_gst w)) (inav_words h) = true) by (vm_compute; reflexivity).
    rewrite forallb_forall in H. intros w Hw. specialize (H w Hw). now apply Z.leb_le. }
  split; [apply kroot_afterb_ok; vm_compute; reflexivity|].
  split; [apply all_in_subframe; vm_compute; reflexivity|]. split; [vm_compute; reflexivity|].
  split; [apply all_in_subframe; vm_compute; reflexivity|]. split; [reflexivity|].
  split. { eexists _, _, _. split; [reflexivity|]. split; vm_compute; reflexivity. }
  split. { split; [right; reflexivity|]. split; [exact c33_mack_valid|exact c33_tag_fast]. }
  split. { eexists _, _, _. split; [reflexivity|]. split; vm_compute; reflexivity. }
  split. { intros y Hy. rewrite (all_in_subframe c55_p (gst_at (tx_t0 + 30)) ltac:(vm_compute; reflexivity) y Hy). reflexivity. }
  intros w i f [].
Qed.
(** The chains of this receiver can be used together. *)
Lemma c68_usable (t : transmission) (o0 : osnma) : forallb (fun c => forallb (chain_fitsb c) (tr_chain t :: map k_chain (held_list (o_keys o0))))
    (tr_chain t :: map k_chain (held_list (o_keys o0))) = true -> chains_usable t o0.
Proof.
  intros H. assert (Hin : forall c, c = tr_chain t \/ (exists K, held (o_keys o0) K /\ k_chain K = c) ->
    In c (tr_chain t :: map k_chain (held_list (o_keys o0)))).
  { intros c [->|(K & HK & <-)]; [now left|]. right. apply in_map. exact (held_list_in _ _ HK). }
  rewrite forallb_forall in H. intros c c' Hc Hc'. specialize (H c (Hin c Hc)). rewrite forallb_forall in H.
  exact (chain_fitsb_ok _ _ (H c' (Hin c' Hc'))).
Qed.
Example C68_example_no_panic :
  (exists o0, run (osnma_new None (Some c55_pk) false) c68_h0 = Ok o0 /\ chains_usable c68_t o0) /\
  pkrs_sound_after None c68_h0 (c68_A ++ c55_N ++ c55_M ++ c55_p ++ [c55_x]).
Proof.
  split; [|intros r b1 b b2 id d Hr; discriminate Hr].
  assert (H : match run (osnma_new None (Some c55_pk) false) c68_h0 with
    | Ok o0 => forallb (fun c => forallb (chain_fitsb c) (tr_chain c68_t :: map k_chain (held_list (o_keys o0))))
                 (tr_chain c68_t :: map k_chain (held_list (o_keys o0)))
    | Panic => false end = true) by (vm_compute; reflexivity).
  destruct (run (osnma_new None (Some c55_pk) false) c68_h0) as [o0|]; [|discriminate H].
  exists o0. split; [reflexivity|]. exact (c68_usable _ _ H).
Qed.
Example C68_example_result :
  tx_get (run (osnma_new None (Some c55_pk) false) (c68_h0 ++ c68_q)) Ced 2 = Ok (Some (80, gst_at (tx_t0 - 30))).
Proof. vm_compute. reflexivity. Qed.

(** *** Without the change of DSM *)

(** One forged block of DSM 8, and then the same calls. *)
Definition c68_none (h : list op) : bool :=
  match c68_view h, tx_get (run (osnma_new None (Some c55_pk) false) h) Ced 2 with
  | Some ([], None), Ok None => true
  | _, _ => false
  end.
Lemma c68_none_ok h : c68_none h = true ->
  exists o, run (osnma_new None (Some c55_pk) false) h = Ok o /\ ps_current (o_pub o) = Some c55_pk /\
    (forall K, ~ held (o_keys o) K) /\ getter Ced o 2 = Ok None.
Proof.
  unfold c68_none. destruct (c68_view h) as [[[|a l] [c|]]|] eqn:Ev; try discriminate.
  destruct (c68_view_ok _ _ _ Ev) as (o & Hr & Hp & Hk & _). rewrite Hr. unfold tx_get. cbn [bind]. intros H.
  exists o. split; [reflexivity|]. split; [exact Hp|]. split; [intros K HK; elim (Hk K HK)|].
  destruct (getter Ced o 2) as [[d|]|]; cbn [bind option_map] in H; [discriminate|reflexivity|discriminate].
Qed.
Lemma c68_no_key (o : osnma) : (forall K, ~ held (o_keys o) K) -> current_key (o_keys o) = None.
Proof. intros H. destruct (current_key (o_keys o)) as [K|] eqn:E; [|reflexivity]. elim (H K (current_key_in _ _ E)). Qed.
(** The sequence of the example without the DSM-KROOT of DSM 7, which would be another DSM. *)
Definition c68_M : list op := Eval vm_compute in
  tx_dsm tx_t0 c55_header 8 c68_kroot (fun svn => if svn =? 1 then tx_mack1 chain1 tx_t0 else tx_mack0 chain1 tx_t0).
Definition c68_x : list op := Eval vm_compute in tx_one (tx_t0 + 30) c55_header 8 c68_kroot (tx_mack1 chain1 (tx_t0 + 30)).
Definition c68_same : list op := Eval vm_compute in c68_A ++ c55_N ++ c68_M ++ c68_x.
Theorem C68_refuted :
  exists pk t h0 o0 q o,
    transmission_ok pk t /\ Forall op_ok (h0 ++ q) /\ in_subframe_order (h0 ++ q) /\
    run (osnma_new None (Some pk) false) h0 = Ok o0 /\ ps_current (o_pub o0) = Some pk /\ (forall K, ~ held (o_keys o0) K) /\
    honest_after t h0 q /\ no_long_gap_after t h0 o0 q /\ kroot_received_after t h0 q /\
    run (osnma_new None (Some pk) false) (h0 ++ q) = Ok o /\ current_key (o_keys o) = None /\ getter Ced o 2 = Ok None /\
    (* without the forged block *)
    tx_get (run (osnma_new None (Some pk) false) q) Ced 2 = Ok (Some (80, gst_at (tx_t0 - 30))).
Proof.
  destruct (c68_none_ok c68_forged ltac:(vm_compute; reflexivity)) as (o0 & Hr0 & Hp0 & Hk0 & _).
  destruct (c68_none_ok (c68_forged ++ c68_same) ltac:(vm_compute; reflexivity)) as (o & Hr & _ & Hk & Hg).
  assert (Hh : honest_after c68_t c68_forged c68_same) by (apply honest_afterb_ok; vm_compute; reflexivity).
  exists c55_pk, c68_t, c68_forged, o0, c68_same, o. split; [exact c68_transmission|].
  split; [apply op_okb_ok; vm_compute; reflexivity|]. split; [apply in_subframe_orderb; vm_compute; reflexivity|].
  split; [exact Hr0|]. split; [exact Hp0|]. split; [exact Hk0|]. split; [exact Hh|].
  split; [apply (short_no_gap_after c55_pk); [exact c68_transmission|exact Hh|cbn; lia|intros K HK; elim (Hk0 K HK)]|].
  split; [apply kroot_afterb_ok; vm_compute; reflexivity|]. split; [exact Hr|]. split; [exact (c68_no_key o Hk)|]. split; [exact Hg|].
  vm_compute. reflexivity.
Qed.
(** The wrong DSM is complete after the calls [c68_A]; from then on
    [C68_same_dsm_never_collected_again] applies. *)
Lemma all_of_dsm (l : list block) id : forallb (fun c => b_dsm c =? id) l = true -> forall c, In c l -> b_dsm c = id.
Proof. rewrite forallb_forall. intros H c Hc. apply Z.eqb_eq. exact (H c Hc). Qed.
Definition c68_blocks : list block := Eval vm_compute in blocks_received (osnma_words (c68_forged ++ c68_A)).
Example C68_example_poisoned : exists o0 d,
  run (osnma_new None (Some c55_pk) false) (c68_forged ++ c68_A) = Ok o0 /\ current_key (o_keys o0) = None /\
  blocks_received (osnma_words (c68_forged ++ c68_A)) = firstn 8 c68_blocks ++ nth 8 c68_blocks (mkBlock 0 []) :: [] /\
  expected_dsm (firstn 8 c68_blocks) (nth 8 c68_blocks (mkBlock 0 [])) = Some (8, false, d) /\ d <> c68_kroot /\
  (forall c, In c ([] ++ blocks_after (c68_forged ++ c68_A) (c55_N ++ c68_M ++ c68_x)) -> b_dsm c = 8) /\
  Forall op_ok ((c68_forged ++ c68_A) ++ c55_N ++ c68_M ++ c68_x).
Proof.
  destruct (c68_none_ok (c68_forged ++ c68_A) ltac:(vm_compute; reflexivity)) as (o0 & Hr0 & _ & Hk0 & _).
  exists o0, (match expected_dsm (firstn 8 c68_blocks) (nth 8 c68_blocks (mkBlock 0 [])) with Some (_, _, d) => d | None => [] end).
  split; [exact Hr0|]. split; [exact (c68_no_key o0 Hk0)|]. split; [vm_compute; reflexivity|]. split; [vm_compute; reflexivity|].
  split; [vm_compute; discriminate|]. split; [|apply op_okb_ok; vm_compute; reflexivity].
  assert (H : forallb (fun c => b_dsm c =? 8) ([] ++ blocks_after (c68_forged ++ c68_A) (c55_N ++ c68_M ++ c68_x)) = true) by (vm_compute; reflexivity).
  exact (all_of_dsm _ _ H).
Qed.

Print Assumptions C68_key_of_each_subframe_partial.
Print Assumptions C68_no_panic_partial.
Print Assumptions C68_authenticates_partial.
Print Assumptions C68_same_dsm_never_collected_again.
Print Assumptions C68_refuted.

(** Property C61: a receiver that starts with the Merkle tree root only. *)
From Coq Require Import ZArith String List Bool Lia.
From Verif Require Import Model.Prelude Model.Params Model.Gst Model.Svn Model.Bitfields Model.Tesla Model.Merkle
  Model.Dsm Model.MackStore Model.Nav Model.Osnma
  Spec.TimeSpec Spec.CollectSpec Spec.NavSpec Spec.TeslaSpec Spec.KrootSpec Spec.MerkleSpec Spec.KeySpec Spec.SystemSpec Spec.StoredSpec
  Spec.CompleteSpec Spec.PanicSpec Spec.HonestSpec
  Proofs.Base Proofs.GstProofs Proofs.TeslaProofs Proofs.KrootProofs Proofs.StoredProofs Proofs.HonestKeys Proofs.HonestProofs
  Examples.Vectors Props.SystemProps Examples.Demo Examples.Toy Examples.Transmit Props.KeyProps Props.CompleteProps Props.PanicProps
  Props.HonestProps.
Import ListNotations.
Open Scope list_scope.
Open Scope Z_scope.
Local Existing Instance toy_crypto.

(** ** C61 *)

(** A receiver starts with a Merkle tree root, a public key or both, and receives a
    transmission ([hears]): the public key is the one of the transmission, or else the first
    public key that is received in a DSM-PKR that leads to the root is; there are no alert
    messages.  The receiver never panics.  Once it has the public key and has then received a
    DSM-KROOT, it holds after each complete subframe the key disclosed in it, if there is no gap of
    more than 25 hours in the reception. *)
Theorem C61_key_of_each_subframe :
  forall (C : crypto) (B : build) (S : storage), crypto_ok C -> storage_ok S ->
  forall root user pk slow t h, transmission_ok pk t -> Forall op_ok h -> hears root user pk t h ->
  (exists o, run (osnma_new root user slow) h = Ok o) /\
  forall p x q hkroot mack g, h = p ++ x :: q -> in_subframe_order h ->
  no_long_gap t (kroot_received_then root user pk t) (p ++ [x]) -> completes p x hkroot mack g -> kroot_received_then root user pk t (p ++ [x]) ->
  (forall y, In y q -> subframe_of (op_gst y) = g) ->
  exists o key, run (osnma_new root user slow) h = Ok o /\ current_key (o_keys o) = Some key /\ k_gst key = g /\
    k_chain key = tr_chain t /\ key_bytes key = tr_key t (time_of g).
Proof.
  intros C B S HC HS root user pk slow t h Ht Hok Hh. split.
  - destruct (honest_run HC HS pk t Ht root user slow h Hok Hh) as (o & Hr & _). exists o. exact Hr.
  - intros p x q hk mk g E Hord. exact (honest_key HC HS pk t Ht root user slow h p x q hk mk g E Hok Hord Hh).
Qed.

(** As C55_honest_reception_authenticates, for such a receiver: the words of the data [bits] of
    the satellite [svn] are received in the subframe [gn], a MACK message with a valid tag for
    them in the next one, [gm], and the key of the tag in the subframe [g]; by then the DSM-PKR
    and after it a DSM-KROOT have been received. *)
Theorem C61_merkle_tree_reception_authenticates :
  forall (C : crypto) (B : build) (S : storage), crypto_ok C -> storage_ok S ->
  forall root user pk slow t hA hN hM p x q k svn bits gn gm g delay adkd cop tag prna hk1 mk1 hk2 mk2,
  let h := hA ++ hN ++ hM ++ p ++ x :: q in
  room_for (map op_svn h) -> delay < 30 * Z.of_nat mack_depth -> delay + 30 < 30 * Z.of_nat nav_depth ->
  transmission_ok pk t -> hears root user pk t h ->
  Forall op_ok h -> in_subframe_order h -> (forall w, In w (inav_words h) -> 1 <= g_wn (nw_gst w)) ->
  no_long_gap t (kroot_received_then root user pk t) (hA ++ hN ++ hM ++ p ++ [x]) ->
  1 <= svn <= 36 -> adkd_means adkd k delay -> (slow = true -> adkd = 12) -> 0 < cop < 16 -> (40 <= length tag)%nat ->
  (forall y, In y hN -> subframe_of (op_gst y) = gn) -> icd_data k (words_of svn (inav_words hN)) = Some bits ->
  (forall y, In y hM -> subframe_of (op_gst y) = gm) -> time_of gm = time_of gn + 30 ->
  (exists m1 data gk m2, hM = m1 ++ FeedOsnma data prna gk :: m2 /\
     completes (hA ++ hN ++ m1) (FeedOsnma data prna gk) hk1 mk1 gm) ->
  tag_transmitted t hk1 mk1 prna gm delay svn adkd cop bits tag ->
  time_of g = time_of gm + delay -> completes (hA ++ hN ++ hM ++ p) x hk2 mk2 g ->
  kroot_received_then root user pk t (hA ++ hN ++ hM ++ p ++ [x]) ->
  (forall y, In y p -> time_of gm < time_of (subframe_of (op_gst y))) ->
  (forall y, In y q -> time_of (subframe_of (op_gst y)) < time_of gn + 30 * Z.of_nat nav_depth) ->
  exists o d, run (osnma_new root user slow) h = Ok o /\ getter k o svn = Ok (Some d) /\
    (repeats k svn bits (inav_words (hM ++ p ++ x :: q)) -> nd_data d = bits).
Proof.
  intros C B S HC HS root user pk slow t hA hN hM p x q k svn bits gn gm g delay adkd cop tag prna hk1 mk1 hk2 mk2 h
    Hroom Hmd Hnd Ht Hh Hok Hord Hwn.
  exact (honest_authenticates HC HS pk t Ht root user slow hA hN hM p x q k svn bits gn gm g delay adkd cop tag prna hk1 mk1 hk2 mk2
           Hroom Hmd Hnd Hok Hord Hwn Hh).
Qed.

(** *** The hypotheses can be met *)

(** The tree of the examples; the DSM-PKR of public key 3 in blocks from satellites 14 to 26, in
    the subframe in which the DSM-KROOT follows from satellites 1 to 8. *)
Definition c61_root : list Z := Eval vm_compute in tx_root tx_leaves.
Definition c61_pkr : list Z := Eval vm_compute in pkr_msg tx_leaves 2.
Definition c61_P : list op := Eval vm_compute in
  tx_subframe tx_t0 (map (fun i => (Z.of_nat i + 14, tx_block c55_header 13 c61_pkr i, tx_mack0 chain1 tx_t0)) (seq 0 13)).
Definition c61_M : list op := Eval vm_compute in c61_P ++ c55_M.
Definition c61_M1 : list op := Eval vm_compute in c61_P ++ c55_M1.
Definition c61_h : list op := [] ++ c55_N ++ c61_M ++ c55_p ++ c55_x :: [].
Definition c61_f : pkr_fields := Eval vm_compute in
  mkPF 7 2 [sub 1 33 c61_pkr; sub 33 65 c61_pkr; sub 65 97 c61_pkr; sub 97 129 c61_pkr] 1 3 (sub 130 163 c61_pkr) (skipn 163 c61_pkr).
Lemma c61_layout : pkr_layout c61_pkr c61_f.
Proof.
  constructor.
  - reflexivity.
  - split; [reflexivity|]. repeat (constructor; [reflexivity|]). constructor.
  - repeat split; cbn; lia.
  - left. split; reflexivity.
Qed.
Lemma c61_pkr_ok : sha256 (path_input c61_f 4) = c61_root /\ pkr_key c61_f c55_pk.
Proof. split; [vm_compute; reflexivity|]. split; [reflexivity|]. split; [reflexivity|vm_compute; reflexivity]. Qed.

(** The blocks that the calls complete: the 13 of the DSM-PKR, then those of the DSM-KROOT. *)
Definition c61_blocks : list block := Eval vm_compute in blocks_received (osnma_words c61_h).
Lemma c61_blocks_ok : blocks_received (osnma_words c61_h) = c61_blocks.
Proof. vm_compute. reflexivity. Qed.
Definition only_pkr (d : list Z) (bl : list block) : bool :=
  forallb (fun i => match nth_error bl i with
    | Some b => match expected_dsm (firstn i bl) b with Some (_, true, d') => bytes_eqb d' d | _ => true end
    | None => true end) (seq 0 (List.length bl)).
Lemma only_pkr_ok d bl : only_pkr d bl = true -> forall b1 b b2 id d', bl = b1 ++ b :: b2 ->
  expected_dsm b1 b = Some (id, true, d') -> d' = d.
Proof.
  unfold only_pkr. rewrite forallb_forall. intros H b1 b b2 id d' -> E.
  specialize (H (List.length b1)). rewrite in_seq, app_length in H. cbn [List.length] in H. specialize (H ltac:(lia)).
  rewrite nth_error_app2, Nat.sub_diag in H by lia. cbn [nth_error] in H.
  rewrite firstn_app, Nat.sub_diag, firstn_O, app_nil_r, firstn_all, E in H. now apply bytes_eqb_eq.
Qed.
Lemma c61_hears : hears (Some c61_root) None c55_pk c55_t c61_h.
Proof.
  split; [apply honestb_ok; vm_compute; reflexivity|]. split; [now left|]. rewrite c61_blocks_ok.
  intros r b1 b b2 id d Hr E Hx. assert (r = c61_root) by congruence. subst r.
  assert (d = c61_pkr) by (apply (only_pkr_ok c61_pkr c61_blocks ltac:(vm_compute; reflexivity) b1 b b2 id d E Hx)). subst d.
  exists c61_f. split; [exact c61_layout|]. intros _. exists c55_pk. split; [exact (proj2 c61_pkr_ok)|now left].
Qed.
Lemma c61_received : kroot_received_then (Some c61_root) None c55_pk c55_t ([] ++ c55_N ++ c61_M ++ c55_p ++ [c55_x]).
Proof.
  change ([] ++ c55_N ++ c61_M ++ c55_p ++ [c55_x]) with c61_h. unfold kroot_received_then. rewrite c61_blocks_ok.
  exists c55_m, (firstn 13 c61_blocks), (skipn 13 c61_blocks), []. split; [now left|]. split; [rewrite app_nil_r; symmetry; apply firstn_skipn|]. split; [|split].
  - right. exists c61_root, (firstn 12 c61_blocks), (nth 12 c61_blocks (mkBlock 0 [])), [], 13, c61_pkr, c61_f.
    split; [reflexivity|]. split; [reflexivity|]. split; [vm_compute; reflexivity|]. split; [exact c61_layout|]. exact c61_pkr_ok.
  - intros b Hb. assert (H : forallb (fun b => b_dsm b =? 7) (skipn 13 c61_blocks) = true) by (vm_compute; reflexivity).
    rewrite forallb_forall in H. specialize (H b Hb). now apply Z.eqb_eq in H.
  - intros i Hi. assert (H : forallb (fun i => existsb (fun b => b_num b =? Z.of_nat i) (skipn 13 c61_blocks)) (seq 0 8) = true)
      by (vm_compute; reflexivity).
    rewrite forallb_forall in H. assert (Hi8 : (i < 8)%nat).
    { change (List.length (km_data c55_m)) with 104%nat in Hi. lia. }
    specialize (H i ltac:(apply in_seq; lia)). apply existsb_exists in H. destruct H as (b & Hb & E). exists b. split; [exact Hb|]. now apply Z.eqb_eq.
Qed.
Example C61_example :
  room_for (map op_svn c61_h) /\ transmission_ok c55_pk c55_t /\ hears (Some c61_root) None c55_pk c55_t c61_h /\
  Forall op_ok c61_h /\ in_subframe_order c61_h /\ (forall w, In w (inav_words c61_h) -> 1 <= g_wn (nw_gst w)) /\
  no_long_gap c55_t (kroot_received_then (Some c61_root) None c55_pk c55_t) ([] ++ c55_N ++ c61_M ++ c55_p ++ [c55_x]) /\
  (forall y, In y c61_M -> subframe_of (op_gst y) = gst_at tx_t0) /\
  c61_M = c61_M1 ++ FeedOsnma c55_data 1 (gst_at (tx_t0 + 28)) :: c55_M2 /\
  completes ([] ++ c55_N ++ c61_M1) (FeedOsnma c55_data 1 (gst_at (tx_t0 + 28))) c55_hk1 c33_mack (gst_at tx_t0) /\
  completes ([] ++ c55_N ++ c61_M ++ c55_p) c55_x c33_hk c33_mack_x (gst_at (tx_t0 + 30)) /\
  kroot_received_then (Some c61_root) None c55_pk c55_t ([] ++ c55_N ++ c61_M ++ c55_p ++ [c55_x]) /\
  repeats Ced 2 c55_bits (inav_words (c61_M ++ c55_p ++ c55_x :: [])).
Proof.
  split; [apply room_36_ops; [vm_compute; repeat constructor|apply op_okb_ok; vm_compute; reflexivity]|].
  split; [exact c55_transmission|]. split; [exact c61_hears|]. split; [apply op_okb_ok; vm_compute; reflexivity|].
  split; [apply in_subframe_orderb; vm_compute; reflexivity|].
  split. { assert (H : forallb (fun w => 1 <=? g_wn (nw_gst w)) (inav_words c61_h) = true) by (vm_compute; reflexivity).
    rewrite forallb_forall in H. intros w Hw. specialize (H w Hw). now apply Z.leb_le. }
  split; [apply (short_no_long_gap c55_pk); [exact c55_transmission|exact (proj1 c61_hears)|cbn; lia]|].
  split; [apply all_in_subframe; vm_compute; reflexivity|]. split; [reflexivity|].
  split. { eexists _, _, _. split; [reflexivity|]. split; vm_compute; reflexivity. }
  split. { eexists _, _, _. split; [reflexivity|]. split; vm_compute; reflexivity. }
  split; [exact c61_received|]. intros w i f [].
Qed.
(** What the receiver returns.  If the DSM-PKR of the next public key, number 4, comes first,
    the receiver does not accept the key in use afterwards, and returns nothing. *)
Definition c61_next_first : list op := Eval vm_compute in
  tx_subframe tx_t0 (map (fun i => (Z.of_nat i + 14, tx_block c55_header 13 (pkr_msg tx_leaves 3) i, tx_mack0 chain1 tx_t0)) (seq 0 13))
  ++ tx_subframe tx_t0 (map (fun i => (match i with O => 27 | _ => Z.of_nat i + 8 end, tx_block c55_header 14 c61_pkr i, tx_mack0 chain1 tx_t0)) (seq 0 5))
  ++ tx_subframe tx_t0 (map (fun i => (Z.of_nat i + 23, tx_block c55_header 14 c61_pkr i, tx_mack0 chain1 tx_t0)) (seq 5 8)).
Example C61_example_results :
  tx_get (run (osnma_new (Some c61_root) None false) c61_h) Ced 2 = Ok (Some (80, gst_at (tx_t0 - 30))) /\
  tx_get (run (osnma_new (Some c61_root) None false) (c55_N ++ c61_next_first ++ c55_M ++ c55_p ++ [c55_x])) Ced 2 = Ok None /\
  tx_get (run (osnma_new (Some c61_root) (Some c55_pk) false) (c55_N ++ c61_next_first ++ c55_M ++ c55_p ++ [c55_x])) Ced 2
    = Ok (Some (80, gst_at (tx_t0 - 30))).
Proof. vm_compute. repeat split. Qed.

Print Assumptions C61_key_of_each_subframe.
Print Assumptions C61_merkle_tree_reception_authenticates.

(** Property C67: reception after an outage. *)
From Coq Require Import ZArith String List Bool Lia.
From Verif Require Import Model.Prelude Model.Params Model.Gst Model.Svn Model.Bitfields Model.Tesla Model.Merkle
  Model.Dsm Model.MackStore Model.Nav Model.Osnma
  Spec.TimeSpec Spec.CollectSpec Spec.NavSpec Spec.TeslaSpec Spec.KrootSpec Spec.MerkleSpec Spec.KeySpec Spec.SystemSpec Spec.StoredSpec
  Spec.CompleteSpec Spec.PanicSpec Spec.HonestSpec
  Proofs.Base Proofs.GstProofs Proofs.TeslaProofs Proofs.KrootProofs Proofs.StoredProofs Proofs.HonestKeys Proofs.HonestProofs Proofs.StuckProofs
  Examples.Vectors Props.SystemProps Examples.Demo Examples.Toy Examples.Transmit Props.KeyProps Props.CompleteProps Props.PanicProps
  Props.HonestProps.
Import ListNotations.
Open Scope list_scope.
Open Scope Z_scope.

(** ** C67 *)

(** A receiver of a transmission, in any state reached in it, holds the key [K] of the chain in
    force.  Then it receives no complete subframe for some time ([q]), and then the subframe [g],
    completed by the call [x].  If [g] is at most 25 hours after [K], the receiver holds the key of
    [g] after this call; it does not have to receive the DSM-KROOT again. *)
Theorem C67_resumes_partial :
  forall (C : crypto) (B : build) (S : storage), crypto_ok C -> storage_ok S ->
  forall root user pk slow t h q x o K hkroot mack g,
  transmission_ok pk t -> Forall op_ok ((h ++ q) ++ [x]) -> hears root user pk t ((h ++ q) ++ [x]) ->
  run (osnma_new root user slow) h = Ok o -> current_key (o_keys o) = Some K ->
  (forall p y q' hk mk g', q = p ++ y :: q' -> ~ completes (h ++ p) y hk mk g') ->
  completes (h ++ q) x hkroot mack g -> time_of (k_gst K) < time_of g <= time_of (k_gst K) + 90000 ->
  exists o' key, run (osnma_new root user slow) ((h ++ q) ++ [x]) = Ok o' /\ current_key (o_keys o') = Some key /\
    k_gst key = g /\ k_chain key = tr_chain t /\ key_bytes key = tr_key t (time_of g).
Proof.
  intros C B S HC HS root user pk slow t h q x o K hkroot mack g Ht Hok Hh Hr HK Hq Hc Hg.
  exact (honest_resume HC HS pk t Ht root user slow h q x o K hkroot mack g Hok Hh Hr HK Hq Hc Hg).
Qed.

(** If the subframes received after the outage are more than 25 hours after [K], the receiver keeps
    its old keys for ever: whatever it receives of the transmission, with newer DSM-KROOTs.  What it
    returns has been authenticated before the outage. *)
Theorem C67_long_outage :
  forall (C : crypto) (B : build) (S : storage), crypto_ok C -> storage_ok S ->
  forall root user pk slow t h q o K,
  transmission_ok pk t -> Forall op_ok (h ++ q) -> hears root user pk t (h ++ q) ->
  run (osnma_new root user slow) h = Ok o -> current_key (o_keys o) = Some K ->
  (forall p x q' hk mk g, q = p ++ x :: q' -> completes (h ++ p) x hk mk g -> time_of (k_gst K) + 90000 < time_of g) ->
  exists o', run (osnma_new root user slow) (h ++ q) = Ok o' /\ o_keys o' = o_keys o /\
    forall k svn d, getter k o' svn = Ok (Some d) -> authenticated root user slow h k svn (nd_data d) (nd_authbits d).
Proof.
  intros C B S HC HS root user pk slow t h q o K Ht Hok Hh Hr HK Hq.
  exact (long_outage_data HC HS root user slow pk t Ht h q o K Hok Hh Hr HK Hq).
Qed.

(** *** A transmission of 4900 subframes *)

(** As the primitives of Examples.Toy, but the hash is always the same, so all the keys of a chain
    are. *)
Definition still_hash : list Z := repeat 7 32.
Definition still_crypto : crypto := {|
  sha256 := fun _ => still_hash;
  sha3_256 := fun _ => still_hash;
  hmac_sha256 := toy_hmac;
  cmac_aes128 := fun k m => firstn 16 (toy_hmac (67 :: k) m);
  vk256 := list Z;
  vk521 := list Z;
  p256_from_sec1 := fun b => if (List.length b =? 33)%nat then Some b else None;
  p521_from_sec1 := fun b => if (List.length b =? 67)%nat then Some b else None;
  p256_sig_parses := fun s => negb (forallb (Z.eqb 0) s);
  p521_sig_parses := fun s => negb (forallb (Z.eqb 0) s);
  p256_verify := fun pk m s => bytes_eqb s (toy_sign pk m);
  p521_verify := fun pk m s => bytes_eqb s (toy_sign pk m ++ toy_sign (1 :: pk) m ++ [0; 1; 2; 3])
|}.
Lemma still_crypto_ok : crypto_ok still_crypto.
Proof.
  assert (H : bytes_ok 32 still_hash) by (split; [reflexivity|apply all_bytes; reflexivity]).
  destruct toy_crypto_ok as (_ & _ & H3 & H4). repeat split; try apply H; try apply (H3 k m); apply (H4 k m).
Qed.
Local Existing Instance still_crypto.

Definition c67_key : list Z := Eval vm_compute in firstn 16 still_hash.
Definition c67_msg (t : Z) : list Z :=
  let s := firstn 12 (kroot_signed_part chain1 t) ++ c67_key in
  let sig := toy_sign (pk_bytes 3) (c55_header :: s) in
  let d := (2 * 16 + 3) :: s ++ sig in
  d ++ firstn (104 - List.length d) still_hash.
(** The first DSM-KROOT, and the one that replaces it 26 hours later. *)
Definition c67_kroot : list Z := Eval vm_compute in c67_msg tx_t0.
Definition c67_kroot2 : list Z := Eval vm_compute in c67_msg (tx_t0 + 93600).
Definition c67_root_at (t : Z) : tkey := mkKey (c67_key ++ repeat 0 16) c33_chain (gst_at (t - 30)).
Definition c67_root : tkey := Eval vm_compute in c67_root_at tx_t0.
Definition c67_root2 : tkey := Eval vm_compute in c67_root_at (tx_t0 + 93600).
Definition c67_m : kroot_message := mkKM 7 c55_header c67_kroot c67_root.
Definition c67_m2 : kroot_message := mkKM 8 c55_header c67_kroot2 c67_root2.
Definition c67_t : transmission := mkTr c33_chain [c67_m; c67_m2] (tx_t0 - 30) (fun _ => c67_key) 4900.
Definition c67_pk : public_key := Eval vm_compute in mkPub (VkP256 (pk_bytes 3)) 3.
Definition c67_f_of (towh : Z) (d : list Z) : kroot_fields :=
  mkKF 2 3 1 0 0 0 4 9 33 0 1200 towh (ch_alpha c33_chain) c67_key (sub 29 93 d) (sub 93 104 d).
Definition c67_f : kroot_fields := Eval vm_compute in c67_f_of 2 c67_kroot.
Definition c67_f2 : kroot_fields := Eval vm_compute in c67_f_of 28 c67_kroot2.
Ltac c67_layout_tac :=
  constructor; try (vm_compute; reflexivity);
  [ repeat (constructor; [vm_compute; split; congruence|]); constructor
  | split; [|split]; apply all_bytes; vm_compute; reflexivity
  | vm_compute; intuition congruence
  | left; reflexivity
  | split; [vm_compute; lia|]; exists 8%nat; reflexivity ].
Lemma c67_layout : kroot_layout c67_kroot c67_f.
Proof. c67_layout_tac. Qed.
Lemma c67_layout2 : kroot_layout c67_kroot2 c67_f2.
Proof. c67_layout_tac. Qed.
Lemma c67_kroot_ok d f r : kroot_layout d f -> key_from_dsm_kroot c55_header d (pk_key c67_pk) = Ok (ROk r) ->
  forallb (fun x => (0 <=? x) && (x <? 256)) d = true ->
  kroot_verified c55_header f (pk_key c67_pk) /\ kroot_key f r.
Proof.
  intros L E Hb. apply (key_from_dsm_kroot_sound still_crypto_ok) in E;
    [|unfold is_byte, c55_header; lia|now apply all_bytes].
  destruct E as (f' & F1 & F2 & F3 & _). rewrite (kroot_layout_fun _ _ _ F1 L) in F2, F3. auto.
Qed.
Lemma be_length n v : List.length (be n v) = n.
Proof. revert v. induction n as [|n IH]; intros v; [reflexivity|]. cbn [be]. rewrite app_length, IH. cbn [List.length]. lia. Qed.
Lemma c67_previous t : previous_key c33_chain c67_key t c67_key.
Proof.
  set (bits := bits_of_bytes c67_key ++ gst_field (t - 30) ++ be 48 (ch_alpha c33_chain)).
  assert (Hl : List.length bits = (8 * 26)%nat).
  { unfold bits, gst_field. rewrite !app_length, !be_length. reflexivity. }
  exists (bytes_of_bits bits). split; [|reflexivity]. split; [exact (bytes_of_bits_are_bytes 26 bits Hl)|].
  exists 0%nat. split; [lia|]. rewrite app_nil_r. exact (bits_of_bytes_bits 26 bits Hl).
Qed.
Lemma c67_message n m f : km_header m = c55_header -> 0 <= km_id m < 12 -> kroot_layout (km_data m) f ->
  key_from_dsm_kroot c55_header (km_data m) (pk_key c67_pk) = Ok (ROk (km_root m)) ->
  forallb (fun x => (0 <=? x) && (x <? 256)) (km_data m) = true -> kf_pkid f = 3 -> 1 <= kf_wn f -> gst_ok (k_gst (km_root m)) ->
  blocks_needed (km_id m) (nth 0 (km_data m) 0) = Some 8%nat -> List.length (km_data m) = 104%nat ->
  k_chain (km_root m) = c33_chain -> Z.of_nat n <= 4900 -> time_of (k_gst (km_root m)) = tx_t0 - 30 + 30 * Z.of_nat n ->
  key_bytes (km_root m) = c67_key -> kroot_message_ok c67_pk c67_t m.
Proof.
  intros Eh Hid L E Hb Hp Hw Hg Hn Hl Hc Hn' Ht Hk. destruct (c67_kroot_ok _ _ _ L E Hb) as (V & HK). constructor.
  - rewrite Eh. split; [unfold is_byte, c55_header; lia|]. split; [right; reflexivity|]. split; [reflexivity|discriminate].
  - exact Hid.
  - split; [now apply all_bytes|]. exists f. rewrite Eh. split; [exact L|]. split; [exact Hp|]. auto.
  - exists 8%nat. auto.
  - split; [exact Hc|]. exists n. cbn [c67_t tr_length tr_start tr_key]. split; [lia|]. split; [exact Ht|exact Hk].
Qed.
Lemma c67_transmission : transmission_ok c67_pk c67_t.
Proof.
  constructor; cbn [c67_t tr_chain tr_kroots tr_start tr_key tr_length].
  - vm_compute. discriminate.
  - split; [repeat constructor; cbn; intuition discriminate|]. intros m [<-|[<-|[]]].
    + apply (c67_message 0 _ c67_f); try exact c67_layout; try (vm_compute; reflexivity); cbn; try lia. split; cbn; lia.
    + apply (c67_message 3120 _ c67_f2); try exact c67_layout2; try (vm_compute; reflexivity); cbn; try lia. split; cbn; lia.
  - exact I.
  - apply chain_fitsb_ok. vm_compute. reflexivity.
  - intros n _. split; [reflexivity|]. split; [apply all_bytes; reflexivity|]. exact (c67_previous _).
Qed.

(** A DSM-KROOT in one subframe, a block from each of 8 satellites. *)
Definition c67_mack : list Z := repeat 5 42 ++ c67_key ++ [5; 5].
Definition c67_at (t : Z) (m : kroot_message) : list op := tx_dsm t c55_header (km_id m) (km_data m) (fun _ => c67_mack).
(** One is received in the first subframe, and another after an outage of 24 hours (the same) or
    of 26 hours (the new one). *)
Definition c67_first : list op := Eval vm_compute in c67_at tx_t0 c67_m.
Definition c67_24h : list op := Eval vm_compute in c67_at (tx_t0 + 86400) c67_m.
Definition c67_26h : list op := Eval vm_compute in c67_at (tx_t0 + 93600) c67_m2.
(** Subframes of one satellite, a day and 40 hours later. *)
Definition c67_day : list op := Eval vm_compute in tx_one (tx_t0 + 86400) c55_header 7 c67_kroot c67_mack.
Definition c67_40h : list op := Eval vm_compute in tx_one (tx_t0 + 144000) c55_header 8 c67_kroot2 c67_mack.

(** The time of the key in force. *)
Definition c67_time (h : list op) : option Z :=
  match run (osnma_new None (Some c67_pk) false) h with
  | Ok o => option_map (fun k => time_of (k_gst k)) (current_key (o_keys o))
  | Panic => None
  end.
Lemma c67_time_ok h T : c67_time h = Some T ->
  exists o K, run (osnma_new None (Some c67_pk) false) h = Ok o /\ current_key (o_keys o) = Some K /\ time_of (k_gst K) = T.
Proof.
  unfold c67_time. destruct (run _ h) as [o|]; [|discriminate]. destruct (current_key (o_keys o)) as [K|] eqn:E; [|discriminate].
  cbn [option_map]. intros H. exists o, K. split; [reflexivity|]. split; [exact E|]. congruence.
Qed.
Lemma c67_hears h : honestb c67_t h = true -> hears None (Some c67_pk) c67_pk c67_t h.
Proof. intros H. apply hears_pubkey; [now apply honestb_ok|now left]. Qed.

(** No call of [q] completes a subframe. *)
Definition no_subframeb (h q : list op) : bool :=
  forallb (fun i => match nth_error q i with
    | Some (FeedOsnma data svn g) =>
        match expected_subframe (osnma_words (h ++ firstn i q)) (mkWord data svn g) with Some _ => false | None => true end
    | _ => true end) (seq 0 (List.length q)).
Lemma no_subframeb_ok h q : no_subframeb h q = true ->
  forall p y q' hk mk g, q = p ++ y :: q' -> ~ completes (h ++ p) y hk mk g.
Proof.
  unfold no_subframeb. rewrite forallb_forall. intros H p y q' hk mk g -> (data & svn & gk & -> & _ & E).
  specialize (H (List.length p)). rewrite in_seq, app_length in H. cbn [List.length] in H. specialize (H ltac:(lia)).
  rewrite nth_error_app2, Nat.sub_diag in H by lia. cbn [nth_error] in H.
  rewrite firstn_app, Nat.sub_diag, firstn_O, app_nil_r, firstn_all, E in H. discriminate H.
Qed.
(** All the subframes completed in [q] are later than [T]. *)
Definition laterb (h q : list op) (T : Z) : bool :=
  forallb (fun i => match nth_error q i with
    | Some (FeedOsnma data svn g) =>
        match expected_subframe (osnma_words (h ++ firstn i q)) (mkWord data svn g) with Some (_, _, g') => T <? time_of g' | None => true end
    | _ => true end) (seq 0 (List.length q)).
Lemma laterb_ok h q T : laterb h q T = true ->
  forall p y q' hk mk g, q = p ++ y :: q' -> completes (h ++ p) y hk mk g -> T < time_of g.
Proof.
  unfold laterb. rewrite forallb_forall. intros H p y q' hk mk g -> (data & svn & gk & -> & _ & E).
  specialize (H (List.length p)). rewrite in_seq, app_length in H. cbn [List.length] in H. specialize (H ltac:(lia)).
  rewrite nth_error_app2, Nat.sub_diag in H by lia. cbn [nth_error] in H.
  rewrite firstn_app, Nat.sub_diag, firstn_O, app_nil_r, firstn_all, E in H. now apply Z.ltb_lt.
Qed.

Definition c67_q : list op := Eval vm_compute in firstn 112 c67_24h.
Definition c67_x : op := Eval vm_compute in nth 112 c67_24h (FeedOsnma [] 0 (gst_at 0)).
Definition c67_hk : list Z := Eval vm_compute in tx_block c55_header 7 c67_kroot 0.
Example C67_example_resumes : exists o K,
  transmission_ok c67_pk c67_t /\ Forall op_ok ((c67_first ++ c67_q) ++ [c67_x]) /\
  hears None (Some c67_pk) c67_pk c67_t ((c67_first ++ c67_q) ++ [c67_x]) /\
  run (osnma_new None (Some c67_pk) false) c67_first = Ok o /\ current_key (o_keys o) = Some K /\
  (forall p y q' hk mk g', c67_q = p ++ y :: q' -> ~ completes (c67_first ++ p) y hk mk g') /\
  completes (c67_first ++ c67_q) c67_x c67_hk c67_mack (gst_at (tx_t0 + 86400)) /\
  time_of (k_gst K) < time_of (gst_at (tx_t0 + 86400)) <= time_of (k_gst K) + 90000.
Proof.
  destruct (c67_time_ok c67_first tx_t0 ltac:(vm_compute; reflexivity)) as (o & K & Hr & HK & EK).
  exists o, K. split; [exact c67_transmission|]. split; [apply op_okb_ok; vm_compute; reflexivity|].
  split; [apply c67_hears; vm_compute; reflexivity|]. split; [exact Hr|]. split; [exact HK|].
  split; [apply no_subframeb_ok; vm_compute; reflexivity|].
  split. { eexists _, _, _. split; [reflexivity|]. split; vm_compute; reflexivity. }
  rewrite EK. split; [reflexivity|discriminate].
Qed.
Example C67_example_long_outage : exists o K,
  transmission_ok c67_pk c67_t /\ Forall op_ok (c67_first ++ c67_26h) /\ hears None (Some c67_pk) c67_pk c67_t (c67_first ++ c67_26h) /\
  run (osnma_new None (Some c67_pk) false) c67_first = Ok o /\ current_key (o_keys o) = Some K /\
  (forall p x q' hk mk g, c67_26h = p ++ x :: q' -> completes (c67_first ++ p) x hk mk g -> time_of (k_gst K) + 90000 < time_of g).
Proof.
  destruct (c67_time_ok c67_first tx_t0 ltac:(vm_compute; reflexivity)) as (o & K & Hr & HK & EK).
  exists o, K. split; [exact c67_transmission|]. split; [apply op_okb_ok; vm_compute; reflexivity|].
  split; [apply c67_hears; vm_compute; reflexivity|]. split; [exact Hr|]. split; [exact HK|].
  rewrite EK. apply laterb_ok. vm_compute. reflexivity.
Qed.

(** The claim without the limit is false: the receiver has the DSM-KROOT, follows the chain, has an
    outage of 26 hours and receives a newer DSM-KROOT, whose root key is 30 seconds old, and complete
    subframes again, but it does not hold their key. *)
Theorem C67_refuted :
  exists (C : crypto) (B : build) (S : storage) pk t h q x hkroot mack g,
    crypto_ok C /\ storage_ok S /\ transmission_ok pk t /\ Forall op_ok (h ++ q ++ [x]) /\ in_subframe_order (h ++ q ++ [x]) /\
    honest t (h ++ q ++ [x]) /\ kroot_received t h /\ kroot_received t (q ++ [x]) /\ completes (h ++ q) x hkroot mack g /\
    exists o key, run (osnma_new None (Some pk) false) (h ++ q ++ [x]) = Ok o /\ current_key (o_keys o) = Some key /\
      k_gst key <> g.
Proof.
  exists still_crypto, debug_build, full_storage, c67_pk, c67_t, c67_first, (removelast c67_26h), (last c67_26h c67_x),
    (tx_block c55_header 8 c67_kroot2 7), c67_mack, (gst_at (tx_t0 + 93600)).
  split; [exact still_crypto_ok|]. split; [exact full_storage_ok|]. split; [exact c67_transmission|].
  split; [apply op_okb_ok; vm_compute; reflexivity|]. split; [apply in_subframe_orderb; vm_compute; reflexivity|].
  split; [apply honestb_ok; vm_compute; reflexivity|]. split; [apply kroot_receivedb_ok; vm_compute; reflexivity|].
  split; [apply kroot_receivedb_ok; vm_compute; reflexivity|].
  split. { eexists _, _, _. split; [reflexivity|]. split; vm_compute; reflexivity. }
  destruct (c67_time_ok (c67_first ++ removelast c67_26h ++ [last c67_26h c67_x]) tx_t0 ltac:(vm_compute; reflexivity)) as (o & K & Hr & HK & EK).
  exists o, K. split; [exact Hr|]. split; [exact HK|]. intros E. rewrite E in EK. discriminate EK.
Qed.

(** *** Reception for longer than 25 hours *)

(** The hypotheses of C55_key_of_each_subframe can be met by a reception that lasts more than 25
    hours: a subframe 40 hours after the first is within 25 hours of one a day after the first.  The DSM-KROOT
    is replaced in between. *)
Lemma gap_by_witness pk t (received : list op -> Prop) h p1 y p2 hk1 mk1 g1 : transmission_ok pk t -> honest t h -> h = p1 ++ y :: p2 -> completes p1 y hk1 mk1 g1 -> received (p1 ++ [y]) ->
  forallb (fun i => match nth_error h i with
    | Some (FeedOsnma data svn g) =>
        match expected_subframe (osnma_words (firstn i h)) (mkWord data svn g) with
        | Some (_, _, g') => (time_of g' <=? tr_start t + 90000) || (List.length p1 <? i)%nat && (time_of g' <=? time_of g1 + 90000)
        | None => true end
    | _ => true end) (seq 0 (List.length h)) = true ->
  no_long_gap t received h.
Proof.
  intros Htr Hh Eh Hc1 Hr1 H. rewrite forallb_forall in H. intros p x q hk mk g E (data & svn & gk & -> & _ & Ex) _.
  specialize (H (List.length p)). rewrite in_seq, E, app_length in H. cbn [List.length] in H. specialize (H ltac:(lia)).
  rewrite nth_error_app2, Nat.sub_diag in H by lia. cbn [nth_error] in H.
  rewrite firstn_app, Nat.sub_diag, firstn_O, app_nil_r, firstn_all, Ex in H.
  apply orb_true_iff in H. destruct H as [H|H]; [left|right].
  { intros m b Hm _ _. destruct (km_root_ok _ _ _ (proj2 (to_kroots _ _ Htr) m Hm)) as (_ & n0 & _ & -> & _). apply Z.leb_le in H. lia. }
  apply andb_true_iff in H. destruct H as (Hl & H). apply Nat.ltb_lt in Hl. apply Z.leb_le in H.
  exists p1, y, (firstn (List.length p - List.length p1 - 1) p2), hk1, mk1, g1. split; [|auto].
  assert (Ep : p = firstn (List.length p) h) by (rewrite E, firstn_app, Nat.sub_diag, firstn_O, app_nil_r; symmetry; apply firstn_all).
  rewrite Ep at 1. rewrite Eh, firstn_app, firstn_all2 by lia. f_equal.
  replace (List.length p - List.length p1)%nat with (Datatypes.S (List.length p - List.length p1 - 1)) at 1 by lia. reflexivity.
Qed.
Definition c67_days : list op := Eval vm_compute in c67_first ++ c67_day ++ c67_40h.
Definition c67_until_day : list op := Eval vm_compute in removelast (c67_first ++ c67_day).
Definition c67_y : op := Eval vm_compute in last c67_day c67_x.
Example C55_example_40_hours :
  transmission_ok c67_pk c67_t /\ Forall op_ok c67_days /\ honest c67_t c67_days /\ in_subframe_order c67_days /\
  c67_days = removelast c67_days ++ [last c67_days c67_x] /\ no_long_gap c67_t (kroot_received c67_t) c67_days /\
  completes (removelast c67_days) (last c67_days c67_x) (tx_block c55_header 8 c67_kroot2 0) c67_mack (gst_at (tx_t0 + 144000)) /\
  kroot_received c67_t c67_days /\ c67_time c67_days = Some (tx_t0 + 144000).
Proof.
  split; [exact c67_transmission|]. split; [apply op_okb_ok; vm_compute; reflexivity|].
  split; [apply honestb_ok; vm_compute; reflexivity|]. split; [apply in_subframe_orderb; vm_compute; reflexivity|].
  split; [reflexivity|]. split.
  { apply (gap_by_witness c67_pk c67_t (kroot_received c67_t) c67_days c67_until_day c67_y c67_40h
             c67_hk c67_mack (gst_at (tx_t0 + 86400))).
    - exact c67_transmission.
    - apply honestb_ok; vm_compute; reflexivity.
    - reflexivity.
    - eexists _, _, _. split; [reflexivity|]. split; vm_compute; reflexivity.
    - apply kroot_receivedb_ok; vm_compute; reflexivity.
    - vm_compute. reflexivity. }
  split. { eexists _, _, _. split; [reflexivity|]. split; vm_compute; reflexivity. }
  split; [apply kroot_receivedb_ok; vm_compute; reflexivity|]. vm_compute. reflexivity.
Qed.

(** They can be met by a receiver that is started 26 hours after the start of the transmission and
    hears only the new DSM-KROOT. *)
Lemma gap_from_roots t (received : list op -> Prop) h T :
  forallb (fun b => forallb (fun m => negb (b_dsm b =? km_id m) || (T <=? time_of (k_gst (km_root m)))) (tr_kroots t))
          (blocks_received (osnma_words h)) = true ->
  forallb (fun i => match nth_error h i with
    | Some (FeedOsnma data svn g) =>
        match expected_subframe (osnma_words (firstn i h)) (mkWord data svn g) with
        | Some (_, _, g') => time_of g' <=? T + 90000
        | None => true end
    | _ => true end) (seq 0 (List.length h)) = true ->
  no_long_gap t received h.
Proof.
  rewrite !forallb_forall. intros Hb H p x q hk mk g E (data & svn & gk & -> & _ & Ex) _. left. intros m b Hm Hin Hid.
  specialize (H (List.length p)). rewrite in_seq, E, app_length in H. cbn [List.length] in H. specialize (H ltac:(lia)).
  rewrite nth_error_app2, Nat.sub_diag in H by lia. cbn [nth_error] in H.
  rewrite firstn_app, Nat.sub_diag, firstn_O, app_nil_r, firstn_all, Ex in H. apply Z.leb_le in H.
  assert (Hin' : In b (blocks_received (osnma_words h))).
  { replace h with ((p ++ [FeedOsnma data svn gk]) ++ q) by (rewrite E, <- app_assoc; reflexivity).
    destruct (received_blocks_app (p ++ [FeedOsnma data svn gk]) q) as (bl & Ebl). unfold received_blocks in Ebl.
    rewrite Ebl. apply in_or_app. now left. }
  specialize (Hb b Hin'). rewrite forallb_forall in Hb. specialize (Hb m Hm). apply orb_true_iff in Hb. destruct Hb as [Hb|Hb].
  - rewrite Hid, Z.eqb_refl in Hb. discriminate Hb.
  - apply Z.leb_le in Hb. lia.
Qed.
Example C55_example_late_start :
  Forall op_ok c67_26h /\ honest c67_t c67_26h /\ in_subframe_order c67_26h /\
  c67_26h = removelast c67_26h ++ [last c67_26h c67_x] /\ no_long_gap c67_t (kroot_received c67_t) c67_26h /\
  completes (removelast c67_26h) (last c67_26h c67_x) (tx_block c55_header 8 c67_kroot2 7) c67_mack (gst_at (tx_t0 + 93600)) /\
  kroot_received c67_t c67_26h /\ c67_time c67_26h = Some (tx_t0 + 93600).
Proof.
  split; [apply op_okb_ok; vm_compute; reflexivity|].
  split; [apply honestb_ok; vm_compute; reflexivity|]. split; [apply in_subframe_orderb; vm_compute; reflexivity|].
  split; [reflexivity|]. split.
  { apply (gap_from_roots c67_t (kroot_received c67_t) c67_26h (tx_t0 + 93570)); vm_compute; reflexivity. }
  split. { eexists _, _, _. split; [reflexivity|]. split; vm_compute; reflexivity. }
  split; [apply kroot_receivedb_ok; vm_compute; reflexivity|]. vm_compute. reflexivity.
Qed.

Print Assumptions C67_resumes_partial.
Print Assumptions C67_long_outage.
Print Assumptions C67_refuted.

(** Property C69: the change from one chain to the next. *)
From Coq Require Import ZArith String List Bool Lia.
From Verif Require Import Model.Prelude Model.Params Model.Gst Model.Svn Model.Bitfields Model.Tesla Model.Merkle
  Model.Dsm Model.MackStore Model.Nav Model.Osnma
  Spec.TimeSpec Spec.CollectSpec Spec.NavSpec Spec.TeslaSpec Spec.KrootSpec Spec.MerkleSpec Spec.KeySpec Spec.SystemSpec Spec.StoredSpec
  Spec.CompleteSpec Spec.PanicSpec Spec.HonestSpec Spec.RecoverSpec
  Proofs.Base Proofs.GstProofs Proofs.TeslaProofs Proofs.KrootProofs Proofs.SystemProofs Proofs.StoredProofs Proofs.HonestKeys Proofs.HonestProofs
  Proofs.RecoverKeys Proofs.RecoverProofs Proofs.RenewalProofs
  Examples.Vectors Props.SystemProps Examples.Demo Examples.Toy Examples.Transmit Props.KeyProps Props.CompleteProps Props.PanicProps
  Props.HonestProps Props.OutageProps Props.RecoverProps.
Import ListNotations.
Open Scope list_scope.
Open Scope Z_scope.

(** ** C69 *)

(** A receiver hears the transmission [tA] of one chain ([hA]) and then the transmission [tB] of
    another one, under the same public key ([q]); the first block of a DSM in [q] is not of the DSM of the last
    block in [hA], and there are no alert messages.  The receiver does not panic.  Once it has
    received a DSM-KROOT of [tB], it holds after each complete subframe the key of [tB] disclosed
    in it, if there is no gap of more than 25 hours.  It has not received a DSM-KROOT of the new
    chain before. *)
Theorem C69_next_chain_partial :
  forall (C : crypto) (B : build) (S : storage), crypto_ok C -> storage_ok S ->
  forall root user pk slow tA tB hA q x hkroot mack g,
  transmission_ok pk tA -> transmission_ok pk tB -> ch_id (tr_chain tA) <> ch_id (tr_chain tB) ->
  flx_fits (tr_chain tA) (tr_chain tB) -> flx_fits (tr_chain tB) (tr_chain tA) ->
  Forall op_ok (hA ++ q ++ [x]) -> in_subframe_order (q ++ [x]) ->
  hears root user pk tA hA -> key_known root user pk (blocks_received (osnma_words hA)) ->
  honest_after tB hA (q ++ [x]) -> dsm_changes hA (q ++ [x]) ->
  no_alert_after root hA (q ++ [x]) -> pkrs_sound_after root hA (q ++ [x]) ->
  no_long_gap_after tB hA (osnma_new root user slow) (q ++ [x]) ->
  completes (hA ++ q) x hkroot mack g -> kroot_received_after tB hA (q ++ [x]) ->
  exists o key, run (osnma_new root user slow) (hA ++ q ++ [x]) = Ok o /\ current_key (o_keys o) = Some key /\
    k_gst key = g /\ k_chain key = tr_chain tB /\ key_bytes key = tr_key tB (time_of g).
Proof.
  intros C B S HC HS root user pk slow tA tB hA q x hkroot mack g.
  exact (renewal_key HC HS root user slow pk tA tB hA q x hkroot mack g).
Qed.

(** The DSM-KROOT of the next chain may be announced while the old chain is in force: the receiver
    then holds a root key [K] of the next chain.  If the subframes of the new chain are more than
    25 hours later than [K], the receiver never gets another key of this chain, whatever newer DSM-KROOTs
    it receives. *)
Theorem C69_announced_too_early :
  forall (C : crypto) (B : build) (S : storage), crypto_ok C -> storage_ok S ->
  forall root user pk slow t h0 o0 q K,
  transmission_ok pk t -> Forall op_ok (h0 ++ q) -> run (osnma_new root user slow) h0 = Ok o0 ->
  prepared pk t root h0 o0 q -> pkrs_sound_after root h0 q -> chains_usable t o0 ->
  held (o_keys o0) K -> chain_of K = ch_id (tr_chain t) ->
  (forall p x q' hkroot mack g, q = p ++ x :: q' -> completes (h0 ++ p) x hkroot mack g ->
     time_of (k_gst K) + 90000 < time_of g) ->
  exists o, run (osnma_new root user slow) (h0 ++ q) = Ok o /\
    forall K', held (o_keys o) K' -> chain_of K' = ch_id (tr_chain t) -> K' = K.
Proof.
  intros C B S HC HS root user pk slow t h0 o0 q K Ht Hok Hr0 HP Hps Hus HK Hcid Hlate.
  pose proof (proj1 (proj1 (Forall_app _ _ _) Hok)) as Hok0.
  destruct (after_total HC HS pk t Ht root user slow h0 o0 Hr0 Hok0 q Hok HP Hps Hus) as (o & Hr).
  exists o. split; [exact Hr|].
  exact (stale_kept HC HS pk t Ht root user slow h0 o0 Hr0 Hok0 q o K Hok HP HK Hcid Hlate Hr).
Qed.

(** *** A second chain *)

(** Chain 1 is that of C67.  Chain 2 has an id of its own; it is announced with a DSM-KROOT that is
    sent while chain 1 is in force (DSM 9), and comes into force 26 hours later with a new
    DSM-KROOT (DSM 10). *)
Local Existing Instance still_crypto.
Definition c69_chain : chain := Eval vm_compute in
  mkChain 2 HashSha256 MacHmacSha256 16 40 33 (fold_left (fun a b => 256 * a + b) (tx_alpha chain2) 0).
Definition c69_header : Z := Eval vm_compute in tx_header 2 2 1.
Definition c69_msg (hd t : Z) : list Z :=
  let s := firstn 12 (kroot_signed_part chain2 t) ++ c67_key in
  let sig := toy_sign (pk_bytes 3) (hd :: s) in
  let d := (2 * 16 + 3) :: s ++ sig in
  d ++ firstn (104 - List.length d) still_hash.
Definition c69_announced : list Z := Eval vm_compute in c69_msg c55_header tx_t0.
Definition c69_kroot : list Z := Eval vm_compute in c69_msg c69_header (tx_t0 + 93600).
Definition c69_root_at (t : Z) : tkey := mkKey (c67_key ++ repeat 0 16) c69_chain (gst_at (t - 30)).
Definition c69_early : tkey := Eval vm_compute in c69_root_at tx_t0.
Definition c69_root : tkey := Eval vm_compute in c69_root_at (tx_t0 + 93600).
Definition c69_m : kroot_message := mkKM 10 c69_header c69_kroot c69_root.
Definition c69_t : transmission := mkTr c69_chain [c69_m] (tx_t0 - 30) (fun _ => c67_key) 4900.
Definition c69_f : kroot_fields := Eval vm_compute in
  mkKF 2 3 2 0 0 0 4 9 33 0 1200 28 (ch_alpha c69_chain) c67_key (sub 29 93 c69_kroot) (sub 93 104 c69_kroot).
Lemma c69_layout : kroot_layout c69_kroot c69_f.
Proof. c67_layout_tac. Qed.
Lemma c69_previous t : previous_key c69_chain c67_key t c67_key.
Proof.
  set (bits := bits_of_bytes c67_key ++ gst_field (t - 30) ++ be 48 (ch_alpha c69_chain)).
  assert (Hl : List.length bits = (8 * 26)%nat).
  { unfold bits, gst_field. rewrite !app_length, !be_length. reflexivity. }
  exists (bytes_of_bits bits). split; [|reflexivity]. split; [exact (bytes_of_bits_are_bytes 26 bits Hl)|].
  exists 0%nat. split; [lia|]. rewrite app_nil_r. exact (bits_of_bytes_bits 26 bits Hl).
Qed.
Lemma c69_transmission : transmission_ok c67_pk c69_t.
Proof.
  constructor; cbn [c69_t tr_chain tr_kroots tr_start tr_key tr_length].
  - vm_compute. discriminate.
  - split; [repeat constructor; cbn; intuition discriminate|]. intros m [<-|[]].
    assert (E : key_from_dsm_kroot c69_header c69_kroot (pk_key c67_pk) = Ok (ROk c69_root)) by (vm_compute; reflexivity).
    apply (key_from_dsm_kroot_sound still_crypto_ok) in E;
      [|unfold is_byte, c69_header; lia|apply all_bytes; vm_compute; reflexivity].
    destruct E as (f' & F1 & F2 & F3 & _). rewrite (kroot_layout_fun _ _ _ F1 c69_layout) in F2, F3. clear F1.
    constructor; cbn [c69_m km_id km_header km_data km_root].
    + split; [unfold is_byte, c69_header; lia|]. split; [right; reflexivity|]. split; [reflexivity|discriminate].
    + lia.
    + split; [apply all_bytes; vm_compute; reflexivity|]. exists c69_f. split; [exact c69_layout|]. split; [reflexivity|].
      split; [exact F2|]. split; [exact F3|]. split; [cbn; lia|]. split; cbn; lia.
    + exists 8%nat. split; reflexivity.
    + split; [reflexivity|]. exists 3120%nat. cbn [c69_t tr_length tr_start tr_key]. split; [lia|]. split; vm_compute; reflexivity.
  - exact I.
  - apply chain_fitsb_ok. vm_compute. reflexivity.
  - intros n _. split; [reflexivity|]. split; [apply all_bytes; reflexivity|]. exact (c69_previous _).
Qed.

(** The announcement, 30 seconds after the DSM-KROOT of chain 1; chain 2, 26 hours after it. *)
Definition c69_A : list op := Eval vm_compute in tx_dsm (tx_t0 + 30) c55_header 9 c69_announced (fun _ => c67_mack).
Definition c69_26h : list op := Eval vm_compute in tx_dsm (tx_t0 + 93600) c69_header 10 c69_kroot (fun _ => c67_mack).
Definition c69_q : list op := Eval vm_compute in removelast c69_26h.
Definition c69_x : op := Eval vm_compute in last c69_26h c67_x.
Definition c69_hk : list Z := Eval vm_compute in tx_block c69_header 10 c69_kroot 7.
(** The receiver also hears a subframe of chain 1 after 24 hours. *)
Definition c69_h0 : list op := Eval vm_compute in c67_first ++ c69_A ++ c67_day.

(** No long gap: all the subframes are within 25 hours of the root keys of the DSM-KROOTs. *)
Lemma gap_after_roots t h0 o0 q T : forallb (fun m => T <=? time_of (k_gst (km_root m))) (tr_kroots t) = true ->
  (forall K, held (o_keys o0) K -> chain_of K <> ch_id (tr_chain t)) ->
  forallb (fun i => match nth_error q i with
    | Some (FeedOsnma data svn g) =>
        match expected_subframe (osnma_words (h0 ++ firstn i q)) (mkWord data svn g) with
        | Some (_, _, g') => time_of g' <=? T + 90000
        | None => true end
    | _ => true end) (seq 0 (List.length q)) = true ->
  no_long_gap_after t h0 o0 q.
Proof.
  rewrite !forallb_forall. intros Hm Hno H p x q' hk mk g E (data & svn & gk & -> & _ & Ex) _. left.
  split; [|intros K HK Hcid; elim (Hno K HK Hcid)]. intros m b Hin _ _.
  specialize (H (List.length p)). rewrite in_seq, E, app_length in H. cbn [List.length] in H. specialize (H ltac:(lia)).
  rewrite nth_error_app2, Nat.sub_diag in H by lia. cbn [nth_error] in H.
  rewrite firstn_app, Nat.sub_diag, firstn_O, app_nil_r, firstn_all, Ex in H. apply Z.leb_le in H.
  specialize (Hm m Hin). apply Z.leb_le in Hm. lia.
Qed.
Example C69_example :
  transmission_ok c67_pk c67_t /\ transmission_ok c67_pk c69_t /\ ch_id (tr_chain c67_t) <> ch_id (tr_chain c69_t) /\
  flx_fits (tr_chain c67_t) (tr_chain c69_t) /\ flx_fits (tr_chain c69_t) (tr_chain c67_t) /\
  Forall op_ok (c67_first ++ c69_q ++ [c69_x]) /\ in_subframe_order (c69_q ++ [c69_x]) /\
  hears None (Some c67_pk) c67_pk c67_t c67_first /\
  key_known None (Some c67_pk) c67_pk (blocks_received (osnma_words c67_first)) /\
  honest_after c69_t c67_first (c69_q ++ [c69_x]) /\ dsm_changes c67_first (c69_q ++ [c69_x]) /\
  no_alert_after None c67_first (c69_q ++ [c69_x]) /\ pkrs_sound_after None c67_first (c69_q ++ [c69_x]) /\
  no_long_gap_after c69_t c67_first (osnma_new None (Some c67_pk) false) (c69_q ++ [c69_x]) /\
  completes (c67_first ++ c69_q) c69_x c69_hk c67_mack (gst_at (tx_t0 + 93600)) /\
  kroot_received_after c69_t c67_first (c69_q ++ [c69_x]) /\
  c67_time c67_first = Some tx_t0 /\ c67_time (c67_first ++ c69_q ++ [c69_x]) = Some (tx_t0 + 93600).
Proof.
  split; [exact c67_transmission|]. split; [exact c69_transmission|]. split; [discriminate|].
  split; [apply chain_fitsb_ok; vm_compute; reflexivity|]. split; [apply chain_fitsb_ok; vm_compute; reflexivity|].
  split; [apply op_okb_ok; vm_compute; reflexivity|]. split; [apply in_subframe_orderb; vm_compute; reflexivity|].
  split; [apply c67_hears; vm_compute; reflexivity|]. split; [left; reflexivity|].
  split; [apply honest_afterb_ok; vm_compute; reflexivity|]. split; [apply dsm_changesb_ok; vm_compute; reflexivity|].
  split; [intros r b1 b b2 id d f Hr; discriminate Hr|]. split; [intros r b1 b b2 id d Hr; discriminate Hr|].
  split. { apply (gap_after_roots c69_t _ _ _ (tx_t0 + 93570)); [vm_compute; reflexivity| |vm_compute; reflexivity].
    intros K [HK|HK]; discriminate HK. }
  split. { eexists _, _, _. split; [reflexivity|]. split; vm_compute; reflexivity. }
  split; [apply kroot_afterb_ok; vm_compute; reflexivity|]. split; vm_compute; reflexivity.
Qed.

(** *** With the announcement *)

(** The keys held, and the key in force. *)
Definition c69_view (h : list op) : option (list tkey * option tkey) :=
  match run (osnma_new None (Some c67_pk) false) h with
  | Ok o =>
      match ps_current (o_pub o) with
      | Some (mkPub (VkP256 k) i) =>
          if bytes_eqb k (pk_bytes 3) && (i =? 3) then Some (held_list (o_keys o), current_key (o_keys o)) else None
      | _ => None
      end
  | Panic => None
  end.
Lemma c69_view_ok h l c : c69_view h = Some (l, c) ->
  exists o, run (osnma_new None (Some c67_pk) false) h = Ok o /\ ps_current (o_pub o) = Some c67_pk /\
    held_list (o_keys o) = l /\ current_key (o_keys o) = c.
Proof.
  unfold c69_view. destruct (run _ h) as [o|]; [|discriminate]. destruct (ps_current (o_pub o)) as [[[k|k] i]|] eqn:E; [|discriminate..].
  destruct (bytes_eqb k (pk_bytes 3) && (i =? 3)) eqn:Ek; [|discriminate]. apply andb_true_iff in Ek. destruct Ek as (E1 & E2).
  apply bytes_eqb_eq in E1. apply Z.eqb_eq in E2. subst k i. intros H. exists o. split; [reflexivity|]. split; [exact E|].
  split; congruence.
Qed.
Lemma in_held_list ks k : In k (held_list ks) -> held ks k.
Proof.
  unfold held_list, held. intros H. apply in_app_or in H.
  destruct H as [H|H]; [left; destruct (ks_k0 ks) as [k'|]|right; destruct (ks_k1 ks) as [k'|]];
    cbn [In] in H; destruct H; try contradiction; congruence.
Qed.
(** With the constant hash the keys of the two chains are the same bytes, so that the key of the
    first subframe of chain 2, before the DSM-KROOT of chain 2 is complete, is taken for a key of chain
    1, [c69_last2_A]. *)
Definition c69_last2_A : tkey := Eval vm_compute in mkKey (c67_key ++ repeat 0 16) c33_chain (gst_at (tx_t0 + 93600)).
Definition c69_last_A : tkey := Eval vm_compute in mkKey (c67_key ++ repeat 0 16) c33_chain (gst_at (tx_t0 + 86400)).
Lemma c69_prepared h0 l c q : c69_view h0 = Some (l, c) ->
  (forall K, In K l -> k_chain K = c69_chain -> K = c69_early) -> (forall K, In K l -> k_chain K = c33_chain \/ k_chain K = c69_chain) ->
  honest_afterb c69_t h0 q = true -> dsm_changesb h0 q = true ->
  forallb (fun y => time_of (k_gst c69_early) <=? time_of (subframe_of (op_gst y))) q = true ->
  exists o0, run (osnma_new None (Some c67_pk) false) h0 = Ok o0 /\ prepared c67_pk c69_t None h0 o0 q /\
    chains_usable c69_t o0 /\ held_list (o_keys o0) = l /\ current_key (o_keys o0) = c.
Proof.
  intros Hv Hl Hl2 Hh Hd Hq. destruct (c69_view_ok _ _ _ Hv) as (o0 & Hr & Hp & Hk & Hc). exists o0. split; [exact Hr|].
  split; [|split; [|auto]].
  - constructor; [exact Hp| |now apply honest_afterb_ok|now apply dsm_changesb_ok|intros r b1 b b2 id d f Hr'; discriminate Hr'].
    intros K HK Hci. apply held_list_in in HK. rewrite Hk in HK.
    assert (EK : K = c69_early).
    { apply Hl; [exact HK|]. destruct (Hl2 K HK) as [E|E]; [|exact E]. unfold chain_of in Hci. rewrite E in Hci. discriminate Hci. }
    rewrite EK. split.
    + split; [reflexivity|]. exists 0%nat. cbn [c69_t tr_length tr_start tr_key]. split; [lia|]. split; vm_compute; reflexivity.
    + intros y Hy. rewrite forallb_forall in Hq. apply Z.leb_le. exact (Hq y Hy).
  - assert (H : forall c, c = tr_chain c69_t \/ (exists K, held (o_keys o0) K /\ k_chain K = c) -> c = c69_chain \/ c = c33_chain).
    { intros c' [->|(K & HK & <-)]; [now left|]. apply held_list_in in HK. rewrite Hk in HK. destruct (Hl2 K HK) as [E|E]; auto. }
    intros c1 c2 H1 H2. destruct (H c1 H1) as [->| ->], (H c2 H2) as [->| ->]; apply chain_fitsb_ok; vm_compute; reflexivity.
Qed.
Lemma c69_start q : honest_afterb c69_t c69_h0 q = true -> dsm_changesb c69_h0 q = true ->
  forallb (fun y => time_of (k_gst c69_early) <=? time_of (subframe_of (op_gst y))) q = true ->
  exists o0, run (osnma_new None (Some c67_pk) false) c69_h0 = Ok o0 /\ prepared c67_pk c69_t None c69_h0 o0 q /\
    chains_usable c69_t o0 /\ held_list (o_keys o0) = [c69_last_A; c69_early] /\ current_key (o_keys o0) = Some c69_last_A.
Proof.
  apply c69_prepared.
  - vm_compute. reflexivity.
  - intros K [<-|[<-|[]]] E; [discriminate E|reflexivity].
  - intros K [<-|[<-|[]]]; [left|right]; reflexivity.
Qed.
Example C69_example_announced : exists o0,
  transmission_ok c67_pk c69_t /\ Forall op_ok (c69_h0 ++ c69_26h) /\ run (osnma_new None (Some c67_pk) false) c69_h0 = Ok o0 /\
  prepared c67_pk c69_t None c69_h0 o0 c69_26h /\ pkrs_sound_after None c69_h0 c69_26h /\ chains_usable c69_t o0 /\
  held (o_keys o0) c69_early /\ chain_of c69_early = ch_id (tr_chain c69_t) /\
  (forall p x q' hkroot mack g, c69_26h = p ++ x :: q' -> completes (c69_h0 ++ p) x hkroot mack g ->
     time_of (k_gst c69_early) + 90000 < time_of g) /\
  kroot_received_after c69_t c69_h0 c69_26h.
Proof.
  destruct (c69_start c69_26h ltac:(vm_compute; reflexivity) ltac:(vm_compute; reflexivity) ltac:(vm_compute; reflexivity)) as (o0 & Hr & HP & Hus & Hl & Hc).
  exists o0. split; [exact c69_transmission|]. split; [apply op_okb_ok; vm_compute; reflexivity|]. split; [exact Hr|].
  split; [exact HP|]. split; [intros r b1 b b2 id d Hr'; discriminate Hr'|]. split; [exact Hus|].
  split; [apply in_held_list; rewrite Hl; right; now left|]. split; [reflexivity|].
  split; [apply laterb_ok; vm_compute; reflexivity|]. apply kroot_afterb_ok; vm_compute; reflexivity.
Qed.

(** So the claim is false if the next chain may be announced earlier than 25 hours before it comes
    into force.  The receiver follows the first chain, at most 25 hours before the subframe [g]; it
    receives [g] of the next chain and a DSM-KROOT whose root key is 30 seconds old; it has no key of
    this chain for [g]. *)
Theorem C69_refuted :
  exists (C : crypto) (B : build) (S : storage) pk tA tB h0 o0 KA q x hkroot mack g o,
    crypto_ok C /\ storage_ok S /\ transmission_ok pk tA /\ transmission_ok pk tB /\
    Forall op_ok (h0 ++ q ++ [x]) /\ in_subframe_order (h0 ++ q ++ [x]) /\
    run (osnma_new None (Some pk) false) h0 = Ok o0 /\ current_key (o_keys o0) = Some KA /\ of_transmission tA KA /\
    time_of g <= time_of (k_gst KA) + 90000 /\
    prepared pk tB None h0 o0 (q ++ [x]) /\ kroot_received_after tB h0 (q ++ [x]) /\ completes (h0 ++ q) x hkroot mack g /\
    run (osnma_new None (Some pk) false) (h0 ++ q ++ [x]) = Ok o /\
    forall key, held (o_keys o) key -> k_chain key = tr_chain tB -> k_gst key <> g.
Proof.
  destruct (c69_start (c69_q ++ [c69_x]) ltac:(vm_compute; reflexivity) ltac:(vm_compute; reflexivity) ltac:(vm_compute; reflexivity)) as (o0 & Hr0 & HP & Hus & Hl & Hc).
  destruct (c69_view_ok (c69_h0 ++ c69_q ++ [c69_x]) [c69_last2_A; c69_early] (Some c69_early) ltac:(vm_compute; reflexivity)) as (o & Hr & _ & Hk & _).
  exists still_crypto, debug_build, full_storage, c67_pk, c67_t, c69_t, c69_h0, o0, c69_last_A, c69_q, c69_x, c69_hk, c67_mack, (gst_at (tx_t0 + 93600)), o.
  split; [exact still_crypto_ok|]. split; [exact full_storage_ok|]. split; [exact c67_transmission|]. split; [exact c69_transmission|].
  split; [apply op_okb_ok; vm_compute; reflexivity|]. split; [apply in_subframe_orderb; vm_compute; reflexivity|].
  split; [exact Hr0|]. split; [exact Hc|].
  split. { split; [reflexivity|]. exists 2881%nat. cbn [c67_t tr_length tr_start tr_key]. split; [lia|]. split; vm_compute; reflexivity. }
  split; [vm_compute; discriminate|]. split; [exact HP|]. split; [apply kroot_afterb_ok; vm_compute; reflexivity|].
  split. { eexists _, _, _. split; [reflexivity|]. split; vm_compute; reflexivity. }
  split; [exact Hr|]. intros key Hkey. apply held_list_in in Hkey. rewrite Hk in Hkey. destruct Hkey as [<-|[<-|[]]]; [intros E; discriminate E|discriminate].
Qed.

Print Assumptions C69_next_chain_partial.
Print Assumptions C69_announced_too_early.
Print Assumptions C69_refuted.

(** Properties C46 and C54: the chain in force, and Slow MAC when it changes. *)
From Coq Require Import ZArith String List Bool Lia.
From Verif Require Import Model.Prelude Model.Params Model.Gst Model.Svn Model.Bitfields Model.Tesla Model.Merkle
  Model.Dsm Model.MackStore Model.Nav Model.Osnma
  Spec.TimeSpec Spec.CollectSpec Spec.NavSpec Spec.TeslaSpec Spec.KrootSpec Spec.KeySpec Spec.SystemSpec Spec.StoredSpec Spec.CompleteSpec
  Proofs.Base Proofs.GstProofs Proofs.TeslaProofs Proofs.MackValidProofs Proofs.SystemProofs Proofs.KeyStoreProofs
  Proofs.NavProofs Proofs.NavInv Proofs.ChangeProofs Proofs.RecentProofs Proofs.StoredProofs Proofs.AuthProofs Proofs.ForceProofs
  Examples.Vectors Props.SystemProps Examples.Demo Examples.Toy Examples.Transmit Props.KeyProps Props.CompleteProps.
Import ListNotations.
Open Scope list_scope.
Open Scope Z_scope.
Local Existing Instance toy_crypto.

(** ** C54 *)

(** A KROOT that verifies puts in force the chain that is in the NMA header (whatever the chain
    of the KROOT itself is).  The time is noted if another chain was in force. *)
Theorem C54_kroot_sets_the_chain_in_force :
  forall (C : crypto) (B : build) (S : storage), crypto_ok C -> storage_ok S ->
  forall root user slow h o d hd g f pk k, Forall op_ok h -> run (osnma_new root user slow) h = Ok o ->
  is_byte hd -> Forall is_byte (dm_data d) -> dm_type d = DsmKroot ->
  kroot_verifies o (dm_data d) hd f pk -> kroot_key f k -> gst_ok (k_gst k) ->
  (overflow_checks = true -> 30 <= 604800 * kf_wn f + 3600 * kf_towh f) ->
  (forall k521, pk_key pk = VkP521 k521 -> feature_p521 = true) ->
  header_cpks hd <> cpks_alert ->
  exists o' start, process_dsm o d hd g = Ok o' /\ ks_cif (o_keys o') = Some (mkCif (header_chain hd) start) /\
    ((start = Some g /\ exists c, ks_cif (o_keys o) = Some c /\ cif_cid c <> header_chain hd) \/
     (start = None /\ forall c, ks_cif (o_keys o) = Some c -> cif_cid c = header_chain hd)).
Proof.
  intros C B S HC HS root user slow h o d hd g f pk k Hok Hrun.
  destruct (reachable_inv HC HS root user slow h o Hok Hrun) as (_ & Hst & _).
  exact (kroot_chain_in_force HC o d hd g f pk k Hst).
Qed.

(** At any time, the chain in force is the one announced with the last KROOT that verified and
    changed it; from then on it has not changed. *)
Theorem C54_chain_in_force_was_announced :
  forall (C : crypto) (B : build) (S : storage), crypto_ok C -> storage_ok S ->
  forall root user slow h o c, Forall op_ok h -> run (osnma_new root user slow) h = Ok o -> ks_cif (o_keys o) = Some c ->
  exists p x q o1 o2 id d svn g hk mk f pk, h = p ++ x :: q /\ run (osnma_new root user slow) p = Ok o1 /\ step o1 x = Ok o2 /\ id < 12 /\
    dsm_received (p ++ [x]) id d /\ subframe_received (p ++ [x]) svn g hk mk /\ kroot_verifies o1 d (nth 0 hk 0) f pk /\
    cif_cid c = header_chain (nth 0 hk 0) /\
    match cif_start c with
    | Some g' => g' = g /\ exists c', ks_cif (o_keys o1) = Some c' /\ cif_cid c' <> cif_cid c
    | None => forall c', ks_cif (o_keys o1) = Some c' -> cif_cid c' = cif_cid c
    end /\
    forall q1 q2 o3, q = q1 ++ q2 -> run o2 q1 = Ok o3 -> ks_cif (o_keys o3) = Some c.
Proof. intros C B S HC HS root user slow h o c. exact (cif_announced HC HS root user slow h o c). Qed.

(** An OSNMA word changes what is stored about navigation data only when it completes a subframe
    with a key of the chain in force, later than any key of that chain held before. *)
Theorem C54_tags_need_the_chain_in_force :
  forall (C : crypto) (B : build) (S : storage), crypto_ok C -> storage_ok S ->
  forall root user slow h o data svn g o', Forall op_ok h -> op_ok (FeedOsnma data svn g) -> run (osnma_new root user slow) h = Ok o ->
  step o (FeedOsnma data svn g) = Ok o' -> o_nav o' <> o_nav o ->
  exists c key, ks_cif (o_keys o') = Some c /\ held (o_keys o') key /\ chain_of key = cif_cid c /\ k_gst key = subframe_of g /\
    forall k, held (o_keys o) k -> chain_of k = chain_of key -> time_of (k_gst k) < time_of (k_gst key).
Proof. intros C B S HC HS root user slow h o data svn g o'. exact (nav_change_chain HC HS root user slow h o data svn g o'). Qed.

(** *** Chain 1, then chain 2 announced and finally put in force *)

(** The MACK message of satellite 1 at [tx_t0] with the MACSEQ of chain 1, the chain in force, and
    with a Slow MAC tag (number 4) of chain 2, the chain that is in force when its key is
    disclosed. *)
Definition c46_mack : list Z := Eval vm_compute in
  (let m := tx_mack1 chain1 tx_t0 in
   firstn 28 m ++ tx_tag (tx_key chain2 (tx_t0 + 330)) (Some 1) 1 tx_t0 5 (tx_ced demo_nav1) ++ skipn 33 m).
(** Navigation data; a KROOT of chain 1; a KROOT of chain 2 while chain 1 is still in force;
    then chain 2 is in force. *)
Definition c46_one : list op := Eval vm_compute in
  (tx_nav (tx_t0 - 30)
   ++ tx_kroot_ops tx_t0 7 (tx_header 2 1 1) 3 chain1 (fun svn => if svn =? 1 then c46_mack else tx_mack0 chain1 tx_t0)
   ++ tx_kroot_ops (tx_t0 + 30) 8 (tx_header 2 1 2) 3 chain2 (fun _ => tx_mack0 chain1 (tx_t0 + 30))).
Definition c46_two : list op := Eval vm_compute in
  tx_kroot_ops (tx_t0 + 60) 9 (tx_header 2 2 2) 3 chain2 (fun _ => tx_mack0 chain2 (tx_t0 + 60)).
(** Another KROOT with chain 2 in force. *)
Definition c46_again : list op := Eval vm_compute in
  tx_kroot_ops (tx_t0 + 90) 10 (tx_header 2 2 2) 3 chain2 (fun _ => tx_mack0 chain2 (tx_t0 + 90)).
(** The subframe that discloses the key for the Slow MAC tag. *)
Definition c46_last : list op := Eval vm_compute in
  tx_one (tx_t0 + 330) (tx_header 2 2 2) 9 (tx_kroot (tx_header 2 2 2) 3 chain2) (tx_mack0 chain2 (tx_t0 + 330)).
Definition c46_new : osnma := osnma_new None (Some (tx_pub 3)) true.

Example C54_example : Forall op_ok (c46_one ++ c46_two) /\
  tx_held (run c46_new c46_one)
  = Ok (false, (Some 3, None), (Some (1, gst_at (tx_t0 + 30)), Some (2, gst_at (tx_t0 - 30))), Some (mkCif 1 None)) /\
  tx_held (run c46_new (c46_one ++ c46_two))
  = Ok (false, (Some 3, None), (Some (1, gst_at (tx_t0 + 30)), Some (2, gst_at (tx_t0 + 60))),
        Some (mkCif 2 (Some (gst_at (tx_t0 + 60))))).
Proof. split; [apply op_okb_ok; vm_compute; reflexivity|]. vm_compute. split; reflexivity. Qed.
(** A KROOT as in the first theorem: of chain 2, with chain 1 in force. *)
Example C54_example_kroot : Forall is_byte (tx_kroot nominal 3 chain2) /\ is_byte nominal /\
  exists f k, kroot_verifies tx_new (tx_kroot nominal 3 chain2) nominal f (tx_pub 3) /\
  kroot_key f k /\ gst_ok (k_gst k) /\ header_cpks nominal <> cpks_alert /\ kf_cid f = 2 /\ header_chain nominal = 1.
Proof.
  assert (Hb : is_byte nominal) by (vm_compute; split; [discriminate|reflexivity]).
  destruct (kroot_example tx_new nominal 3 chain2) as (H0 & f & k & H1 & H2 & H3);
    [now left|exact Hb|vm_compute; reflexivity|vm_compute; reflexivity|].
  split; [exact H0|]. split; [exact Hb|]. exists f, k. split; [exact H1|]. split; [exact H2|]. split; [exact H3|].
  split; [discriminate|]. split; [|reflexivity].
  assert (E : exists k', key_from_dsm_kroot nominal (tx_kroot nominal 3 chain2) (pk_key (tx_pub 3)) = Ok (ROk k') /\ chain_of k' = 2)
    by (eexists; vm_compute; split; reflexivity).
  destruct E as (k' & E & E').
  destruct H1 as (F1 & _).
  destruct (KrootProofs.key_from_dsm_kroot_sound toy_crypto_ok _ _ _ _ Hb H0 E) as (f' & G1 & _ & G3 & _).
  rewrite (KrootProofs.kroot_layout_fun _ _ _ F1 G1), <- (kk_id _ _ G3). exact E'.
Qed.
(** The call of the third theorem. *)
Definition c54_h : list op := Eval vm_compute in removelast tx_nominal.
Example C54_example_tags : Forall op_ok (c54_h ++ [c33_x]) /\
  exists o o', run tx_new c54_h = Ok o /\ step o c33_x = Ok o' /\ o_nav o' <> o_nav o.
Proof.
  split; [apply op_okb_ok; vm_compute; reflexivity|].
  assert (H : (o <- run tx_new c54_h ;; o' <- step o c33_x ;; x <- getter Ced o 2 ;; x' <- getter Ced o' 2 ;;
               Ok (is_none x, is_none x')) = Ok (true, false)) by (vm_compute; reflexivity).
  destruct (run tx_new c54_h) as [o|]; cbn [bind] in H; [|discriminate H].
  destruct (step o c33_x) as [o'|] eqn:Es; cbn [bind] in H; [|discriminate H].
  exists o, o'. split; [reflexivity|]. split; [exact Es|]. intros E.
  cbn [getter] in H. unfold get_ced_and_status in H. rewrite E in H.
  destruct (nav_get Ced (o_nav o) 2) as [[y|]|]; cbn [bind is_none] in H; discriminate H.
Qed.

(** ** C46 *)

(** After the calls [h] the receiver is in the state [o].  The call [x] completes a subframe [g],
    which discloses a valid key [key] of the chain in force, [c].  This chain is in force since
    [g0], which is after the subframe whose key belongs to the MACSEQ of the MACK message of [gm]
    (ten subframes before [g]).  A key [P] of the previous chain is still held; [mkb] is the key
    computed from it for that subframe, and the MACSEQ of the MACK message is right for it.  With
    the key [key] of the new chain, a Slow MAC tag of the MACK message verifies for the data held.

    Then the data has the bits of the tag in addition after the call; if the tag has 40 bits the
    getter returns data. *)
Theorem C46_previous_chain_authenticates :
  forall (C : crypto) (B : build) (S : storage), crypto_ok C -> storage_ok S ->
  forall root user slow h o x o' hkroot mack g ks K key c g0 P n mkb prna gm j gn e svn cop tag,
  Forall op_ok (h ++ [x]) -> in_subframe_order (h ++ [x]) ->
  run (osnma_new root user slow) h = Ok o -> step o x = Ok o' ->
  completes h x hkroot mack g ->
  keys_then o hkroot g ks -> current_key ks = Some K -> discloses K mack g key ->
  ks_cif ks = Some (mkCif c (Some g0)) -> gst_ok g0 -> time_of g - 300 < time_of g0 ->
  held ks P -> chain_of P <> c -> time_of (k_gst P) = time_of g - 300 + 30 * Z.of_nat n ->
  key_before (k_chain P) n (key_bytes P) (time_of (k_gst P)) mkb ->
  (j < nav_depth)%nat -> stored Ced (o_nav o) j svn e -> stored_gst (o_nav o) j = Some gn -> 1 <= svn <= 36 ->
  oldest_word e < cop < 16 -> (12 <= mack_depth)%nat ->
  gst_ok gm -> time_of gn + 30 = time_of gm -> time_of gm + 330 = time_of g ->
  holds_tag o prna gm (k_chain P) mkb key svn 12 cop (data_of Ced e) tag ->
  (exists e', stored Ced (o_nav o') j svn e' /\ data_of Ced e' = data_of Ced e /\
     Z.min 65535 (e_authbits e + Z.of_nat (List.length tag)) <= e_authbits e') /\
  ((40 <= List.length tag)%nat -> (forall w, In w (inav_words (h ++ [x])) -> 1 <= g_wn (nw_gst w)) ->
   exists d, getter Ced o' svn = Ok (Some d)).
Proof. intros C B S HC HS root user slow. exact (slow_tag_previous_chain HS HC root user slow). Qed.

(** *** The hypotheses can be met, and the property is false in general *)

(** The same transmission without and with another KROOT (with the same chain in force) after
    the change. *)
Definition c46_h (again : bool) : list op :=
  if again then c46_one ++ c46_two ++ c46_again ++ removelast c46_last else c46_one ++ c46_two ++ removelast c46_last.
Definition c46_x : op := Eval vm_compute in (last c46_last (FeedOsnma [] 0 (gst_at 0))).
Definition c46_hk : list Z := Eval vm_compute in tx_block (tx_header 2 2 2) 9 (tx_kroot (tx_header 2 2 2) 3 chain2) 0.
Definition c46_mack_x : list Z := Eval vm_compute in tx_mack0 chain2 (tx_t0 + 330).
Definition c46_chain : chain := Eval vm_compute in
  mkChain 2 HashSha256 MacHmacSha256 16 40 33 (fold_left (fun a b => 256 * a + b) (tx_alpha chain2) 0).
Definition c46_key_at (t : Z) : tkey := mkKey (tx_key chain2 t ++ repeat 0 16) c46_chain (gst_at t).
Definition c46_K60 : tkey := Eval vm_compute in c46_key_at (tx_t0 + 60).
Definition c46_K90 : tkey := Eval vm_compute in c46_key_at (tx_t0 + 90).
Definition c46_K (again : bool) : tkey := if again then c46_K90 else c46_K60.
Definition c46_key : tkey := Eval vm_compute in c46_key_at (tx_t0 + 330).
Definition c46_cif (again : bool) : chain_in_force := mkCif 2 (if again then None else Some (gst_at (tx_t0 + 60))).
(** [c33_key] is the key of chain 1 at [tx_t0 + 30]. *)
Definition c46_ks (again : bool) : key_store :=
  mkKeys (Some c33_key) (Some (c46_K again)) (Some (c46_cif again)).
Definition c46_view (again : bool) :=
  o <- run c46_new (c46_h again) ;; o' <- step o c46_x ;; m <- mack_get (o_mack o) 1 (gst_at tx_t0) ;;
  '(cd, d) <- dsm_feed (o_dsm o) (nth 1 c46_hk 0) (skipn 2 c46_hk) ;; r <- getter Ced o' 1 ;;
  Ok (o_keys o, m, is_none d, find (has_svn 1) (stored_row Ced (o_nav o) 0), stored_gst (o_nav o) 0,
      option_map nd_authbits r).
Definition c46_e : entry := Eval vm_compute in
  c33_entry demo_nav1 1 (match c46_view true with Ok (_, _, _, Some e, _, _) => skipn 549 (e_data e) | _ => [] end).
Lemma c46_view_ok (again : bool) : c46_view again
  = Ok (c46_ks again, Some (c46_mack, NmaOperational), true, Some c46_e, Some (gst_at (tx_t0 - 30)),
        if again then None else Some 40).
Proof. destruct again; vm_compute; reflexivity. Qed.

Ltac c46_key_ok := constructor;
  [constructor; cbn; auto 10; lia|split; [reflexivity|apply Vectors.all_bytes; vm_compute; reflexivity]
  |split; vm_compute; [split; [discriminate|reflexivity]|split; [discriminate|reflexivity]]|reflexivity].
Lemma c46_K_ok again : key_ok (c46_K again). Proof. destruct again; c46_key_ok. Qed.
Lemma c46_key_ok1 : key_ok c46_key. Proof. c46_key_ok. Qed.
Lemma c46_current again : current_key (c46_ks again) = Some (c46_K again).
Proof. destruct again; vm_compute; reflexivity. Qed.
Lemma c46_discloses again : discloses (c46_K again) c46_mack_x (gst_at (tx_t0 + 330)) c46_key.
Proof.
  split; [apply Vectors.all_bytes; vm_compute; reflexivity|]. split; [vm_compute; reflexivity|].
  split; [destruct again; reflexivity|]. split; [reflexivity|].
  destruct (validate_key_exact toy_crypto_ok (c46_K again) c46_key (c46_K_ok again) c46_key_ok1) as (r & E & _ & (V & _)).
  assert (Hr : exists k, r = ROk k).
  { assert (E' : validate_key (c46_K again) c46_key = Ok (ROk c46_key)) by (destruct again; vm_compute; reflexivity).
    exists c46_key. congruence. }
  destruct (V Hr) as (_ & V'). exact V'.
Qed.
Lemma c46_completes again : completes (c46_h again) c46_x c46_hk c46_mack_x (gst_at (tx_t0 + 330)).
Proof. destruct again; eexists _, _, _; (split; [reflexivity|]); split; vm_compute; reflexivity. Qed.
Lemma c46_mack_valid : mack_valid c33_chain (key_bytes c33_key) 1 (time_of (gst_at tx_t0)) c46_mack 128 40.
Proof.
  destruct (mack_validate_exact toy_crypto_ok c46_mack 128 40 eq_refl ltac:(unfold LayoutProofs.sizes_ok; lia)
              c33_key 1 (gst_at tx_t0) c33_key_ok1 ltac:(discriminate) ltac:(split; cbn; lia) ltac:(split; lia))
    as (r & E & _ & (V & _)).
  { intros codes Hc. vm_compute in Hc. injection Hc as <-. vm_compute. constructor. }
  apply V. clear V.
  assert (E' : exists m', mack_validate (mack_new c46_mack 128 40) c33_key 1 (gst_at tx_t0) = Ok (ROk m'))
    by (eexists; vm_compute; reflexivity).
  destruct E' as (m' & E'). exists m'. congruence.
Qed.
Definition c46_tag : list bool := Eval vm_compute in sub (56 * 4) (56 * 4 + 40) (bits_of_bytes c46_mack).
Lemma c46_tag_slow : tag_in_mack c46_chain (key_bytes c46_key) 1 (time_of (gst_at tx_t0)) NmaOperational c46_mack
  1 12 1 (data_of Ced c46_e) c46_tag.
Proof.
  exists 4%nat. split; [cbn; lia|]. split; [reflexivity|]. split; [vm_compute; reflexivity|].
  apply (c33_tag_of c46_key c46_tag 1 1 5 (data_of Ced c46_e) c46_key_ok1); [discriminate|unfold is_byte; lia..|idtac|idtac|];
    vm_compute; [lia|lia|reflexivity].
Qed.

(** The facts common to both. *)
Lemma c46_facts again : exists o o', run c46_new (c46_h again) = Ok o /\ step o c46_x = Ok o' /\
  keys_then o c46_hk (gst_at (tx_t0 + 330)) (c46_ks again) /\
  stored Ced (o_nav o) 0 1 c46_e /\ stored_gst (o_nav o) 0 = Some (gst_at (tx_t0 - 30)) /\
  holds_tag o 1 (gst_at tx_t0) c33_chain (key_bytes c33_key) c46_key 1 12 1 (data_of Ced c46_e) c46_tag /\
  exists r, getter Ced o' 1 = Ok r /\ option_map nd_authbits r = if again then None else Some 40.
Proof.
  pose proof (c46_view_ok again) as H. unfold c46_view in H.
  destruct (run c46_new (c46_h again)) as [o|]; cbn [bind] in H; [|discriminate H].
  destruct (step o c46_x) as [o'|] eqn:Es; cbn [bind] in H; [|discriminate H].
  destruct (mack_get (o_mack o) 1 (gst_at tx_t0)) as [m|] eqn:Em; cbn [bind] in H; [|discriminate H].
  destruct (dsm_feed (o_dsm o) (nth 1 c46_hk 0) (skipn 2 c46_hk)) as [[cd d]|] eqn:Ed; cbn [bind] in H; [|discriminate H].
  destruct (getter Ced o' 1) as [r|] eqn:Eg; cbn [bind] in H; [|discriminate H].
  assert (Hk : o_keys o = c46_ks again) by congruence.
  assert (Hm : m = Some (c46_mack, NmaOperational)) by congruence.
  assert (Hd : is_none d = true) by congruence.
  assert (Hf : find (has_svn 1) (stored_row Ced (o_nav o) 0) = Some c46_e) by congruence.
  assert (Hg : stored_gst (o_nav o) 0 = Some (gst_at (tx_t0 - 30))) by congruence.
  assert (Hr : option_map nd_authbits r = if again then None else Some 40) by congruence. clear H.
  exists o, o'. split; [reflexivity|]. split; [exact Es|]. split; [|split; [|split; [exact Hg|split; [|now exists r]]]].
  - exists cd, d. split; [exact Ed|]. destruct d; [discriminate Hd|]. now symmetry.
  - apply find_some in Hf. destruct Hf as (Hi & Hs). split; [exact Hi|].
    unfold has_svn in Hs. destruct (e_svn c46_e) as [v|]; [|discriminate Hs]. apply Z.eqb_eq in Hs. now subst v.
  - exists c46_mack, NmaOperational. split; [lia|]. split; [reflexivity|]. split; [now rewrite Em, Hm|]. split; [now right|].
    split; [exact c46_mack_valid|exact c46_tag_slow].
Qed.

Example C46_example : Forall op_ok (c46_h false ++ [c46_x]) /\ in_subframe_order (c46_h false ++ [c46_x]) /\
  exists o o', run c46_new (c46_h false) = Ok o /\ step o c46_x = Ok o' /\
    completes (c46_h false) c46_x c46_hk c46_mack_x (gst_at (tx_t0 + 330)) /\
    keys_then o c46_hk (gst_at (tx_t0 + 330)) (c46_ks false) /\ current_key (c46_ks false) = Some (c46_K false) /\
    discloses (c46_K false) c46_mack_x (gst_at (tx_t0 + 330)) c46_key /\
    ks_cif (c46_ks false) = Some (mkCif 2 (Some (gst_at (tx_t0 + 60)))) /\
    time_of (gst_at (tx_t0 + 330)) - 300 < time_of (gst_at (tx_t0 + 60)) /\
    held (c46_ks false) c33_key /\ chain_of c33_key = 1 /\
    time_of (k_gst c33_key) = time_of (gst_at (tx_t0 + 330)) - 300 + 30 * Z.of_nat 0 /\
    stored Ced (o_nav o) 0 1 c46_e /\ stored_gst (o_nav o) 0 = Some (gst_at (tx_t0 - 30)) /\
    oldest_word c46_e < 1 < 16 /\ e_authbits c46_e = 0 /\ List.length c46_tag = 40%nat /\
    holds_tag o 1 (gst_at tx_t0) (k_chain c33_key) (key_bytes c33_key) c46_key 1 12 1 (data_of Ced c46_e) c46_tag /\
    exists d, getter Ced o' 1 = Ok (Some d).
Proof.
  split; [apply op_okb_ok; vm_compute; reflexivity|]. split; [apply in_subframe_orderb; vm_compute; reflexivity|].
  destruct (c46_facts false) as (o & o' & H1 & H2 & H3 & H4 & H5 & H6 & r & H7 & H8).
  exists o, o'. split; [exact H1|]. split; [exact H2|]. split; [apply c46_completes|]. split; [exact H3|].
  split; [apply c46_current|]. split; [apply c46_discloses|]. split; [reflexivity|]. split; [vm_compute; reflexivity|].
  split; [now left|]. split; [reflexivity|]. split; [reflexivity|]. split; [exact H4|]. split; [exact H5|].
  split; [cbn; lia|]. split; [reflexivity|]. split; [reflexivity|]. split; [exact H6|].
  destruct r as [d|]; [now exists d|discriminate H8].
Qed.

(** The state when the chain has changed. *)
Lemma c46_h_again : c46_h true = (c46_one ++ c46_two) ++ c46_again ++ removelast c46_last.
Proof. unfold c46_h. apply app_assoc. Qed.
Lemma tx_held_cif r m p k c : tx_held r = Ok (m, p, k, c) -> exists o, r = Ok o /\ ks_cif (o_keys o) = c.
Proof.
  destruct r as [o|]; [|discriminate]. cbn [tx_held bind]. intros H. exists o. split; [reflexivity|].
  exact (f_equal (fun z => match z with Ok (_, _, _, q) => q | Panic => None end) H).
Qed.
Lemma run_rest o a b o1 o2 : run o a = Ok o1 -> run o (a ++ b) = Ok o2 -> run o1 b = Ok o2.
Proof. intros H. rewrite run_app, H. exact (fun x => x). Qed.
Lemma c46_first o : run c46_new (c46_h true) = Ok o -> exists o1, run c46_new (c46_one ++ c46_two) = Ok o1 /\
  ks_cif (o_keys o1) = Some (mkCif 2 (Some (gst_at (tx_t0 + 60)))) /\ run o1 (c46_again ++ removelast c46_last) = Ok o.
Proof.
  intros H. rewrite c46_h_again in H. destruct C54_example as (_ & _ & Hc).
  destruct (tx_held_cif _ _ _ _ _ Hc) as (o1 & E1 & E2). exists o1. split; [exact E1|]. split; [exact E2|].
  exact (run_rest _ _ _ _ _ E1 H).
Qed.

(** In general the property is false.  After the calls [h1] the chain [c] is in force since [g0],
    before which another chain was in force.  The calls [h2], with another KROOT, do not change
    the chain in force, and a key of the previous chain is still held; but the receiver has
    forgotten when the chain was changed.  All hypotheses of the theorem above hold except that
    one, and the data is not authenticated. *)
Theorem C46_refuted :
  exists root user slow h1 h2 o1 o x o' hkroot mack g ks K key c g0 P n mkb prna gm j gn e svn cop tag,
  Forall op_ok ((h1 ++ h2) ++ [x]) /\ in_subframe_order ((h1 ++ h2) ++ [x]) /\
  run (osnma_new root user slow) h1 = Ok o1 /\ ks_cif (o_keys o1) = Some (mkCif c (Some g0)) /\ gst_ok g0 /\
  run o1 h2 = Ok o /\ step o x = Ok o' /\ (exists c', ks_cif ks = Some c' /\ cif_cid c' = c) /\
  completes (h1 ++ h2) x hkroot mack g /\
  keys_then o hkroot g ks /\ current_key ks = Some K /\ discloses K mack g key /\
  time_of g - 300 < time_of g0 /\
  held ks P /\ chain_of P <> c /\ time_of (k_gst P) = time_of g - 300 + 30 * Z.of_nat n /\
  key_before (k_chain P) n (key_bytes P) (time_of (k_gst P)) mkb /\
  (j < nav_depth)%nat /\ stored Ced (o_nav o) j svn e /\ stored_gst (o_nav o) j = Some gn /\ 1 <= svn <= 36 /\
  oldest_word e < cop < 16 /\ (12 <= mack_depth)%nat /\
  gst_ok gm /\ time_of gn + 30 = time_of gm /\ time_of gm + 330 = time_of g /\
  holds_tag o prna gm (k_chain P) mkb key svn 12 cop (data_of Ced e) tag /\ List.length tag = 40%nat /\
  getter Ced o' svn = Ok None.
Proof.
  destruct (c46_facts true) as (o & o' & H1 & H2 & H3 & H4 & H5 & H6 & r & H7 & H8).
  pose proof c46_h_again as Eh. destruct (c46_first o H1) as (o1 & Eo & Hcif & H1').
  exists None, (Some (tx_pub 3)), true, (c46_one ++ c46_two), (c46_again ++ removelast c46_last), o1, o, c46_x, o',
    c46_hk, c46_mack_x, (gst_at (tx_t0 + 330)), (c46_ks true), (c46_K true), c46_key, 2, (gst_at (tx_t0 + 60)),
    c33_key, 0%nat, (key_bytes c33_key), 1, (gst_at tx_t0), 0%nat, (gst_at (tx_t0 - 30)), c46_e, 1, 1, c46_tag.
  assert (En : osnma_new None (Some (tx_pub 3)) true = c46_new) by reflexivity. rewrite En, <- Eh.
  split; [apply op_okb_ok; vm_compute; reflexivity|]. split; [apply in_subframe_orderb; vm_compute; reflexivity|].
  split; [exact Eo|]. split; [exact Hcif|]. split; [split; cbn; lia|]. split; [exact H1'|]. split; [exact H2|].
  split; [exists (c46_cif true); split; reflexivity|]. split; [exact (c46_completes true)|]. split; [exact H3|].
  split; [exact (c46_current true)|].
  split; [exact (c46_discloses true)|]. split; [vm_compute; reflexivity|]. split; [left; reflexivity|]. split; [discriminate|].
  split; [reflexivity|]. split; [reflexivity|]. split; [cbn; lia|]. split; [exact H4|]. split; [exact H5|]. split; [lia|].
  split; [cbn; lia|]. split; [cbn; lia|]. split; [split; cbn; lia|]. split; [reflexivity|]. split; [reflexivity|].
  split; [exact H6|]. split; [reflexivity|]. destruct r as [d|]; [discriminate H8|exact H7].
Qed.

Print Assumptions C54_kroot_sets_the_chain_in_force.
Print Assumptions C54_chain_in_force_was_announced.
Print Assumptions C54_tags_need_the_chain_in_force.
Print Assumptions C46_previous_chain_authenticates.
Print Assumptions C46_refuted.

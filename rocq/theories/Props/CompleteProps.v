(** Property C33: valid tags do authenticate. *)
From Coq Require Import ZArith String List Bool Lia.
From Verif Require Import Model.Prelude Model.Params Model.Gst Model.Svn Model.Bitfields Model.Tesla Model.Merkle
  Model.Dsm Model.MackStore Model.Nav Model.Osnma
  Spec.TimeSpec Spec.CollectSpec Spec.NavSpec Spec.TeslaSpec Spec.KrootSpec Spec.SystemSpec Spec.StoredSpec Spec.CompleteSpec
  Proofs.Base Proofs.GstProofs Proofs.TeslaProofs Proofs.MackValidProofs Proofs.NavProofs Proofs.NavInv Proofs.SystemProofs Proofs.GetterProofs Proofs.KeyStoreProofs
  Proofs.StoredProofs Proofs.RecentProofs Proofs.CompleteProofs Proofs.AuthProofs
  Examples.Vectors Props.SystemProps Examples.Demo Examples.Toy Examples.Transmit Props.KeyProps.
Import ListNotations.
Open Scope list_scope.
Open Scope Z_scope.
Local Existing Instance toy_crypto.

(** ** C33 *)

(** After the calls [h] (any that are in time order) the receiver is in the state [o].  The call
    [x] completes a subframe [g].  Its MACK message discloses a valid key [key] of the chain in
    force.  The receiver holds the MACK message of some satellite [prna] for the subframe [gm]
    before [g], which is valid, and in which a tag for ADKD 0 or 4 verifies for the data that it
    holds for the satellite [svn] in the subframe [gn] before [gm]; the oldest word of this data
    is not older than the COP of the tag allows.

    Then the data has, after the call, the bits of the tag in addition to those that it had
    before (the counter stops at 65535), and if the tag has 40 bits the getter returns data for
    the satellite; by C32 it is the data of the most recent subframe that has 40 bits.  (The
    week number 0 is excluded because the getters may panic there.) *)
Theorem C33_valid_tag_authenticates :
  forall (C : crypto) (B : build) (S : storage), crypto_ok C -> storage_ok S ->
  forall root user h o x o' hkroot mack g ks K key prna gm j gn e k svn adkd cop tag,
  Forall op_ok (h ++ [x]) -> in_subframe_order (h ++ [x]) ->
  run (osnma_new root user false) h = Ok o -> step o x = Ok o' ->
  completes h x hkroot mack g ->
  keys_then o hkroot g ks -> current_key ks = Some K -> discloses K mack g key ->
  (j < nav_depth)%nat -> stored k (o_nav o) j svn e -> stored_gst (o_nav o) j = Some gn -> 1 <= svn <= 36 ->
  adkd_means adkd k 30 -> oldest_word e < cop < 16 -> (2 <= mack_depth)%nat ->
  gst_ok gm -> time_of gn + 30 = time_of gm -> time_of gm + 30 = time_of g ->
  holds_tag o prna gm (k_chain key) (key_bytes key) key svn adkd cop (data_of k e) tag ->
  (exists e', stored k (o_nav o') j svn e' /\ data_of k e' = data_of k e /\
     Z.min 65535 (e_authbits e + Z.of_nat (length tag)) <= e_authbits e') /\
  ((40 <= length tag)%nat -> (forall w, In w (inav_words (h ++ [x])) -> 1 <= g_wn (nw_gst w)) ->
   exists d, getter k o' svn = Ok (Some d)).
Proof.
  intros C B S HC HS root user h o x o' hkroot mack g ks K key prna gm j gn e k svn adkd cop tag.
  exact (tag_authenticates HS HC root user false h o x o' hkroot mack g ks K key prna gm j gn e k svn adkd cop tag eq_refl).
Qed.

(** The same for Slow MAC (ADKD 12), in both modes of the receiver: the MACK message is eleven
    subframes older than the key; its MACSEQ is checked with the key ten subframes before
    [key].  The chain must be in force since then. *)
Theorem C33_valid_slow_tag_authenticates :
  forall (C : crypto) (B : build) (S : storage), crypto_ok C -> storage_ok S ->
  forall root user slow h o x o' hkroot mack g ks K key mkb prna gm j gn e svn cop tag,
  Forall op_ok (h ++ [x]) -> in_subframe_order (h ++ [x]) ->
  run (osnma_new root user slow) h = Ok o -> step o x = Ok o' ->
  completes h x hkroot mack g ->
  keys_then o hkroot g ks -> current_key ks = Some K -> in_force_since ks (time_of g - 300) ->
  discloses K mack g key -> key_before (k_chain key) 10 (key_bytes key) (time_of g) mkb ->
  (j < nav_depth)%nat -> stored Ced (o_nav o) j svn e -> stored_gst (o_nav o) j = Some gn -> 1 <= svn <= 36 ->
  oldest_word e < cop < 16 -> (12 <= mack_depth)%nat ->
  gst_ok gm -> time_of gn + 30 = time_of gm -> time_of gm + 330 = time_of g ->
  holds_tag o prna gm (k_chain key) mkb key svn 12 cop (data_of Ced e) tag ->
  (exists e', stored Ced (o_nav o') j svn e' /\ data_of Ced e' = data_of Ced e /\
     Z.min 65535 (e_authbits e + Z.of_nat (length tag)) <= e_authbits e') /\
  ((40 <= length tag)%nat -> (forall w, In w (inav_words (h ++ [x])) -> 1 <= g_wn (nw_gst w)) ->
   exists d, getter Ced o' svn = Ok (Some d)).
Proof. intros C B S HC HS root user slow. exact (slow_tag_authenticates HS HC root user slow). Qed.

(** *** The hypotheses can be met *)

(** The nominal sequence of the examples, and the same with the second subframe eleven
    subframes after the first. *)
Definition c33_h : list op := Eval vm_compute in removelast tx_nominal.
Definition c33_dsm_again (t : Z) : list op :=
  tx_one t (tx_header 2 1 1) 7 (kroot_msg (tx_header 2 1 1) (pk_bytes 3) 3 chain1 tx_t0) (tx_mack1 chain1 t).
Definition c33_x : op := Eval vm_compute in (last tx_nominal (FeedOsnma [] 0 (gst_at 0))).
Definition c33_slow_h : list op := Eval vm_compute in
  (firstn (List.length tx_nominal - 15) tx_nominal ++ removelast (c33_dsm_again (tx_t0 + 330))).
Definition c33_slow_x : op := Eval vm_compute in (last (c33_dsm_again (tx_t0 + 330)) (FeedOsnma [] 0 (gst_at 0))).

(** What matters of the state. *)
Definition c33_view (h : list op) (x : op) (hk : list Z) (svn : Z) :=
  o <- run tx_new h ;; o' <- step o x ;; m <- mack_get (o_mack o) 1 (gst_at tx_t0) ;;
  '(cd, d) <- dsm_feed (o_dsm o) (nth 1 hk 0) (skipn 2 hk) ;;
  Ok (o_keys o, m, is_none d, find (has_svn svn) (stored_row Ced (o_nav o) 0), stored_gst (o_nav o) 0).
Definition c33_hk : list Z := Eval vm_compute in
  tx_block (tx_header 2 1 1) 7 (kroot_msg (tx_header 2 1 1) (pk_bytes 3) 3 chain1 tx_t0) 0.
Definition c33_chain : chain := Eval vm_compute in
  mkChain 1 HashSha256 MacHmacSha256 16 40 33 (fold_left (fun a b => 256 * a + b) (tx_alpha chain1) 0).
Definition c33_key_at (t : Z) : tkey := mkKey (tx_key chain1 t ++ repeat 0 16) c33_chain (gst_at t).
Definition c33_K : tkey := Eval vm_compute in c33_key_at tx_t0.
Definition c33_key : tkey := Eval vm_compute in c33_key_at (tx_t0 + 30).
Definition c33_slow_key : tkey := Eval vm_compute in c33_key_at (tx_t0 + 330).
Definition c33_mkey : tkey := Eval vm_compute in c33_key_at (tx_t0 + 30).
Definition c33_ks : key_store := mkKeys (Some c33_K) None (Some (mkCif 1 None)).
Definition c33_mack : list Z := Eval vm_compute in tx_mack1 chain1 tx_t0.
Definition c33_mack_x : list Z := Eval vm_compute in tx_mack1 chain1 (tx_t0 + 30).
Definition c33_slow_mack_x : list Z := Eval vm_compute in tx_mack1 chain1 (tx_t0 + 330).
(** (The storage of an entry is a few bits longer than the data.) *)
Definition c33_entry (words : list (list Z)) (svn : Z) (rest : list bool) : entry :=
  mkEntry (tx_ced words ++ rest) (repeat 0 5) (Some svn) 0.
Definition c33_rest (h : list op) (x : op) (svn : Z) : list bool :=
  match c33_view h x c33_hk svn with Ok (_, _, Some e, _) => skipn 549 (e_data e) | _ => [] end.
Definition c33_e1 : entry := Eval vm_compute in c33_entry demo_nav1 1 (c33_rest c33_slow_h c33_slow_x 1).
Definition c33_e2 : entry := Eval vm_compute in c33_entry demo_nav2 2 (c33_rest c33_h c33_x 2).

Lemma c33_view_fast : c33_view c33_h c33_x c33_hk 2
  = Ok (c33_ks, Some (c33_mack, NmaOperational), true, Some c33_e2, Some (gst_at (tx_t0 - 30))).
Proof. vm_compute. reflexivity. Qed.
Lemma c33_view_slow : c33_view c33_slow_h c33_slow_x c33_hk 1
  = Ok (c33_ks, Some (c33_mack, NmaOperational), true, Some c33_e1, Some (gst_at (tx_t0 - 30))).
Proof. vm_compute. reflexivity. Qed.

(** Keys and messages. *)
Ltac c33_key_ok := constructor;
  [constructor; cbn; auto 10; lia|split; [reflexivity|apply Vectors.all_bytes; vm_compute; reflexivity]
  |split; cbn; lia|reflexivity].
Lemma c33_K_ok : key_ok c33_K. Proof. c33_key_ok. Qed.
Lemma c33_key_ok1 : key_ok c33_key. Proof. c33_key_ok. Qed.
Lemma c33_slow_key_ok : key_ok c33_slow_key. Proof. c33_key_ok. Qed.
Lemma c33_discloses_fast : discloses c33_K c33_mack_x (gst_at (tx_t0 + 30)) c33_key.
Proof.
  split; [apply Vectors.all_bytes; vm_compute; reflexivity|]. split; [vm_compute; reflexivity|].
  split; [reflexivity|]. split; [reflexivity|].
  destruct (validate_key_exact toy_crypto_ok c33_K c33_key c33_K_ok c33_key_ok1) as (r & E & _ & (V & _)).
  assert (Hr : exists k, r = ROk k).
  { assert (E' : validate_key c33_K c33_key = Ok (ROk c33_key)) by (vm_compute; reflexivity).
    exists c33_key. congruence. }
  destruct (V Hr) as (_ & V'). exact V'.
Qed.
Lemma c33_discloses_slow : discloses c33_K c33_slow_mack_x (gst_at (tx_t0 + 330)) c33_slow_key.
Proof.
  split; [apply Vectors.all_bytes; vm_compute; reflexivity|]. split; [vm_compute; reflexivity|].
  split; [reflexivity|]. split; [reflexivity|].
  destruct (validate_key_exact toy_crypto_ok c33_K c33_slow_key c33_K_ok c33_slow_key_ok) as (r & E & _ & (V & _)).
  assert (Hr : exists k, r = ROk k).
  { assert (E' : validate_key c33_K c33_slow_key = Ok (ROk c33_slow_key)) by (vm_compute; reflexivity).
    exists c33_slow_key. congruence. }
  destruct (V Hr) as (_ & V'). exact V'.
Qed.
Lemma c33_before : key_before c33_chain 10 (key_bytes c33_slow_key) (time_of (gst_at (tx_t0 + 330))) (key_bytes c33_key).
Proof.
  destruct (derive_spec toy_crypto_ok 10 c33_slow_key c33_slow_key_ok ltac:(vm_compute; discriminate))
    as (k & E & _ & _ & _ & H).
  assert (E' : derive c33_slow_key 10 = Ok c33_key) by (vm_compute; reflexivity).
  assert (k = c33_key) by congruence. subst k. exact H.
Qed.
Lemma c33_mack_valid : mack_valid c33_chain (key_bytes c33_key) 1 (time_of (gst_at tx_t0)) c33_mack 128 40.
Proof.
  destruct (mack_validate_exact toy_crypto_ok c33_mack 128 40 eq_refl ltac:(unfold LayoutProofs.sizes_ok; lia)
              c33_key 1 (gst_at tx_t0) c33_key_ok1 ltac:(discriminate) ltac:(split; cbn; lia) ltac:(split; lia))
    as (r & E & _ & (V & _)).
  { intros codes Hc. vm_compute in Hc. injection Hc as <-. vm_compute. constructor. }
  apply V. clear V.
  assert (E' : exists m', mack_validate (mack_new c33_mack 128 40) c33_key 1 (gst_at tx_t0) = Ok (ROk m'))
    by (eexists; vm_compute; reflexivity).
  destruct E' as (m' & E'). exists m'. congruence.
Qed.
Definition c33_tag (j : nat) : list bool := sub (56 * j) (56 * j + 40) (bits_of_bytes c33_mack).
Lemma c33_tag_of k tag prnd prna ctr bits : key_ok k -> mac_usable k -> is_byte prnd -> is_byte prna -> is_byte ctr ->
  (List.length bits <= 550)%nat -> (List.length tag <= 128)%nat ->
  validate_tag k tag (gst_at tx_t0) prnd prna ctr NmaOperational bits = Ok true ->
  tag_of (ch_mac (k_chain k)) (key_bytes k) (tag_bits (Some prnd) prna (time_of (gst_at tx_t0)) ctr NmaOperational bits) tag.
Proof.
  intros H1 H2 H3 H4 H5 H6 H7 E.
  destruct (validate_tag_spec toy_crypto_ok k tag (gst_at tx_t0) prnd prna ctr NmaOperational bits H1 H2) as (r & E' & V);
    [split; cbn; lia|assumption..|]. apply V. congruence.
Qed.
Lemma c33_tag_fast : tag_in_mack c33_chain (key_bytes c33_key) 1 (time_of (gst_at tx_t0)) NmaOperational c33_mack
  2 0 1 (data_of Ced c33_e2) (c33_tag 1).
Proof.
  exists 1%nat. split; [cbn; lia|]. split; [reflexivity|]. split; [vm_compute; reflexivity|].
  apply (c33_tag_of c33_key (c33_tag 1) 2 1 2 (data_of Ced c33_e2) c33_key_ok1); [discriminate|unfold is_byte; lia..|idtac|idtac|];
    vm_compute; [lia|lia|reflexivity].
Qed.
Lemma c33_tag_slow : tag_in_mack c33_chain (key_bytes c33_slow_key) 1 (time_of (gst_at tx_t0)) NmaOperational c33_mack
  1 12 1 (data_of Ced c33_e1) (c33_tag 4).
Proof.
  exists 4%nat. split; [cbn; lia|]. split; [reflexivity|]. split; [vm_compute; reflexivity|].
  apply (c33_tag_of c33_slow_key (c33_tag 4) 1 1 5 (data_of Ced c33_e1) c33_slow_key_ok); [discriminate|unfold is_byte; lia..|idtac|idtac|];
    vm_compute; [lia|lia|reflexivity].
Qed.
Lemma c33_completes_fast : completes c33_h c33_x c33_hk c33_mack_x (gst_at (tx_t0 + 30)).
Proof. eexists _, _, _. split; [reflexivity|]. split; vm_compute; reflexivity. Qed.
Lemma c33_completes_slow : completes c33_slow_h c33_slow_x c33_hk c33_slow_mack_x (gst_at (tx_t0 + 330)).
Proof. eexists _, _, _. split; [reflexivity|]. split; vm_compute; reflexivity. Qed.

(** Every hypothesis of the theorems holds, and so does what they promise. *)
Lemma c33_view_means h x svn e : c33_view h x c33_hk svn
    = Ok (c33_ks, Some (c33_mack, NmaOperational), true, Some e, Some (gst_at (tx_t0 - 30))) ->
  exists o o', run tx_new h = Ok o /\ step o x = Ok o' /\
    (forall g, keys_then o c33_hk g c33_ks) /\
    mack_get (o_mack o) 1 (gst_at tx_t0) = Ok (Some (c33_mack, NmaOperational)) /\
    stored Ced (o_nav o) 0 svn e /\ stored_gst (o_nav o) 0 = Some (gst_at (tx_t0 - 30)).
Proof.
  unfold c33_view. destruct (run tx_new h) as [o|]; cbn [bind]; [|discriminate].
  destruct (step o x) as [o'|] eqn:Es; cbn [bind]; [|discriminate].
  destruct (mack_get (o_mack o) 1 (gst_at tx_t0)) as [m|] eqn:Em; cbn [bind]; [|discriminate].
  destruct (dsm_feed (o_dsm o) (nth 1 c33_hk 0) (skipn 2 c33_hk)) as [[cd d]|] eqn:Ed; cbn [bind]; [|discriminate].
  intros H. assert (Hk : o_keys o = c33_ks) by congruence.
  assert (Hm : m = Some (c33_mack, NmaOperational)) by congruence.
  assert (Hd : is_none d = true) by congruence.
  assert (Hf : find (has_svn svn) (stored_row Ced (o_nav o) 0) = Some e) by congruence.
  assert (Hg : stored_gst (o_nav o) 0 = Some (gst_at (tx_t0 - 30))) by congruence.
  exists o, o'. split; [reflexivity|]. split; [exact Es|]. split; [|split; [now rewrite Em, Hm|split; [|exact Hg]]].
  - intros g. exists cd, d. split; [exact Ed|]. destruct d; [discriminate Hd|]. now symmetry.
  - apply find_some in Hf. destruct Hf as (Hi & Hs). split; [exact Hi|].
    unfold has_svn in Hs. destruct (e_svn e) as [v|]; [|discriminate Hs]. apply Z.eqb_eq in Hs. now subst v.
Qed.
Example C33_example_fast : crypto_ok toy_crypto /\ storage_ok full_storage /\
  Forall op_ok (c33_h ++ [c33_x]) /\ in_subframe_order (c33_h ++ [c33_x]) /\
  exists o o', run tx_new c33_h = Ok o /\ step o c33_x = Ok o' /\
    completes c33_h c33_x c33_hk c33_mack_x (gst_at (tx_t0 + 30)) /\
    keys_then o c33_hk (gst_at (tx_t0 + 30)) c33_ks /\ current_key c33_ks = Some c33_K /\
    discloses c33_K c33_mack_x (gst_at (tx_t0 + 30)) c33_key /\
    stored Ced (o_nav o) 0 2 c33_e2 /\ stored_gst (o_nav o) 0 = Some (gst_at (tx_t0 - 30)) /\
    oldest_word c33_e2 < 1 < 16 /\ e_authbits c33_e2 = 0 /\
    holds_tag o 1 (gst_at tx_t0) c33_chain (key_bytes c33_key) c33_key 2 0 1 (data_of Ced c33_e2) (c33_tag 1) /\
    List.length (c33_tag 1) = 40%nat /\
    forall w, In w (inav_words (c33_h ++ [c33_x])) -> 1 <= g_wn (nw_gst w).
Proof.
  split; [apply toy_crypto_ok|]. split; [apply full_storage_ok|].
  split; [apply op_okb_ok; vm_compute; reflexivity|]. split; [apply in_subframe_orderb; vm_compute; reflexivity|].
  destruct (c33_view_means _ _ _ _ c33_view_fast) as (o & o' & H1 & H2 & H3 & H4 & H5 & H6).
  exists o, o'. split; [exact H1|]. split; [exact H2|]. split; [exact c33_completes_fast|].
  split; [apply H3|]. split; [reflexivity|]. split; [exact c33_discloses_fast|]. split; [exact H5|].
  split; [exact H6|]. split; [cbn; lia|]. split; [reflexivity|]. split; [|split; [reflexivity|]].
  - exists c33_mack, NmaOperational. split; [lia|]. split; [reflexivity|]. split; [exact H4|]. split; [now right|].
    split; [exact c33_mack_valid|exact c33_tag_fast].
  - assert (H : forallb (fun w => 1 <=? g_wn (nw_gst w)) (inav_words (c33_h ++ [c33_x])) = true) by (vm_compute; reflexivity).
    rewrite forallb_forall in H. intros w Hw. specialize (H w Hw). now apply Z.leb_le.
Qed.
Example C33_example_slow : Forall op_ok (c33_slow_h ++ [c33_slow_x]) /\ in_subframe_order (c33_slow_h ++ [c33_slow_x]) /\
  exists o o', run tx_new c33_slow_h = Ok o /\ step o c33_slow_x = Ok o' /\
    completes c33_slow_h c33_slow_x c33_hk c33_slow_mack_x (gst_at (tx_t0 + 330)) /\
    keys_then o c33_hk (gst_at (tx_t0 + 330)) c33_ks /\ current_key c33_ks = Some c33_K /\
    in_force_since c33_ks (time_of (gst_at (tx_t0 + 330)) - 300) /\
    discloses c33_K c33_slow_mack_x (gst_at (tx_t0 + 330)) c33_slow_key /\
    key_before (k_chain c33_slow_key) 10 (key_bytes c33_slow_key) (time_of (gst_at (tx_t0 + 330))) (key_bytes c33_key) /\
    stored Ced (o_nav o) 0 1 c33_e1 /\ stored_gst (o_nav o) 0 = Some (gst_at (tx_t0 - 30)) /\
    oldest_word c33_e1 < 1 < 16 /\ e_authbits c33_e1 = 0 /\
    holds_tag o 1 (gst_at tx_t0) c33_chain (key_bytes c33_key) c33_slow_key 1 12 1 (data_of Ced c33_e1) (c33_tag 4) /\
    List.length (c33_tag 4) = 40%nat.
Proof.
  split; [apply op_okb_ok; vm_compute; reflexivity|]. split; [apply in_subframe_orderb; vm_compute; reflexivity|].
  destruct (c33_view_means _ _ _ _ c33_view_slow) as (o & o' & H1 & H2 & H3 & H4 & H5 & H6).
  exists o, o'. split; [exact H1|]. split; [exact H2|]. split; [exact c33_completes_slow|].
  split; [apply H3|]. split; [reflexivity|]. split; [intros c g Hc Hg; injection Hc as <-; discriminate Hg|].
  split; [exact c33_discloses_slow|]. split; [exact c33_before|]. split; [exact H5|].
  split; [exact H6|]. split; [cbn; lia|]. split; [reflexivity|]. split; [|reflexivity].
  exists c33_mack, NmaOperational. split; [lia|]. split; [reflexivity|]. split; [exact H4|]. split; [now right|].
  split; [exact c33_mack_valid|exact c33_tag_slow].
Qed.

Print Assumptions C33_valid_tag_authenticates.
Print Assumptions C33_valid_slow_tag_authenticates.

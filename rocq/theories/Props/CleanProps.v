(** Property C78: no warnings and no errors in the nominal reception of a correct transmission. *)
From Coq Require Import ZArith String List Bool Lia.
From Verif Require Import Model.Prelude Model.Params Model.Gst Model.Svn Model.Bitfields Model.Tesla Model.Merkle
  Model.Dsm Model.MackStore Model.Nav Model.Osnma Model.Logging
  Spec.TimeSpec Spec.CollectSpec Spec.NavSpec Spec.TeslaSpec Spec.KrootSpec Spec.MerkleSpec Spec.MacltSpec Spec.KeySpec Spec.SystemSpec Spec.StoredSpec
  Spec.CompleteSpec Spec.PanicSpec Spec.LogSpec Spec.HonestSpec Spec.CleanSpec
  Proofs.Base Proofs.GstProofs Proofs.TeslaProofs Proofs.KrootProofs Proofs.HonestKeys Proofs.CleanProofs
  Examples.Vectors Props.SystemProps Examples.Demo Examples.Toy Examples.Transmit Props.KeyProps Props.CompleteProps Props.PanicProps
  Props.HonestProps Props.ColdProps Props.MackProps.
Import ListNotations.
Open Scope list_scope.
Open Scope Z_scope.
Local Existing Instance toy_crypto.

(** * C78 *)

(** With the log level "warn", the nominal reception of a correct transmission logs nothing at
    all. *)
Theorem C78_no_warnings :
  forall (C : crypto) (B : build) (S : storage), crypto_ok C -> storage_ok S ->
  forall root pk slow t pkrs D h, CleanSpec.nominal root pk t pkrs D h ->
  exists o, run_log (Some LWarn) (osnma_new root (Some pk) slow) h = Ok ([], o) /\
    run (osnma_new root (Some pk) slow) h = Ok o.
Proof.
  intros C B S HC HS root pk slow t pkrs D h Hn. exact (nominal_quiet HC HS root pk slow t pkrs D h Hn).
Qed.

(** A receiver that knows only the root of the Merkle tree logs nothing either, except that it has
    no public key.  It logs this only in calls before which no DSM-PKR with the public key was
    completed. *)
Theorem C78_merkle_tree_root :
  forall (C : crypto) (B : build) (S : storage), crypto_ok C -> storage_ok S ->
  forall root pk slow t pkrs D h, CleanSpec.nominal root pk t pkrs D h ->
  exists ls o, run_log (Some LWarn) (osnma_new root None slow) h = Ok (ls, o) /\ run (osnma_new root None slow) h = Ok o /\
    forall l m, In (l, m) ls -> exists p x q ls1 o1 ls2 o2, h = p ++ x :: q /\
      run_log (Some LWarn) (osnma_new root None slow) p = Ok (ls1, o1) /\ step_log (Some LWarn) o1 x = Ok (ls2, o2) /\
      In (l, m) ls2 /\ m = LgNoPubkey /\ ~ key_known root None pk (blocks_received (osnma_words p)).
Proof.
  intros C B S HC HS root pk slow t pkrs D h Hn.
  exact (nominal_lines HC HS root pk slow t pkrs D None (or_introl eq_refl) h Hn).
Qed.

(** * Example *)

(** Satellites 1 and 2 send the words of the other examples in three subframes; 3 to 8 have no
    words that are received, and their data is zeros.  In the second subframe all send the
    DSM-KROOT and a MACK message with tags for their own data and for those of another satellite.
    In the third, satellite 1 sends a block of the DSM-KROOT, satellite 2 one of a DSM-PKR. *)
Definition c78_ced1 : list bool := Eval vm_compute in tx_ced demo_nav1.
Definition c78_ced2 : list bool := Eval vm_compute in tx_ced demo_nav2.
Definition c78_timing1 : list bool := Eval vm_compute in tx_timing demo_nav1.
Definition c78_timing2 : list bool := Eval vm_compute in tx_timing demo_nav2.
Definition c78_data (k : nav_kind) (svn : Z) : list bool :=
  match k with
  | Ced => if svn =? 1 then c78_ced1 else if svn =? 2 then c78_ced2 else repeat false 549
  | Timing => if svn =? 1 then c78_timing1 else if svn =? 2 then c78_timing2 else repeat false 141
  end.
Definition c78_D : nav_source := fun k svn _ => c78_data k svn.
Definition c78_mack (svn t : Z) : list Z :=
  let e := if svn =? 2 then 1 else 2 in
  tx_mack chain1 svn t (c78_data Ced svn)
    (if t / 30 mod 2 =? 0 then
       [(e, 0, 1, c78_data Ced e); (svn, 4, 1, c78_data Timing svn); (e, 0, 0, repeat false 549);
        (svn, 12, 2, c78_data Ced svn); (e, 0, 3, c78_data Ced e)]
     else
       [(e, 0, 1, c78_data Ced e); (e, 0, 0, repeat false 549); (svn, 12, 2, c78_data Ced svn);
        (e, 0, 3, c78_data Ced e); (e, 12, 1, c78_data Ced e)]).
Definition c78_h : list op := Eval vm_compute in
  tx_nav (tx_t0 - 30) ++ tx_nav tx_t0
  ++ tx_dsm tx_t0 c55_header 7 c55_kroot (fun svn => c78_mack svn tx_t0)
  ++ tx_nav (tx_t0 + 30)
  ++ tx_subframe (tx_t0 + 30) [(1, tx_block c55_header 7 c55_kroot 2, c78_mack 1 (tx_t0 + 30));
                               (2, tx_block c55_header 13 c61_pkr 5, c78_mack 2 (tx_t0 + 30))].

(** Checks of what a nominal reception is. *)
Definition all_complete (P : list Z -> list Z -> Z -> Z -> bool) (h : list op) : bool :=
  forallb (fun i => match nth_error h i with
    | Some (FeedOsnma data svn g) =>
        match expected_subframe (osnma_words (firstn i h)) (mkWord data svn g) with
        | Some (hk, mk, g) => P hk mk svn (time_of g)
        | None => true
        end
    | _ => true end) (seq 0 (List.length h)).
Lemma all_complete_ok P h : all_complete P h = true -> forall h1 x h2 hk mk g, h = h1 ++ x :: h2 -> completes h1 x hk mk g ->
  exists data svn gk, x = FeedOsnma data svn gk /\ P hk mk svn (time_of g) = true.
Proof.
  unfold all_complete. rewrite forallb_forall. intros H h1 x h2 hk mk g -> (data & svn & gk & -> & _ & E).
  specialize (H (List.length h1)). rewrite in_seq, app_length in H. cbn [List.length] in H. specialize (H ltac:(lia)).
  rewrite nth_error_app2, Nat.sub_diag in H by lia. cbn [nth_error] in H.
  rewrite firstn_app, Nat.sub_diag, firstn_O, app_nil_r, firstn_all, E in H. eauto.
Qed.

Definition tag_ofb (f : mac_fn) (key : list Z) (bits tag : list bool) : bool :=
  let z := ((8 - List.length bits mod 8) mod 8)%nat in
  let m := bytes_of_bits (bits ++ repeat false z) in
  forallb (fun b => (0 <=? b) && (b <? 256)) m && (z <? 8)%nat && bits_eqb (bits_of_bytes m) (bits ++ repeat false z) &&
  bits_eqb tag (firstn (List.length tag) (bits_of_bytes (mac_of_fn f key m))).
Lemma tag_ofb_ok f key bits tag : tag_ofb f key bits tag = true -> tag_of f key bits tag.
Proof.
  unfold tag_ofb. rewrite !andb_true_iff. intros (((H1 & H2) & H3) & H4). apply Nat.ltb_lt in H2. apply bits_eqb_eq in H3, H4.
  eexists. split; [|exact H4]. split; [|eexists; split; [exact H2|exact H3]].
  apply Forall_forall. intros b Hb. rewrite forallb_forall in H1. specialize (H1 b Hb). unfold is_byte. lia.
Qed.

Definition matchesb (t : transmission) (prna T : Z) (s : nma_status_t) (delay svn : Z) (bits tag : list bool) (j : nat) : bool :=
  tag_ofb (ch_mac (tr_chain t)) (tr_key t (T + delay))
    (match j with O => tag_bits None prna T 1 s bits | _ => tag_bits (Some svn) prna T (Z.of_nat j + 1) s bits end) tag.
Definition tag_rightb (D : nav_source) (t : transmission) (s : nma_status_t) (prna T svn adkd cop : Z) (tag : list bool) (j : nat) : bool :=
  (1 <=? svn) && (svn <=? 36) && existsb (Z.eqb adkd) [0; 4; 12] &&
  let k := if adkd =? 4 then Timing else Ced in
  let delay := if adkd =? 12 then 330 else 30 in
  if cop =? 0 then matchesb t prna T s delay svn (repeat false (data_length k)) tag j
  else matchesb t prna T s delay svn (D k svn (T - 30)) tag j &&
       forallb (fun i => bits_eqb (D k svn (T - 30 - 30 * Z.of_nat i)) (D k svn (T - 30))) (seq 0 (Z.to_nat cop)).
Lemma matchesb_ok t prna T s delay svn bits tag j : matchesb t prna T s delay svn bits tag j = true ->
  tag_matches (tr_chain t) (tr_key t (T + delay)) prna T s svn bits tag j.
Proof. unfold matchesb, tag_matches. intros H. destruct j; now apply tag_ofb_ok. Qed.
Lemma tag_rightb_ok D t s prna T svn adkd cop tag j : tag_rightb D t s prna T svn adkd cop tag j = true ->
  tag_right D t s prna T svn adkd cop tag j.
Proof.
  unfold tag_rightb. rewrite !andb_true_iff. intros (((H1 & H2) & H3) & H4). split; [lia|].
  exists (if adkd =? 4 then Timing else Ced), (if adkd =? 12 then 330 else 30). split.
  { cbn [existsb] in H3. rewrite !orb_true_iff in H3. destruct H3 as [H|[H|[H|H]]]; try discriminate H; apply Z.eqb_eq in H; subst adkd; unfold adkd_means; cbn; auto. }
  cbv zeta in H4. intros _. destruct (cop =? 0) eqn:E0; (split; [intros Hc|intros Hc]); try (exfalso; lia); [now apply matchesb_ok|].
  apply andb_true_iff in H4. destruct H4 as (H4 & H5). split; [|now apply matchesb_ok]. intros i Hi. rewrite forallb_forall in H5.
  specialize (H5 (Z.to_nat i) ltac:(apply in_seq; lia)). apply bits_eqb_eq in H5. now rewrite Z2Nat.id in H5 by lia.
Qed.

Lemma load_be4 v : 0 <= v < 16 -> load_be (be 4 v) = v.
Proof. intros H. rewrite load_be_be. apply Z.mod_small. cbn. lia. Qed.
Lemma be_length n v : List.length (be n v) = n.
Proof. revert v. induction n as [|n IH]; intros v; cbn [be]; [reflexivity|]. rewrite app_length, IH. cbn [List.length]. lia. Qed.

Definition code_allowsb (code : string) (prna prnd adkd : Z) : bool :=
  (String.eqb code "FLX"%string ||
   ((1 <=? prnd) && (prnd <=? 36) &&
    ((String.eqb code "00S"%string && (adkd =? 0) && (prnd =? prna)) || (String.eqb code "00E"%string && (adkd =? 0)) ||
     (String.eqb code "04S"%string && (adkd =? 4) && (prnd =? prna)) ||
     (String.eqb code "12S"%string && (adkd =? 12) && (prnd =? prna)) || (String.eqb code "12E"%string && (adkd =? 12))))).
Lemma code_allowsb_ok code prna prnd adkd : code_allowsb code prna prnd adkd = true -> code_allows code prna prnd adkd.
Proof.
  unfold code_allowsb, code_allows. rewrite !orb_true_iff, !andb_true_iff, !orb_true_iff, !andb_true_iff, !String.eqb_eq, !Z.leb_le, !Z.eqb_eq. tauto.
Qed.
Definition mack_validb (c : chain) (key : list Z) (prna T : Z) (mk : list Z) (ks ts : nat) : bool :=
  let bits := bits_of_bytes mk in
  let n := ((480 - ks) / (ts + 16))%nat in
  match icd_sequence (ch_maclt c) (Z.to_nat (T / 30 mod 2)) with
  | Some codes =>
      forallb (fun i => (i <? n)%nat) (flx_positions codes) &&
      tag_ofb (ch_mac c) key (be 8 prna ++ gst_field T ++ concat (map (info_at bits ts) (flx_positions codes))) (sub ts (ts + 12) bits) &&
      forallb (fun j => match nth_error codes j with
        | Some code =>
            let prnd := load_be (firstn 8 (info_at bits ts j)) in let adkd := load_be (sub 8 12 (info_at bits ts j)) in
            let cop := load_be (skipn 12 (info_at bits ts j)) in
            (0 <=? prnd) && (prnd <? 256) && (0 <=? adkd) && (adkd <? 16) &&
            bits_eqb (info_at bits ts j) (be 8 prnd ++ be 4 adkd ++ be 4 cop) && code_allowsb code prna prnd adkd
        | None => false
        end) (seq 1 (n - 1))
  | None => false
  end.
Lemma mack_validb_ok c key prna T mk ks ts : mack_validb c key prna T mk ks ts = true -> mack_valid c key prna T mk ks ts.
Proof.
  unfold mack_validb, mack_valid. cbv zeta. set (bits := bits_of_bytes mk). set (n := ((480 - ks) / (ts + 16))%nat).
  destruct (icd_sequence _ _) as [codes|]; [|discriminate]. rewrite !andb_true_iff, !forallb_forall. intros ((H1 & H2) & H3).
  exists codes. split; [reflexivity|]. split; [apply Forall_forall; intros i Hi; now apply Nat.ltb_lt, H1|]. split; [now apply tag_ofb_ok|].
  intros j Hj. specialize (H3 j ltac:(apply in_seq; lia)). destruct (nth_error codes j) as [code|]; [|discriminate].
  rewrite !andb_true_iff in H3. destruct H3 as (((((A1 & A2) & A3) & A4) & A5) & A6). apply bits_eqb_eq in A5.
  exists code. eexists _, _, _. split; [reflexivity|]. split; [|split; [|split; [exact A5|now apply code_allowsb_ok]]]; lia.
Qed.

Definition mack_rightb (D : nav_source) (t : transmission) (hk mk : list Z) (prna T : Z) : bool :=
  let c := tr_chain t in let ts := ch_tag_bits c in let bits := bits_of_bytes mk in
  mack_validb c (tr_key t (T + 30)) prna T mk (8 * ch_key_bytes c) ts &&
  forallb (fun j =>
    let i := info_at bits ts j in let tag := sub ((ts + 16) * j) ((ts + 16) * j + ts) bits in let cop := load_be (skipn 12 i) in
    match j with
    | O => tag_rightb D t (status_of hk) prna T prna 0 cop tag j
    | _ => tag_rightb D t (status_of hk) prna T (load_be (firstn 8 i)) (load_be (sub 8 12 i)) cop tag j
    end) (seq 0 ((480 - 8 * ch_key_bytes c) / (ts + 16))).
Lemma mack_rightb_ok D t hk mk prna T : mack_rightb D t hk mk prna T = true -> mack_right D t hk mk prna T.
Proof.
  unfold mack_rightb, mack_right. cbv zeta. rewrite andb_true_iff, forallb_forall. intros (H1 & H2).
  split; [intros _; now apply mack_validb_ok|]. intros svn adkd cop tag j Hs Ha Hc (P1 & P2 & P3). cbv zeta in P1, P2, P3.
  set (ts := ch_tag_bits (tr_chain t)) in *. set (bits := bits_of_bytes mk) in *. set (ks := (8 * ch_key_bytes (tr_chain t))%nat) in *.
  specialize (H2 j). rewrite in_seq in H2. cbn [Nat.add] in H2.
  assert (Hj : (j < (480 - ks) / (ts + 16))%nat).
  { apply Nat.div_le_lower_bound; [lia|]. replace (Datatypes.S j) with (j + 1)%nat by lia. lia. }
  specialize (H2 ltac:(lia)). apply tag_rightb_ok. destruct j as [|j].
  - destruct P3 as (-> & -> & macseq & Hi). rewrite Hi in H2.
    rewrite skipn_app, be_length, skipn_all2 in H2 by (rewrite be_length; lia). rewrite Nat.sub_diag, skipn_O in H2. cbn [app] in H2.
    rewrite load_be4 in H2 by exact Hc. rewrite P2. exact H2.
  - rewrite P3 in H2.
    assert (E1 : firstn 8 (be 8 svn ++ be 4 adkd ++ be 4 cop) = be 8 svn).
    { rewrite firstn_app, be_length, Nat.sub_diag, firstn_O, app_nil_r. apply firstn_all2. rewrite be_length. lia. }
    assert (E2 : sub 8 12 (be 8 svn ++ be 4 adkd ++ be 4 cop) = be 4 adkd).
    { unfold sub. rewrite skipn_app, be_length, skipn_all2 by (rewrite be_length; lia). cbn [app Nat.sub]. rewrite skipn_O.
      rewrite firstn_app, be_length, firstn_all2 by (rewrite be_length; lia). change (4 - 4)%nat with 0%nat. now rewrite firstn_O, app_nil_r. }
    assert (E3 : skipn 12 (be 8 svn ++ be 4 adkd ++ be 4 cop) = be 4 cop).
    { rewrite app_assoc, skipn_app, app_length, !be_length, skipn_all2 by (rewrite app_length, !be_length; lia). reflexivity. }
    rewrite E1, E2, E3 in H2. rewrite !load_be4 in H2 by lia. rewrite load_be_be, Z.mod_small in H2 by (cbn; lia). rewrite P2. exact H2.
Qed.

Definition words_carryb (D : nav_source) (ws : list nword) : bool :=
  forallb (fun w => forallb (fun k => forallb (fun i => match nth_error (icd_fields k) i with
    | Some f => negb (NavSpec.carries k f w) ||
                bits_eqb (nw_bits w (f_from f) (f_to f)) (field_bits k i (D k (nw_svn w) (time_of (subframe_of (nw_gst w)))))
    | None => true end) (seq 0 (List.length (icd_fields k)))) [Ced; Timing]) ws.
Lemma words_carryb_ok D ws : (forall k svn T, List.length (D k svn T) = data_length k) -> words_carryb D ws = true -> words_carry D ws.
Proof.
  intros HD H. split; [exact HD|]. intros w k i f Hw Hf Hc. unfold words_carryb in H. rewrite forallb_forall in H. specialize (H w Hw).
  rewrite forallb_forall in H. specialize (H k ltac:(destruct k; cbn; auto)). rewrite forallb_forall in H.
  specialize (H i ltac:(apply in_seq; cbn [Nat.add]; split; [lia|apply nth_error_Some; congruence])). rewrite Hf, Hc in H. now apply bits_eqb_eq.
Qed.
Definition no_missedb (ws : list nword) : bool :=
  let l := nav_stretches ws in
  forallb (fun c => match nth_error l c, nth_error l (c + 1) with
    | Some (g, _), Some (g', _) => time_of g' =? time_of g + 30 | _, _ => true end) (seq 0 (List.length l)).
Lemma no_missedb_ok ws : no_missedb ws = true -> no_subframe_missed ws.
Proof.
  unfold no_missedb. rewrite forallb_forall. intros H c g l g' l' E E'.
  specialize (H c ltac:(apply in_seq; cbn [Nat.add]; split; [lia|apply nth_error_Some; congruence])). rewrite E, E' in H. now apply Z.eqb_eq.
Qed.

(** All but the navigation data. *)
Definition completeb (t : transmission) (pkrs : list pkr_message) (D : nav_source) (h : list op) : bool :=
  all_complete (fun hk mk svn T =>
    let i := Z.to_nat (nth 1 hk 0 mod 16) in
    ((nth 1 hk 0 / 16 <? 12) ||
     existsb (fun m => (13 * (i + 1) <=? List.length (pm_data m))%nat && (nth 1 hk 0 =? 16 * pm_id m + Z.of_nat i) &&
                       bytes_eqb (skipn 2 hk) (firstn 13 (skipn (13 * i) (pm_data m)))) pkrs) &&
    forallb (fun m => T <=? time_of (k_gst (km_root m)) + 90000) (tr_kroots t) &&
    (tr_start t <=? T) && (T <=? tr_start t + 90000) && mack_rightb D t hk mk svn T) h.
Lemma completeb_ok root pk t pkrs D h :
  Forall op_ok h /\ in_subframe_order h /\ room_for (S := small_storage) (map op_svn h) ->
  transmission_ok pk t /\ honest t h /\ (forall m, In m (tr_kroots t) -> calm_header (km_header m)) ->
  NoDup (map pm_id pkrs) /\ (forall m, In m pkrs -> pkr_message_ok root pk m) -> completeb t pkrs D h = true ->
  words_carry D (inav_words h) -> right_reception (S := small_storage) root pk t pkrs D h.
Proof.
  intros Ha Ht (Hp1 & Hp2) Hc Hw. pose proof (all_complete_ok _ _ Hc) as H. cbv zeta in H. clear Hc. constructor.
  - exact Ha.
  - exact Ht.
  - split; [exact Hp1|]. split; [exact Hp2|]. intros h1 x h2 hk mk g E C Hbig. destruct (H h1 x h2 hk mk g E C) as (_ & svn & _ & _ & R).
    rewrite !andb_true_iff, orb_true_iff in R. destruct R as ((((R & _) & _) & _) & _). destruct R as [R|R]; [exfalso; lia|].
    apply existsb_exists in R. destruct R as (m & Hin & R). rewrite !andb_true_iff in R. destruct R as ((R1 & R2) & R3).
    apply Nat.leb_le in R1. apply Z.eqb_eq in R2. apply bytes_eqb_eq in R3. exists m. split; [exact Hin|]. eexists. eauto.
  - intros h1 x h2 hk mk g m E C Hin _. destruct (H h1 x h2 hk mk g E C) as (_ & svn & _ & _ & R).
    rewrite !andb_true_iff, forallb_forall in R. destruct R as ((((_ & R) & _) & _) & _). specialize (R m Hin). now apply Z.leb_le in R.
  - intros h1 x h2 hk mk g p y q hk1 mk1 g1 E C Ep Cp. exists p, y, q, hk1, mk1, g1. split; [exact Ep|]. split; [exact Cp|].
    destruct (H h1 x h2 hk mk g E C) as (_ & svn & _ & _ & R). rewrite !andb_true_iff in R.
    assert (E' : h = p ++ y :: (q ++ x :: h2)) by (rewrite E, Ep, <- app_assoc; reflexivity).
    destruct (H p y _ hk1 mk1 g1 E' Cp) as (_ & svn1 & _ & _ & R'). rewrite !andb_true_iff in R'. lia.
  - exact Hw.
  - intros h1 data prna gk h2 hk mk g E C. destruct (H h1 _ h2 hk mk g E C) as (d & svn & gk' & Ex & R).
    assert (svn = prna) by congruence. subst svn. rewrite !andb_true_iff in R. destruct R as (_ & R). now apply mack_rightb_ok.
Qed.

Definition c78_pkr : pkr_message := mkPM 13 c61_pkr.
Lemma c78_D_length k svn T : List.length (c78_D k svn T) = data_length k.
Proof. unfold c78_D, c78_data. destruct k, (svn =? 1), (svn =? 2); reflexivity. Qed.
Lemma c78_pkr_ok : pkr_message_ok (Some c61_root) c55_pk c78_pkr.
Proof.
  constructor; cbn [c78_pkr pm_id pm_data].
  - lia.
  - split; [apply all_bytes; vm_compute; reflexivity|]. exists c61_f, c61_root. split; [exact c61_layout|]. split; [reflexivity|]. exact c61_pkr_ok.
  - exists 13%nat. split; reflexivity.
Qed.

(** The hypotheses can be met, also with tags that are found correct. *)
Example C78_example :
  crypto_ok toy_crypto /\ storage_ok small_storage /\
  CleanSpec.nominal (S := small_storage) (Some c61_root) c55_pk c55_t [c78_pkr] c78_D c78_h.
Proof.
  split; [exact toy_crypto_ok|]. split; [exact small_storage_ok|]. split; [apply completeb_ok|].
  - split; [apply op_okb_ok; vm_compute; reflexivity|]. split; [apply in_subframe_orderb; vm_compute; reflexivity|].
    exists [1; 2; 3; 4; 5; 6; 7; 8; 9; 10; 11; 12]. split; [vm_compute; repeat constructor|]. apply inb_ok. vm_compute. reflexivity.
  - split; [exact c55_transmission|]. split; [apply honestb_ok; vm_compute; reflexivity|]. intros m [<-|[]]. left. reflexivity.
  - split; [repeat constructor; intros []|]. intros m [<-|[]]. exact c78_pkr_ok.
  - vm_compute. reflexivity.
  - apply words_carryb_ok; [exact c78_D_length|vm_compute; reflexivity].
  - apply no_missedb_ok. vm_compute. reflexivity.
Qed.
Definition c78_correct (r : outcome (lines * osnma)) : list (Z * nat * Z) :=
  match r with
  | Ok (l, _) => flat_map (fun '(_, m) => match m with LgTagCorrect prnd _ _ j prna => [(prnd, j, prna)] | _ => [] end) l
  | Panic => []
  end.
Example C78_example_tags :
  c78_correct (run_log (S := small_storage) (Some LTrace) (osnma_new (S := small_storage) (Some c61_root) (Some c55_pk) false) c78_h)
  = [(1, 0%nat, 1); (2, 1%nat, 1); (1, 2%nat, 1); (2, 5%nat, 1); (2, 0%nat, 2); (1, 1%nat, 2); (2, 2%nat, 2); (1, 5%nat, 2)]
    ++ flat_map (fun p => [(2, 1%nat, p); (2, 5%nat, p)]) [3; 4; 5; 6; 7; 8].
Proof. vm_compute. reflexivity. Qed.

(** Without the public key the same reception gives one line, when the DSM-KROOT is complete. *)
Definition c78_keyless (r : outcome (lines * osnma)) : list bool :=
  match r with
  | Ok (l, _) => map (fun '(_, m) => match m with LgNoPubkey => true | _ => false end) l
  | Panic => []
  end.
Example C78_example_root :
  c78_keyless (run_log (S := small_storage) (Some LWarn) (osnma_new (S := small_storage) (Some c61_root) None false) c78_h)
  = [true].
Proof. vm_compute. reflexivity. Qed.

(** * Without the navigation data of a subframe *)

(** The ages of the words are counted in subframes with words: those in which the receiver had
    none at all do not count.  So a correct tag can be logged as wrong if the navigation data of
    all satellites is missed at the same time.  Here satellite 1 had other data, and two subframes
    without words later only word 1 of the new data is received.  Satellite 2 sends a tag for the
    data of satellite 1 with a cut-off point of three subframes: the data has been the same in
    these, but the receiver combines the new word with the old ones, which are four subframes
    old. *)
Definition c78_gap_D : nav_source := fun k svn T =>
  if (svn =? 1) && (T <=? tx_t0 - 120) then c78_data k 2 else c78_data k svn.
Definition c78_gap_words (t : Z) (nav : list (list Z)) (is : list nat) : list op :=
  map (fun i => FeedInav (nth i nav []) 1 (gst_at (t + 2 * Z.of_nat i)) E1B) is.
Definition c78_gap_h : list op := Eval vm_compute in
  c78_gap_words (tx_t0 - 120) demo_nav2 (seq 0 7) ++ c78_gap_words (tx_t0 - 30) demo_nav1 [0%nat]
  ++ tx_dsm tx_t0 c55_header 7 c55_kroot (fun svn => c78_mack svn tx_t0)
  ++ tx_subframe (tx_t0 + 30) [(1, tx_block c55_header 7 c55_kroot 2, c78_mack 1 (tx_t0 + 30))].
Lemma c78_gap_D_length k svn T : List.length (c78_gap_D k svn T) = data_length k.
Proof. unfold c78_gap_D. destruct (_ && _); exact (c78_D_length _ _ 0). Qed.
Definition c78_wrong (r : outcome (lines * osnma)) : list (Z * nat * Z) :=
  match r with
  | Ok (l, _) => flat_map (fun '(_, m) => match m with LgTagWrong prnd _ _ j prna => [(prnd, j, prna)] | _ => [] end) l
  | Panic => []
  end.
Lemma c78_gap_right : right_reception (S := small_storage) None c55_pk c55_t [] c78_gap_D c78_gap_h.
Proof.
  apply completeb_ok.
  - split; [apply op_okb_ok; vm_compute; reflexivity|]. split; [apply in_subframe_orderb; vm_compute; reflexivity|].
    exists [1; 2; 3; 4; 5; 6; 7; 8; 9; 10; 11; 12]. split; [vm_compute; repeat constructor|]. apply inb_ok. vm_compute. reflexivity.
  - split; [exact c55_transmission|]. split; [apply honestb_ok; vm_compute; reflexivity|]. intros m [<-|[]]. left. reflexivity.
  - split; [constructor|]. intros m [].
  - vm_compute. reflexivity.
  - apply words_carryb_ok; [exact c78_gap_D_length|vm_compute; reflexivity].
Qed.
Theorem C78_missed_subframe_refuted :
  exists (C : crypto) (B : build) (S : storage) root pk slow t pkrs D h l o prnd adkd g j prna,
    crypto_ok C /\ storage_ok S /\ right_reception root pk t pkrs D h /\
    run_log (Some LWarn) (osnma_new root (Some pk) slow) h = Ok (l, o) /\
    exists lv, In (lv, LgTagWrong prnd adkd g j prna) l.
Proof.
  exists toy_crypto, debug_build, small_storage, None, c55_pk, false, c55_t, [], c78_gap_D, c78_gap_h.
  destruct (run_log (S := small_storage) (Some LWarn) (osnma_new (S := small_storage) None (Some c55_pk) false) c78_gap_h) as [(l & o)|] eqn:E.
  - assert (Hl : c78_wrong (Ok (l, o)) = [(1, 5%nat, 2)]) by (rewrite <- E; vm_compute; reflexivity).
    assert (Hin : exists lv adkd g, In (lv, LgTagWrong 1 adkd g 5 2) l).
    { assert (Hx : In (1, 5%nat, 2) (c78_wrong (Ok (l, o)))) by (rewrite Hl; now left). unfold c78_wrong in Hx. apply in_flat_map in Hx.
      destruct Hx as ((lv & m) & Hm & Hx). destruct m; try contradiction Hx. destruct Hx as [Hx|[]].
      exists lv, adkd, g. assert (prnd = 1 /\ tag_idx = 5%nat /\ prna = 2) as (-> & -> & ->) by (repeat split; congruence). exact Hm. }
    destruct Hin as (lv & adkd & g & Hin). exists l, o, 1, adkd, g, 5%nat, 2.
    split; [exact toy_crypto_ok|]. split; [exact small_storage_ok|]. split; [exact c78_gap_right|]. split; [reflexivity|]. exists lv. exact Hin.
  - exfalso. assert (X : c78_wrong Panic = [(1, 5%nat, 2)]) by (rewrite <- E; vm_compute; reflexivity). discriminate X.
Qed.

Print Assumptions C78_no_warnings.
Print Assumptions C78_merkle_tree_root.
Print Assumptions C78_missed_subframe_refuted.

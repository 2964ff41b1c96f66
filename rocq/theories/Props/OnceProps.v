(** Property C57: no tag is counted twice. *)
From Coq Require Import ZArith String List Bool Lia ZifyBool ZifyNat.
From Verif Require Import Model.Prelude Model.Params Model.Gst Model.Svn Model.Bitfields Model.Tesla Model.Merkle
  Model.Nav Model.Osnma
  Spec.TimeSpec Spec.CollectSpec Spec.NavSpec Spec.TeslaSpec Spec.KrootSpec Spec.SystemSpec Spec.KeySpec Spec.OnceSpec
  Proofs.Base Proofs.GstProofs Proofs.KrootProofs Proofs.SystemProofs Proofs.OnceProofs
  Examples.Vectors Props.SystemProps Examples.Demo Examples.Toy Examples.Transmit Examples.Received Props.KeyProps.
Import ListNotations.
Open Scope list_scope.
Open Scope Z_scope.
Local Existing Instance toy_crypto.

(** ** C57 *)

(** Data that a getter returns was authenticated by different tags, with as many bits in all as
    the authentication bits given with the data; at least 40.  This needs that no chain is taken
    up again from its KROOT after the receiver dropped it. *)
Theorem C57_each_tag_counts_once_partial :
  forall (C : crypto) (B : build) (S : storage), crypto_ok C -> storage_ok S ->
  forall root user slow h o k svn d, Forall op_ok h -> no_chain_returns root user slow h ->
  run (osnma_new root user slow) h = Ok o -> getter k o svn = Ok (Some d) ->
  authenticated_once root user slow h k svn (nd_data d) (nd_authbits d).
Proof. intros C B S HC HS root user slow h o k svn d. exact (returned_once HC HS root user slow h o k svn d). Qed.

(** In terms of what is received: it is enough that all the signed DSM-KROOTs are of two chains
    and none of them comes with an NMA header that revokes. *)
Theorem C57_two_chains_partial :
  forall (C : crypto) (B : build) (S : storage), crypto_ok C -> storage_ok S ->
  forall root user slow h o a b k svn d, Forall op_ok h -> only_two_chains root user h a b ->
  run (osnma_new root user slow) h = Ok o -> getter k o svn = Ok (Some d) ->
  authenticated_once root user slow h k svn (nd_data d) (nd_authbits d).
Proof.
  intros C B S HC HS root user slow h o a b k svn d Hok H2. apply (returned_once HC HS); [exact Hok|].
  exact (two_chains_stay HC HS root user slow h a b Hok H2).
Qed.

(** *** The hypotheses can be met *)

(** All the subframes of the nominal sequence, and those of a KROOT of chain 2 after it. *)
Definition c57_ops : list op := Eval vm_compute in
  tx_nominal ++ tx_kroot_ops (tx_t0 + 60) 8 (tx_header 2 1 2) 3 chain2 (fun _ => tx_mack1 chain1 (tx_t0 + 60)).
Definition c57_received : list (Z * gst * list Z * list Z) := Eval vm_compute in received_list (osnma_words c57_ops).
Lemma c57_ops_ok : Forall op_ok c57_ops.
Proof. apply op_okb_ok. vm_compute. reflexivity. Qed.
Lemma c57_sorted : sorted_from 0 (osnma_words c57_ops) = true.
Proof. vm_compute. reflexivity. Qed.
Lemma c57_received_eq : received_list (osnma_words c57_ops) = c57_received.
Proof. vm_compute. reflexivity. Qed.
Definition revokesb (hd : Z) : bool :=
  (header_status hd =? status_dont_use) && ((header_cpks hd =? cpks_chain_revoked) || (header_cpks hd =? cpks_public_key_revoked)).
Lemma c57_check : forallb (fun '(_, _, hk, _) =>
  (negb (nth 1 hk 0 mod 16 =? 0) || (num_at (skipn 2 hk) 8 10 =? 1) || (num_at (skipn 2 hk) 8 10 =? 2)) &&
  negb (revokesb (nth 0 hk 0))) c57_received = true.
Proof. vm_compute. reflexivity. Qed.
Lemma c57_two_chains : only_two_chains None (Some (tx_pub 3)) c57_ops 1 2.
Proof.
  pose proof c57_check as H. rewrite forallb_forall in H.
  intros f hd (id & d & svn & g & hk & mk & pk & H1 & H2 & H3 & H4 & -> & _). split.
  - destruct (kroot_first_block 0 c57_ops id d f c57_ops_ok c57_sorted H1 H2 H3) as (svn' & g' & hk' & mk' & X1 & X2 & -> & _).
    rewrite c57_received_eq in X1. specialize (H _ X1). cbv beta iota in H. apply andb_true_iff in H. destruct H as (H & _).
    rewrite X2, (Z.mul_comm 16 id), Z_mod_mult in H. cbn [Z.eqb negb orb] in H. lia.
  - pose proof (received_in 0 c57_ops _ _ _ _ c57_sorted H4) as X. rewrite c57_received_eq in X. specialize (H _ X). cbv beta iota in H.
    apply andb_true_iff in H. destruct H as (_ & H). unfold revokesb in H. intros (K1 & K2). lia.
Qed.
(** Both chains are held; two tags of the first MACK message count. *)
Example C57_example : Forall op_ok c57_ops /\ only_two_chains None (Some (tx_pub 3)) c57_ops 1 2 /\
  no_chain_returns None (Some (tx_pub 3)) false c57_ops /\
  tx_held (run c47_new c57_ops) = Ok (false, (Some 3, None),
    (Some (1, gst_at (tx_t0 + 60)), Some (2, gst_at (tx_t0 - 30))), Some (mkCif 1 None)) /\
  tx_get (run c47_new c57_ops) Ced 2 = Ok (Some (80, gst_at (tx_t0 - 30))).
Proof. split; [exact c57_ops_ok|]. split; [exact c57_two_chains|].
  split; [exact (two_chains_stay toy_crypto_ok full_storage_ok None _ false c57_ops 1 2 c57_ops_ok c57_two_chains)|]. vm_compute. repeat split. Qed.

(** *** The refutation *)

(** Chain 1 with tags of 20 bits. *)
Definition kroot20 (hd : Z) (c : tx_chain) (t : Z) : list Z :=
  let part := [tx_id c * 64; 4 * 16 + 5; 28] ++ bytes_be 2 (t / 604800 mod 4096) ++ [t mod 604800 / 3600] ++ tx_alpha c
    ++ tx_key c (t - 30) in
  let m := hd :: part in
  let sig := toy_sign (pk_bytes 3) m in
  let d := (2 * 16 + 3) :: part ++ sig in
  d ++ firstn (104 - List.length d) (toy_sha256 (m ++ sig)).
(** The information fields of the tags 1 to 8, in the order of MACLT 28; those of satellite 5 and
    the own ones come with a tag of ones. *)
Definition info20 (t svn : Z) : list (Z * Z) :=
  if (t / 30 mod 2 =? 0) then [(5, 0); (5, 0); (5, 0); (svn, 0); (5, 0); (5, 0); (svn, 12); (5, 0)]
  else [(5, 0); (5, 0); (svn, 0); (5, 0); (5, 0); (svn, 4); (svn, 12); (5, 0)].
Definition mack20 (c : tx_chain) (svn t : Z) (first : option (Z * list bool)) : list Z :=
  let key := tx_key c (t + 30) in
  let junk := repeat true 20 in
  bytes_of_bits (junk ++ firstn 12 (bits_of_bytes (toy_hmac key (svn :: gst_bytes t))) ++ be 4 1
    ++ concat (map (fun '(i, (prnd, adkd)) =>
         match first, i with
         | Some (p, data), O =>
             firstn 20 (bits_of_bytes (tx_tag key (Some p) svn t 2 data)) ++ be 8 p ++ be 4 0 ++ be 4 1
         | _, _ => junk ++ be 8 prnd ++ be 4 adkd ++ be 4 1
         end) (combine (seq 0 8) (info20 t svn)))
    ++ bits_of_bytes (tx_key c t) ++ repeat true 28).

Definition dsm20 (first_sat hd id t : Z) (dsm : list Z) : list (Z * list Z * list Z) :=
  map (fun i => (first_sat + Z.of_nat i, tx_block hd id dsm i, mack20 chain1 (first_sat + Z.of_nat i) t None)) (seq 0 8).
Definition revoking : Z := Eval vm_compute in tx_header 3 1 3.
Definition nominal_hd : Z := Eval vm_compute in tx_header 2 1 1.

(** Words of satellites 1 and 2 and the KROOT of chain 1; a MACK message of satellite 1 with one
    good tag, of 20 bits, for satellite 2; and then, all in one subframe: the key for it, the
    KROOT of chain 2 that revokes chain 1, and the KROOT of chain 1 as before. *)
Definition twice_first : list op := Eval vm_compute in
  tx_subframe tx_t0 (dsm20 11 nominal_hd 7 tx_t0 (kroot20 nominal_hd chain1 tx_t0)).
Definition twice_ops : list op := Eval vm_compute in
  (concat (map (fun i => sub (2 * i) (2 * i + 2) (tx_nav tx_t0)
      ++ sub (8 * i) (8 * i + 8) twice_first) (seq 0 15))
  ++ tx_subframe (tx_t0 + 30) [(1, tx_block nominal_hd 7 (kroot20 nominal_hd chain1 tx_t0) 0,
       mack20 chain1 1 (tx_t0 + 30) (Some (2, tx_ced demo_nav2)))]
  ++ tx_subframe (tx_t0 + 60)
       ((1, tx_block nominal_hd 7 (kroot20 nominal_hd chain1 tx_t0) 0, mack20 chain1 1 (tx_t0 + 60) None)
        :: dsm20 11 revoking 8 (tx_t0 + 60) (kroot20 revoking chain2 (tx_t0 + 3600))
        ++ dsm20 21 nominal_hd 7 (tx_t0 + 60) (kroot20 nominal_hd chain1 tx_t0))).

Definition twice_received : list (Z * gst * list Z * list Z) := Eval vm_compute in received_list (osnma_words twice_ops).
Lemma twice_ops_ok : Forall op_ok twice_ops.
Proof. apply op_okb_ok. vm_compute. reflexivity. Qed.
Lemma twice_order : in_time_order twice_ops.
Proof. apply in_time_orderb. vm_compute. reflexivity. Qed.
Lemma twice_sorted : sorted_from 0 (osnma_words twice_ops) = true.
Proof. vm_compute. reflexivity. Qed.
Lemma twice_received_eq : received_list (osnma_words twice_ops) = twice_received.
Proof. vm_compute. reflexivity. Qed.

(** All the KROOTs have tags of 20 bits; they are of chain 1, or of later than any subframe. *)
Lemma twice_krootb : forallb (fun '(_, _, hk, _) =>
  negb (nth 1 hk 0 mod 16 =? 0) ||
  (num_at (skipn 2 hk) 20 24 =? 5) && (num_at (skipn 2 hk) 36 48 =? 1200) &&
  ((num_at (skipn 2 hk) 8 10 =? 1) || (num_at (skipn 2 hk) 48 56 =? 3))) twice_received = true.
Proof. vm_compute. reflexivity. Qed.
Lemma twice_times : forallb (fun '(_, g, _, _) => time_of g <? tx_t0 + 3570) twice_received = true.
Proof. vm_compute. reflexivity. Qed.
Lemma twice_trusted user key : trusted_key None user twice_ops key ->
  ch_tag_bits (k_chain key) = 20%nat /\ (chain_of key = 1 \/ tx_t0 + 3570 <= time_of (k_gst key)).
Proof.
  intros (kr & n & (id & d & f & pk & svn & g & hk & mk & H1 & H2 & H3 & _ & _ & _ & _ & H4) & (A1 & A2 & _)).
  destruct (kroot_first_block 0 twice_ops id d f twice_ops_ok twice_sorted H1 H2 H3) as (svn' & g' & hk' & mk' & X1 & X2 & X3 & X4 & X5 & X6).
  pose proof twice_krootb as H. rewrite forallb_forall in H.
  rewrite twice_received_eq in X1. specialize (H _ X1). cbv beta iota in H.
  rewrite X2, (Z.mul_comm 16 id), Z_mod_mult in H. cbn [Z.eqb negb orb] in H. rewrite <- X3, <- X4, <- X5, <- X6 in H.
  rewrite !andb_true_iff, orb_true_iff, !Z.eqb_eq in H. destruct H as ((K1 & K2) & K3).
  unfold chain_of. rewrite A1. split.
  - pose proof (kk_ts _ _ H4) as T. rewrite K1 in T. apply (tag_table_fun 5); [exact T|now left].
  - rewrite (kk_id _ _ H4). destruct K3 as [K3|K3]; [now left|right]. rewrite A2, (kk_time _ _ H4), K2, K3.
    change ((604800 * 1200 + 3600 * 3 - 30) mod (65536 * 604800)) with (tx_t0 + 3570). lia.
Qed.

(** Only one tag is about the CED of satellite 2. *)
Lemma twice_tagb : forallb (fun '(svn, g, _, mk) => negb (svn =? 2) &&
  forallb (fun j => let i := info_at (bits_of_bytes mk) 20 j in
    negb (bits_eqb (firstn 8 i) (be 8 2)) || negb (bits_eqb (sub 8 12 i) (be 4 0) || bits_eqb (sub 8 12 i) (be 4 12)) ||
    bits_eqb (sub 8 12 i) (be 4 0) && (svn =? 1) && gst_eqb g (gst_at (tx_t0 + 30)) && (j =? 1)%nat) (seq 1 12)) twice_received = true.
Proof. vm_compute. reflexivity. Qed.
Definition twice_tag : tag_id := mkTagId 1 1 (gst_at (tx_t0 + 30)) 0 1.
Lemma twice_only user slow bits i tag : tag_verified None user slow twice_ops Ced 2 bits i tag ->
  i = twice_tag /\ List.length tag = 20%nat.
Proof.
  intros (h1 & h2 & delay & cop & gn & key & hk & mk & E & V & _ & Hc & Hsf & Ht).
  destruct V as (prnk & hkk & mkk & hk0 & mk0 & _ & V1 & _ & V3 & V4 & _).
  assert (V3' : trusted_key None user twice_ops key) by (rewrite E; now apply trusted_key_mono).
  destruct (twice_trusted _ _ V3') as (T1 & T2).
  assert (Hk : In (prnk, k_gst key, hkk, mkk) twice_received).
  { rewrite <- twice_received_eq. apply (received_in 0); [exact twice_sorted|]. rewrite E. now apply subframe_received_mono. }
  assert (Hm : In (ti_sat i, ti_gst i, hk, mk) twice_received).
  { rewrite <- twice_received_eq. apply (received_in 0); [exact twice_sorted|]. rewrite E. now apply subframe_received_mono. }
  pose proof twice_times as X. rewrite forallb_forall in X. specialize (X _ Hk). cbv beta iota in X.
  pose proof twice_tagb as Y. rewrite forallb_forall in Y. specialize (Y _ Hm). cbv beta iota in Y. apply andb_true_iff in Y. destruct Y as (Y1 & Y2).
  unfold tag_at in Ht. rewrite T1 in Ht. destruct Ht as (Ht1 & Ht2 & Ht3).
  assert (Hlen : List.length mk = 60%nat).
  { assert (Hok1 : Forall op_ok h1). { pose proof twice_ops_ok as Q. rewrite E in Q. exact (proj1 (proj1 (Forall_app _ _ _) Q)). }
    apply (subframe_received_bytes _ _ _ _ _ Hok1 Hsf). }
  split.
  - destruct i as [ic is ig ia ip]. cbn [ti_chain ti_sat ti_gst ti_adkd ti_pos] in *.
    assert (Ec : ic = 1) by lia. rewrite Ec. clear Ec Hc.
    destruct ip as [|ip]; [exfalso; destruct Ht3 as (Z1 & _); rewrite <- Z1 in Y1; discriminate|].
    destruct Ht3 as (Z1 & _). rewrite forallb_forall in Y2. specialize (Y2 (Datatypes.S ip)).
    rewrite in_seq in Y2. specialize (Y2 ltac:(lia)). cbv zeta in Y2. rewrite Z1 in Y2.
    change (firstn 8 (be 8 2 ++ be 4 ia ++ be 4 cop)) with (be 8 2) in Y2.
    assert (Ea : sub 8 12 (be 8 2 ++ be 4 ia ++ be 4 cop) = be 4 ia) by reflexivity.
    rewrite Ea in Y2. destruct V4 as [(-> & _)|[(_ & V4 & _)|(-> & _)]]; [|discriminate V4|].
    + change (negb (bits_eqb (be 8 2) (be 8 2)) || negb (bits_eqb (be 4 0) (be 4 0) || bits_eqb (be 4 0) (be 4 12))) with false in Y2.
      change (bits_eqb (be 4 0) (be 4 0)) with true in Y2. cbn [orb andb] in Y2. rewrite !andb_true_iff, gst_eqb_eq in Y2.
      destruct Y2 as ((Y2 & ->) & Y3). apply Z.eqb_eq in Y2. apply Nat.eqb_eq in Y3. subst is. injection Y3 as ->. reflexivity.
    + discriminate Y2.
  - rewrite Ht2. unfold sub. rewrite firstn_length, skipn_length, length_bits_of_bytes, Hlen. lia.
Qed.

(** In general it is false.  A chain that was revoked is taken up again from the KROOT received
    before (C47); the keys that follow are then accepted again, and the tags are verified again.
    Here the calls are in the order of time, only one tag for the data, of 20 bits, was ever
    verified, and the data is returned with 40 bits, the minimum. *)
Theorem C57_refuted : exists root user h o svn d i,
  Forall op_ok h /\ in_time_order h /\ run (osnma_new root user false) h = Ok o /\
  getter Ced o svn = Ok (Some d) /\ nd_authbits d = 40 /\
  (forall i' tag, tag_verified root user false h Ced svn (nd_data d) i' tag -> i' = i /\ List.length tag = 20%nat) /\
  ~ authenticated_once root user false h Ced svn (nd_data d) (nd_authbits d).
Proof.
  assert (E : tx_get (run c47_new twice_ops) Ced 2 = Ok (Some (40, gst_at tx_t0))) by (vm_compute; reflexivity).
  destruct (tx_get_some _ _ _ _ _ E) as (o & d & H1 & H2 & H3 & _).
  exists None, (Some (tx_pub 3)), twice_ops, o, 2, d, twice_tag.
  split; [exact twice_ops_ok|]. split; [exact twice_order|]. split; [exact H1|]. split; [exact H2|]. split; [exact H3|].
  assert (Hall := twice_only (Some (tx_pub 3)) false (nd_data d)). split; [exact Hall|].
  rewrite H3. intros (_ & tags & T1 & T2 & T3).
  destruct tags as [|(i1 & t1) [|(i2 & t2) tags]].
  - discriminate T1.
  - destruct (Hall i1 t1 (T3 _ _ (or_introl eq_refl))) as (_ & L). cbn [map snd concat] in T1. rewrite app_nil_r, L in T1. discriminate T1.
  - destruct (Hall i1 t1 (T3 _ _ (or_introl eq_refl))) as (E1 & _), (Hall i2 t2 (T3 _ _ (or_intror (or_introl eq_refl)))) as (E2 & _).
    cbn [map fst] in T2. apply NoDup_cons_iff in T2. destruct T2 as (T2 & _). apply T2. left. congruence.
Qed.

Print Assumptions C57_each_tag_counts_once_partial.
Print Assumptions C57_two_chains_partial.
Print Assumptions C57_refuted.

(** Properties C01 to C05, C18 and C34: what is returned was authenticated. *)
From Coq Require Import ZArith String List Bool Lia.
From Verif Require Import Model.Prelude Model.Params Model.Gst Model.Svn Model.Bitfields Model.Tesla Model.Merkle
  Model.Nav Model.Osnma
  Spec.TimeSpec Spec.CollectSpec Spec.NavSpec Spec.TeslaSpec Spec.KrootSpec Spec.MerkleSpec Spec.SystemSpec
  Proofs.Base Proofs.SystemProofs Proofs.GetterProofs Examples.Sha256 Examples.Vectors Examples.Demo.
Import ListNotations.
Open Scope list_scope.
Open Scope Z_scope.

(** In all of these theorems [root], [user] and [slow] are what the user gave to the constructor
    (the Merkle tree root, the public key, and the slow-MAC-only flag), and [h] is any list of
    calls of [feed_inav] and [feed_osnma] with data of the right sizes, in any order and at any
    times, after which the receiver is [o]. *)

(** ** C01 *)
Theorem C01_returned_data_is_authenticated :
  forall (C : crypto) (B : build) (S : storage), crypto_ok C -> storage_ok S ->
  forall root user slow h o k svn d, Forall op_ok h ->
  run (osnma_new root user slow) h = Ok o -> getter k o svn = Ok (Some d) ->
  authenticated root user slow h k svn (nd_data d) (nd_authbits d).
Proof. intros C B S HC HS root user slow h o k svn d. now apply returned_authenticated. Qed.

(** The hypotheses are met by a history of 164 calls, after which data with 80 authentication
    bits, of a fast and of a slow MAC, is returned. *)
Lemma demo_got slow h k svn n g : demo_get slow h k svn = Ok (Some (n, g)) ->
  exists o d, run (osnma_new None (Some demo_pubkey) slow) h = Ok o /\
    getter k o svn = Ok (Some d) /\ nd_authbits d = n /\ nd_gst d = g.
Proof.
  unfold demo_get. change (from_pubkey demo_pubkey slow) with (osnma_new None (Some demo_pubkey) slow).
  destruct (run _ _) as [o|]; [|discriminate]. cbn [bind]. intros H. exists o.
  destruct (getter k o svn) as [[d|]|]; [|discriminate|discriminate]. cbn [bind option_map] in H.
  exists d. repeat split; congruence.
Qed.
Lemma full_storage_ok : storage_ok full_storage.
Proof. unfold storage_ok. cbn. lia. Qed.
Example C01_example :
  crypto_ok demo_crypto /\ storage_ok full_storage /\ Forall op_ok demo_all /\
  exists o d, run (osnma_new None (Some demo_pubkey) false) demo_all = Ok o /\
    getter Ced o 1 = Ok (Some d) /\ nd_authbits d = 80 /\ nd_gst d = mkGst 1200 7170.
Proof.
  split; [apply demo_crypto_ok|]. split; [apply full_storage_ok|]. split; [apply demo_ops_ok|].
  apply demo_got. apply demo_both.
Qed.

(** ** C02 *)

(** Each key held is trusted; the keys that tags are verified with are trusted by C01. *)
Theorem C02_held_keys_are_trusted :
  forall (C : crypto) (B : build) (S : storage), crypto_ok C -> storage_ok S ->
  forall root user slow h o key, Forall op_ok h -> run (osnma_new root user slow) h = Ok o ->
  ks_k0 (o_keys o) = Some key \/ ks_k1 (o_keys o) = Some key ->
  trusted_key root user h key.
Proof.
  intros C B S HC HS root user slow h o key Hops Hrun Hkey.
  destruct (run_inv HC HS root user slow h Hops o Hrun) as (_ & Hinv).
  now apply (ri_keys _ _ _ _ _ Hinv).
Qed.

(** Each public key held was given by the user or leads to the Merkle tree root. *)
Theorem C02_held_public_keys_are_trusted :
  forall (C : crypto) (B : build) (S : storage), crypto_ok C -> storage_ok S ->
  forall root user slow h o pk, Forall op_ok h -> run (osnma_new root user slow) h = Ok o ->
  ps_current (o_pub o) = Some pk \/ ps_next (o_pub o) = Some pk ->
  trusted_pubkey root user h pk.
Proof.
  intros C B S HC HS root user slow h o pk Hops Hrun Hpk.
  destruct (run_inv HC HS root user slow h Hops o Hrun) as (_ & Hinv).
  now apply (ri_pub _ _ _ _ _ Hinv).
Qed.

(** The key that a returned tag was verified with. *)
Theorem C02_tag_keys_are_trusted :
  forall (C : crypto) (B : build) (S : storage), crypto_ok C -> storage_ok S ->
  forall root user slow h o k svn d, Forall op_ok h ->
  run (osnma_new root user slow) h = Ok o -> getter k o svn = Ok (Some d) ->
  exists tags, nd_authbits d = Z.min 65535 (Z.of_nat (List.length (concat tags))) /\
    forall tag, In tag tags ->
      exists key which prna t ctr s,
        trusted_key root user h key /\
        tag_of (ch_mac (k_chain key)) (key_bytes key) (tag_bits which prna t ctr s (nd_data d)) tag.
Proof.
  intros C B S HC HS root user slow h o k svn d Hops Hrun Hget.
  destruct (returned_authenticated HC HS root user slow h o k svn d Hops Hrun Hget) as (_ & tags & H1 & H2).
  exists tags. split; [exact H1|]. intros tag Htag.
  destruct (H2 tag Htag) as (h1 & h2 & -> & adkd & delay & cop & prna & gn & g & key & Hv & _).
  destruct Hv as (x1 & x2 & x3 & x4 & x5 & _ & _ & _ & V1 & _ & _ & _ & _ & V2 & _).
  exists key. destruct V2 as (j & _ & _ & V2). destruct j as [|j].
  - exists None, prna, (time_of g), 1, (status_of x4). split; [now apply trusted_key_mono|].
    tauto.
  - exists (Some svn), prna, (time_of g), (Z.of_nat (Datatypes.S j) + 1), (status_of x4).
    split; [now apply trusted_key_mono|]. tauto.
Qed.

(** After the history of the example a key 12 subframes after the root key is held. *)
Example C02_example : exists o, run (osnma_new None (Some demo_pubkey) false) demo_all = Ok o /\
  exists key, (ks_k0 (o_keys o) = Some key \/ ks_k1 (o_keys o) = Some key) /\ k_gst key = mkGst 1200 7530.
Proof.
  assert (H : (o <- run (osnma_new None (Some demo_pubkey) false) demo_all ;;
               Ok (option_map k_gst (ks_k0 (o_keys o)))) = Ok (Some (mkGst 1200 7530))) by (vm_compute; reflexivity).
  destruct (run _ _) as [o|]; [|discriminate H]. exists o. split; [reflexivity|]. cbn [bind] in H.
  destruct (ks_k0 (o_keys o)) as [key|]; [|discriminate H]. exists key. split; [now left|].
  cbn [option_map] in H. congruence.
Qed.

(** ** C03 *)
Theorem C03_returned_bits_were_received :
  forall (C : crypto) (B : build) (S : storage), crypto_ok C -> storage_ok S ->
  forall root user slow h o k svn d, Forall op_ok h ->
  run (osnma_new root user slow) h = Ok o -> getter k o svn = Ok (Some d) ->
  forall i, (i < List.length (icd_fields k))%nat ->
  exists w, In w (inav_words h) /\ gives_field k svn i (nd_data d) w.
Proof. intros C B S HC HS root user slow h o k svn d Hops Hrun Hget i. now apply (returned_received HC HS root user slow h o). Qed.

Example C03_example :
  exists o d, run (osnma_new None (Some demo_pubkey) false) demo_fast = Ok o /\
    getter Timing o 1 = Ok (Some d) /\ nd_authbits d = 40 /\ nd_gst d = mkGst 1200 7170.
Proof. apply demo_got. apply demo_timing1. Qed.

(** ** C04 *)
Theorem C04_disclosure_delay :
  forall (C : crypto) (B : build) (S : storage), crypto_ok C -> storage_ok S ->
  forall root user slow h o k svn d, Forall op_ok h -> in_subframe_order h ->
  run (osnma_new root user slow) h = Ok o -> getter k o svn = Ok (Some d) ->
  exists tags, nd_authbits d = Z.min 65535 (Z.of_nat (List.length (concat tags))) /\
    forall tag, In tag tags -> verified_in_time root user h k svn (nd_data d) tag.
Proof.
  intros C B S HC HS root user slow h o k svn d Hops Hord Hrun Hget.
  destruct (returned_authenticated HC HS root user slow h o k svn d Hops Hrun Hget) as (_ & tags & H1 & H2).
  exists tags. split; [exact H1|]. intros tag Htag. apply (verified_time_order root user slow); auto.
Qed.

(** The calls of the example are in time order. *)
Lemma in_time_orderb h :
  forallb (fun i => match nth_error h i, nth_error h (S i) with
                    | Some x, Some y => time_of (op_gst x) <=? time_of (op_gst y)
                    | _, _ => true end) (seq 0 (List.length h)) = true -> in_time_order h.
Proof.
  intros H. rewrite forallb_forall in H.
  intros i j x y Hij Hi Hj. revert y Hj. induction Hij as [|j Hij IH]; intros y Hj.
  - assert (x = y) by congruence. subst. lia.
  - assert (Hlt : (S j < List.length h)%nat) by (apply nth_error_Some; congruence).
    destruct (nth_error h j) as [z|] eqn:Ez; [|apply nth_error_None in Ez; lia].
    specialize (H j). rewrite Ez, Hj in H. specialize (IH z eq_refl).
    assert (In j (seq 0 (List.length h))) as Hin by (apply in_seq; lia). specialize (H Hin). lia.
Qed.
(** The same for the order of the subframes. *)
Lemma in_subframe_orderb h :
  forallb (fun i => match nth_error h i, nth_error h (S i) with
                    | Some x, Some y => time_of (subframe_of (op_gst x)) <=? time_of (subframe_of (op_gst y))
                    | _, _ => true end) (seq 0 (List.length h)) = true -> in_subframe_order h.
Proof.
  intros H. rewrite forallb_forall in H.
  intros i j x y Hij Hi Hj. revert y Hj. induction Hij as [|j Hij IH]; intros y Hj.
  - assert (x = y) by congruence. subst. lia.
  - assert (Hlt : (S j < List.length h)%nat) by (apply nth_error_Some; congruence).
    destruct (nth_error h j) as [z|] eqn:Ez; [|apply nth_error_None in Ez; lia].
    specialize (H j). rewrite Ez, Hj in H. specialize (IH z eq_refl).
    assert (In j (seq 0 (List.length h))) as Hin by (apply in_seq; lia). specialize (H Hin). lia.
Qed.
Example C04_example : in_subframe_order demo_all /\
  exists o d, run (osnma_new None (Some demo_pubkey) false) demo_all = Ok o /\
    getter Ced o 1 = Ok (Some d) /\ nd_authbits d = 80 /\ nd_gst d = mkGst 1200 7170.
Proof. split; [apply in_subframe_orderb; vm_compute; reflexivity|]. apply demo_got. apply demo_both. Qed.

(** ** C05 *)
Theorem C05_slow_mac_timing :
  forall (C : crypto) (B : build) (S : storage), crypto_ok C -> storage_ok S ->
  forall root user h o svn d, Forall op_ok h ->
  run (osnma_new root user true) h = Ok o -> get_timing_parameters o svn <> Ok (Some d).
Proof.
  intros C B S HC HS root user h o svn d Hops Hrun Hget.
  destruct (authenticated_some root user true h Timing svn (nd_data d) (nd_authbits d)) as (tag & Ht).
  { now apply (returned_authenticated HC HS root user true h o Timing). }
  apply verified_slow in Ht. destruct Ht as (Ht & _). discriminate Ht.
Qed.

Theorem C05_slow_mac_ced :
  forall (C : crypto) (B : build) (S : storage), crypto_ok C -> storage_ok S ->
  forall root user h o svn d, Forall op_ok h ->
  run (osnma_new root user true) h = Ok o -> get_ced_and_status o svn = Ok (Some d) ->
  exists tags, 40 <= nd_authbits d /\
    nd_authbits d = Z.min 65535 (Z.of_nat (List.length (concat tags))) /\
    forall tag, In tag tags -> exists h1 h2 cop prna gn g key, h = h1 ++ h2 /\
      verified_by root user h1 Ced svn (nd_data d) tag 12 330 cop prna gn g key.
Proof.
  intros C B S HC HS root user h o svn d Hops Hrun Hget.
  destruct (returned_authenticated HC HS root user true h o Ced svn d Hops Hrun Hget) as (H0 & tags & H1 & H2).
  exists tags. split; [exact H0|]. split; [exact H1|]. intros tag Htag.
  exact (proj2 (verified_slow _ _ _ _ _ _ _ (H2 tag Htag))).
Qed.

(** In this mode the fast MACs do nothing, and the slow MAC authenticates. *)
Example C05_example : demo_get true demo_fast Ced 1 = Ok None /\
  exists o d, run (osnma_new None (Some demo_pubkey) true) demo_all = Ok o /\
    getter Ced o 1 = Ok (Some d) /\ nd_authbits d = 40 /\ nd_gst d = mkGst 1200 7170.
Proof. split; [apply demo_slow_early|]. apply demo_got. apply demo_slow. Qed.

(** ** C18 *)

(** Where a tag is in a MACK message, and the COP written after it: the last four bits of the
    information field. *)
Definition counted_with_cop (mack : list Z) (ts : nat) (tag : list bool) (cop : Z) : Prop :=
  exists j, tag = sub ((ts + 16) * j) ((ts + 16) * j + ts) (bits_of_bytes mack) /\
    sub ((ts + 16) * j + ts + 12) ((ts + 16) * (j + 1)) (bits_of_bytes mack) = be 4 cop.

Lemma length_be n v : List.length (be n v) = n.
Proof. revert v. induction n as [|n IH]; intros v; [reflexivity|]. cbn [be]. rewrite app_length, IH. cbn [List.length]. lia. Qed.
Lemma info_cop m ts j cop l : List.length l = 12%nat -> info_at m ts j = l ++ be 4 cop ->
  sub ((ts + 16) * j + ts + 12) ((ts + 16) * (j + 1)) m = be 4 cop.
Proof.
  intros Hl H. unfold info_at, sub in *.
  assert (E : skipn 12 (l ++ be 4 cop) = be 4 cop).
  { rewrite <- Hl, skipn_app, skipn_all, Nat.sub_diag. reflexivity. }
  rewrite <- E, <- H, skipn_firstn_comm, EntryProofs.skipn_skipn. f_equal. lia.
Qed.

Theorem C18_dummy_tags_do_not_count :
  forall (C : crypto) (B : build) (S : storage), crypto_ok C -> storage_ok S ->
  forall root user slow h o k svn d, Forall op_ok h ->
  run (osnma_new root user slow) h = Ok o -> getter k o svn = Ok (Some d) ->
  exists tags, nd_authbits d = Z.min 65535 (Z.of_nat (List.length (concat tags))) /\
    forall tag, In tag tags -> exists prna g hkroot mack ts cop,
      subframe_received h prna g hkroot mack /\ counted_with_cop mack ts tag cop /\ 0 < cop < 16.
Proof.
  intros C B S HC HS root user slow h o k svn d Hops Hrun Hget.
  destruct (returned_authenticated HC HS root user slow h o k svn d Hops Hrun Hget) as (_ & tags & H1 & H2).
  exists tags. split; [exact H1|]. intros tag Htag.
  destruct (H2 tag Htag) as (h1 & h2 & -> & adkd & delay & cop & prna & gn & g & key & Hv & _).
  destruct Hv as (x1 & x2 & x3 & x4 & mack & _ & _ & _ & _ & _ & _ & V1 & _ & V2 & _ & V3 & _).
  exists prna, g, x4, mack, (ch_tag_bits (k_chain key)), cop.
  split; [now apply subframe_received_mono|]. split; [|exact V3].
  destruct V2 as (j & _ & V4 & V5). exists j. split; [exact V4|]. destruct j as [|j].
  - destruct V5 as (_ & _ & (q & V5) & _). apply (info_cop _ _ _ _ (be 12 q)); [apply length_be|exact V5].
  - destruct V5 as (V5 & _). apply (info_cop _ _ _ _ (be 8 svn ++ be 4 adkd)).
    + rewrite app_length, !length_be. reflexivity.
    + rewrite V5, app_assoc. reflexivity.
Qed.

(** And no stored data changes when a tag with COP 0 is processed, whatever the tag and the state. *)
Theorem C18_dummy_tag_changes_nothing :
  forall (C : crypto) (B : build) (S : storage) k key tag gm gn prnd svn prna j s n n',
  process_one_tag k key tag 0 gm gn prnd svn prna j s n = Ok n' -> n' = n.
Proof.
  intros C B S k key tag gm gn prnd svn prna j s n n' H. unfold process_one_tag in H.
  change (0 =? 0) with true in H. cbv beta iota in H.
  destruct (nav_validate_dummy_tag _ _ _ _ _ _ _ _) as [b|]; [|discriminate H]. cbn [bind] in H. congruence.
Qed.

(** The example history has a dummy tag (tag 3 of the MACK message) that is right, and that did
    not count: the data of satellite 2 has the 80 bits of tags 1 and 5. *)
Example C18_example : counted_with_cop demo_mack 40 (sub 168 208 (bits_of_bytes demo_mack)) 0 /\
  exists o d, run (osnma_new None (Some demo_pubkey) false) demo_fast = Ok o /\
    getter Ced o 2 = Ok (Some d) /\ nd_authbits d = 80 /\ nd_gst d = mkGst 1200 7170.
Proof.
  split; [|apply demo_got; apply demo_ced2]. exists 3%nat. vm_compute. split; reflexivity.
Qed.

(** ** C34 *)
Theorem C34_cop :
  forall (C : crypto) (B : build) (S : storage), crypto_ok C -> storage_ok S ->
  forall root user slow h o k svn d, Forall op_ok h ->
  run (osnma_new root user slow) h = Ok o -> getter k o svn = Ok (Some d) ->
  exists tags, nd_authbits d = Z.min 65535 (Z.of_nat (List.length (concat tags))) /\
    forall tag, In tag tags -> exists h1 h2 prna g hkroot mack ts cop gn,
      h = h1 ++ h2 /\ subframe_received h1 prna g hkroot mack /\ counted_with_cop mack ts tag cop /\
      seconds_after gn g 30 /\ nav_seen (inav_words h1) k svn (nd_data d) gn cop.
Proof.
  intros C B S HC HS root user slow h o k svn d Hops Hrun Hget.
  destruct (returned_authenticated HC HS root user slow h o k svn d Hops Hrun Hget) as (_ & tags & H1 & H2).
  exists tags. split; [exact H1|]. intros tag Htag.
  destruct (H2 tag Htag) as (h1 & h2 & -> & adkd & delay & cop & prna & gn & g & key & Hv & _).
  destruct Hv as (x1 & x2 & x3 & x4 & mack & _ & _ & _ & _ & _ & _ & V1 & _ & V2 & _ & V3 & V4 & V5).
  exists h1, h2, prna, g, x4, mack, (ch_tag_bits (k_chain key)), cop, gn.
  split; [reflexivity|]. split; [exact V1|]. split; [|tauto].
  destruct V2 as (j & _ & V6 & V7). exists j. split; [exact V6|]. destruct j as [|j].
  - destruct V7 as (_ & _ & (q & V7) & _). apply (info_cop _ _ _ _ (be 12 q)); [apply length_be|exact V7].
  - destruct V7 as (V7 & _). apply (info_cop _ _ _ _ (be 8 svn ++ be 4 adkd)).
    + rewrite app_length, !length_be. reflexivity.
    + rewrite V7, app_assoc. reflexivity.
Qed.

(** The tags of the example have COP 1.  If one word is received a subframe later than the
    others, only satellite 2, whose data is all of the subframe before the tag, is authenticated. *)
Definition demo_stale : list op :=
  map (fun x => match x with
                | FeedInav w svn g b =>
                    FeedInav w svn (if (svn =? 1) && negb (nth 0 w 0 / 4 =? 1) then mkGst 1200 (g_tow g)
                                    else if svn =? 1 then mkGst 1200 7140 else g) b
                | y => y end) demo_nav_ops ++ demo_kroot_ops ++ demo_key_ops.
Example C34_example : Forall op_ok demo_stale /\
  demo_get false demo_stale Ced 1 = Ok None /\
  exists o d, run (osnma_new None (Some demo_pubkey) false) demo_stale = Ok o /\
    getter Ced o 2 = Ok (Some d) /\ nd_authbits d = 80 /\ nd_gst d = mkGst 1200 7170.
Proof.
  split; [apply op_okb_ok; vm_compute; reflexivity|].
  split; [vm_compute; reflexivity|]. apply demo_got. vm_compute. reflexivity.
Qed.

Print Assumptions C01_returned_data_is_authenticated.
Print Assumptions C02_held_keys_are_trusted.
Print Assumptions C02_held_public_keys_are_trusted.
Print Assumptions C02_tag_keys_are_trusted.
Print Assumptions C03_returned_bits_were_received.
Print Assumptions C04_disclosure_delay.
Print Assumptions C05_slow_mac_timing.
Print Assumptions C05_slow_mac_ced.
Print Assumptions C18_dummy_tags_do_not_count.
Print Assumptions C18_dummy_tag_changes_nothing.
Print Assumptions C34_cop.

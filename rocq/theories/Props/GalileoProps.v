(** Property C56: data that is not of the system is not returned, unless cryptography is broken. *)
From Coq Require Import ZArith String List Bool Lia.
From Verif Require Import Model.Prelude Model.Params Model.Gst Model.Bitfields Model.Tesla Model.Merkle
  Model.Nav Model.Osnma
  Spec.TimeSpec Spec.CollectSpec Spec.NavSpec Spec.TeslaSpec Spec.KrootSpec Spec.MerkleSpec Spec.KeySpec Spec.SystemSpec
  Spec.GalileoSpec Proofs.Base Proofs.SystemProofs Proofs.AuthProofs Proofs.GalileoProofs Props.SystemProps
  Proofs.LayoutProofs Proofs.KrootProofs Examples.Vectors Examples.Demo Examples.Toy Examples.Transmit Props.CompleteProps Props.HonestProps.
Import ListNotations.
Open Scope list_scope.
Open Scope Z_scope.

(** ** C56 *)

(** A TESLA key that is held is the key of the system for its subframe; or a signature was
    forged, or a collision in the Merkle tree was found, or a second preimage of the one-way
    function. *)
Theorem C56_held_keys_are_of_the_system :
  forall (C : crypto) (B : build) (S : storage), crypto_ok C -> storage_ok S ->
  forall G root user slow h o key, galileo_ok G -> configured G root user -> Forall op_ok h ->
  run (osnma_new root user slow) h = Ok o -> held (o_keys o) key ->
  key_bytes key = gal_key G (k_chain key) (time_of (k_gst key)) \/
  signature_forged G h \/ merkle_forged G h \/ second_preimage G key.
Proof.
  intros C B S HC HS G root user slow h o key HG Hc Hok Hr Hk.
  apply (key_genuine HC G HG root user Hc h key Hok). exact (C02_held_keys_are_trusted C B S HC HS root user slow h o key Hok Hr Hk).
Qed.

(** Data that is returned was authenticated by the system, with the key of a subframe in which
    the receiver was called; or a key was forged as above; or all the tags that were counted for
    it, at least 40 bits, were forged before their keys were disclosed. *)
Theorem C56_returned_data_is_of_the_system :
  forall (C : crypto) (B : build) (S : storage), crypto_ok C -> storage_ok S ->
  forall G root user slow h o k svn d, galileo_ok G -> configured G root user ->
  Forall op_ok h -> in_subframe_order h ->
  run (osnma_new root user slow) h = Ok o -> getter k o svn = Ok (Some d) ->
  made_by_system G h k svn (nd_data d) \/ key_forgery G h \/
  exists tags, (40 <= List.length (concat tags))%nat /\
    forall tag, In tag tags -> tag_forged G h svn (nd_data d) tag.
Proof.
  intros C B S HC HS G root user slow h o k svn d HG Hc Hok Hord Hr Hget.
  destruct (C01_returned_data_is_authenticated C B S HC HS root user slow h o k svn d Hok Hr Hget) as (H40 & tags0 & _).
  destruct (C04_disclosure_delay C B S HC HS root user slow h o k svn d Hok Hord Hr Hget) as (tags & Hn & Ht).
  assert (H : (40 <= List.length (concat tags))%nat) by lia.
  destruct (tags_genuine HC G HG root user Hc h k svn (nd_data d) tags Hok) as [E|[E|E]]; auto.
  - intros ->. cbn in H. lia.
  - right. right. exists tags. auto.
Qed.

(** *** The hypotheses can be met *)

(** The system of the examples: its tree has 15 public keys and an alert message; it has signed
    one root key, and made the tags that satellite 1 sends in two subframes. *)
Definition c56_signed : list Z := Eval vm_compute in tx_header 2 1 1 :: kroot_signed_part chain1 tx_t0.
Definition c56_messages (t : Z) : list (Z * list bool) :=
  [(t + 30, tag_message 0 1 1 t NmaOperational (tx_ced demo_nav1)); (t + 30, tag_message 1 2 1 t NmaOperational (tx_ced demo_nav2));
   (t + 30, tag_message 2 1 1 t NmaOperational (tx_timing demo_nav1)); (t + 330, tag_message 4 1 1 t NmaOperational (tx_ced demo_nav1));
   (t + 30, tag_message 5 2 1 t NmaOperational (tx_ced demo_nav2))].
Definition c56_galileo : galileo := mkGal tx_leaves
  (fun pk => exists i, (1 <= i <= 15)%nat /\ pk = pk_key (tx_pub (Z.of_nat i)))
  (fun _ m => bytes_eqb m c56_signed)
  (fun _ t => c55_key t)
  (fun _ t m => existsb (fun p => (fst p =? t) && bits_eqb (snd p) m) (c56_messages tx_t0 ++ c56_messages (tx_t0 + 30))).
Lemma c56_galileo_ok : galileo_ok c56_galileo.
Proof.
  constructor; cbn [c56_galileo gal_leaves gal_pub gal_signs gal_key].
  - intros id key k Hid Hin Hk. apply in_app_or in Hin. destruct Hin as [Hin|[E|[]]].
    + apply in_map_iff in Hin. destruct Hin as (i & E & Hi). apply in_seq in Hi. exists i. split; [lia|].
      apply (f_equal (@tl Z)) in E. cbn [tl] in E. subst key. cbn [p256_from_sec1 toy_crypto] in Hk.
      destruct (Nat.eqb_spec (List.length (pk_bytes (Z.of_nat i))) 33); [|discriminate]. injection Hk as <-. reflexivity.
    + apply (f_equal (hd 0)) in E. cbn [hd] in E. lia.
  - intros id key k Hid Hin Hk. apply in_app_or in Hin. destruct Hin as [Hin|[E|[]]].
    + apply in_map_iff in Hin. destruct Hin as (i & E & Hi). apply in_seq in Hi. apply (f_equal (hd 0)) in E. cbn [hd] in E. lia.
    + apply (f_equal (hd 0)) in E. cbn [hd] in E. lia.
  - intros pk m header d f kr _ Hm Hh HL Hs Hk. apply bytes_eqb_eq in Hm. subst m.
    assert (Hs' : kroot_signed c55_header c55_f c56_signed).
    { split; [apply all_bytes; vm_compute; reflexivity|]. exists 0%nat. split; [lia|]. vm_compute. reflexivity. }
    assert (Hb : is_byte c55_header) by (unfold is_byte, c55_header; lia).
    destruct (kroot_signed_inj _ _ _ _ _ _ _ Hh Hb HL c55_layout Hs Hs') as (_ & P & Q).
    destruct Hk as [K1 K2 K3 K4 K5 K6 K7 K8 K9 K10]. unfold key_bytes. rewrite K8, K4, Q, firstn_app, Nat.sub_diag, firstn_O, firstn_all, app_nil_r.
    rewrite K10. unfold kroot_params in P.
    assert (Hw : kf_wn f = kf_wn c55_f) by congruence. assert (Ht : kf_towh f = kf_towh c55_f) by congruence.
    rewrite Hw, Ht. vm_compute. reflexivity.
Qed.
Lemma c55_pk_eq : pk_key c55_pk = pk_key (tx_pub 3).
Proof.
  assert (E : @eq (list Z) (match pk_key c55_pk with VkP256 k => k | VkP521 k => k end) (pk_bytes 3)) by (vm_compute; reflexivity).
  unfold c55_pk in *. cbn [pk_key tx_pub] in *. exact (f_equal (@VkP256 toy_crypto) E).
Qed.
Example C56_example :
  galileo_ok c56_galileo /\ configured c56_galileo (Some (tx_root tx_leaves)) (Some c55_pk) /\
  Forall op_ok tx_nominal /\ in_subframe_order tx_nominal /\
  exists o d, run (osnma_new (Some (tx_root tx_leaves)) (Some c55_pk) false) tx_nominal = Ok o /\
    getter Ced o 2 = Ok (Some d) /\ nd_authbits d = 80.
Proof.
  split; [exact c56_galileo_ok|]. split.
  { split; [intros r E; injection E as <-; vm_compute; reflexivity|]. intros pk E. injection E as <-.
    exists 3%nat. split; [lia|]. exact c55_pk_eq. }
  split; [apply op_okb_ok; vm_compute; reflexivity|]. split; [apply in_subframe_orderb; vm_compute; reflexivity|].
  assert (H : tx_get (run (osnma_new (Some (tx_root tx_leaves)) (Some c55_pk) false) tx_nominal) Ced 2 = Ok (Some (80, gst_at (tx_t0 - 30))))
    by (vm_compute; reflexivity).
  unfold tx_get in H. destruct (run _ _) as [o|]; [|discriminate H]. cbn [bind] in H. exists o.
  destruct (getter Ced o 2) as [[d|]|]; [|discriminate H..]. cbn [bind option_map] in H. exists d.
  split; [reflexivity|]. split; [reflexivity|]. congruence.
Qed.
(** The data is of the system. *)
Example C56_example_made : made_by_system c56_galileo tx_nominal Ced 2 (tx_ced demo_nav2).
Proof.
  exists c33_chain, 1%nat, 1, tx_t0, NmaOperational, 0, 30. split; [left; auto|]. split; [discriminate|]. split; [auto|].
  split; [vm_compute; reflexivity|]. exists c55_x. split; [|vm_compute; reflexivity].
  rewrite <- c55_nominal. apply in_or_app. right. apply in_or_app. right. apply in_or_app. right. now left.
Qed.

Print Assumptions C56_held_keys_are_of_the_system.
Print Assumptions C56_returned_data_is_of_the_system.

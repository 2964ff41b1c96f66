(** Property C82: the order of words that complete no subframe. *)
From Coq Require Import ZArith String List Bool Lia.
From Verif Require Import Model.Prelude Model.Params Model.Gst Model.Svn Model.Bitfields Model.Tesla Model.Merkle
  Model.Dsm Model.Nav Model.Osnma
  Spec.TimeSpec Spec.CollectSpec Spec.NavSpec Spec.KeySpec Spec.SystemSpec Spec.StoredSpec Spec.CompleteSpec Spec.OrderSpec
  Proofs.Base Proofs.StoredProofs Proofs.OrderProofs Proofs.NavOrderProofs
  Examples.Vectors Examples.Demo Examples.Toy Examples.Transmit Props.KeyProps.
Import ListNotations.
Open Scope list_scope.
Open Scope Z_scope.
Local Existing Instance toy_crypto.

(** ** C82 *)

(** Calls exchanged in this way make no difference: the state in the end is the same, or both
    sequences panic. *)
Theorem C82_order_does_not_matter :
  forall (C : crypto) (B : build) (S : storage), crypto_ok C -> storage_ok S ->
  forall root user slow h h', Forall op_ok h -> reordered h h' ->
  run (osnma_new root user slow) h = run (osnma_new root user slow) h'.
Proof. intros C B S HC HS root user slow h h'. exact (reordered_run HC HS root user slow h h'). Qed.

(** The first OSNMA word of the subframe at 60 s of satellite 1 is fed before or after a
    navigation data word and an OSNMA word of satellite 2; the subframe is completed and its key is stored. *)
Definition c82_a : op := Eval vm_compute in hd (FeedOsnma [] 1 (gst_at 0)) mack60_ops.
Definition c82_rest : list op := Eval vm_compute in tl mack60_ops.
Definition c82_y : op := Eval vm_compute in FeedInav (nth 0 demo_nav2 []) 2 (gst_at (tx_t0 + 60)) E1B.
Definition c82_z : op := Eval vm_compute in match c82_a with FeedOsnma d _ g => FeedOsnma d 2 g | x => x end.
Definition c82_h : list op := Eval vm_compute in (tx_nominal ++ tx_nav (tx_t0 + 30)).
Example C82_example : Forall op_ok (c82_h ++ c82_a :: c82_y :: c82_z :: c82_rest) /\
  reordered (c82_h ++ c82_a :: c82_y :: c82_z :: c82_rest) (c82_h ++ c82_y :: c82_z :: c82_a :: c82_rest) /\
  tx_get (run tx_new (c82_h ++ c82_a :: c82_y :: c82_z :: c82_rest)) Ced 2 = Ok (Some (80, gst_at (tx_t0 + 60))) /\
  tx_held (run tx_new (c82_h ++ c82_a :: c82_y :: c82_z :: c82_rest))
    = Ok (true, (Some 3, None), (Some (1, gst_at (tx_t0 + 60)), None), Some (mkCif 1 None)).
Proof.
  split; [apply op_okb_ok; vm_compute; reflexivity|]. split.
  - assert (N : forall h, expected_subframe (osnma_words h) (match c82_a with FeedOsnma d s g => mkWord d s g | FeedInav d s g _ => mkWord d s g end) = None ->
                not_completing h c82_a).
    { intros h E hk mk g (d & s & gk & E1 & _ & E2). rewrite E1 in E. cbn iota in E. congruence. }
    eapply reordered_trans.
    + apply reordered_swap; [apply N; vm_compute; reflexivity|exact I].
    + change (c82_h ++ c82_y :: c82_a :: c82_z :: c82_rest) with (c82_h ++ [c82_y] ++ c82_a :: c82_z :: c82_rest).
      change (c82_h ++ c82_y :: c82_z :: c82_a :: c82_rest) with (c82_h ++ [c82_y] ++ c82_z :: c82_a :: c82_rest).
      rewrite !(app_assoc c82_h). apply reordered_swap; [apply N; vm_compute; reflexivity|].
      split; [discriminate|vm_compute; reflexivity].
  - split; vm_compute; reflexivity.
Qed.

(** Two words of the same satellite cannot be exchanged: the subframe is lost. *)
Example C82_example_same_satellite :
  match c82_rest with
  | b :: rest =>
      tx_held (run tx_new (c82_h ++ c82_a :: b :: rest))
        = Ok (true, (Some 3, None), (Some (1, gst_at (tx_t0 + 60)), None), Some (mkCif 1 None)) /\
      tx_held (run tx_new (c82_h ++ b :: c82_a :: rest))
        = Ok (true, (Some 3, None), (Some (1, gst_at (tx_t0 + 30)), None), Some (mkCif 1 None))
  | [] => False
  end.
Proof. split; vm_compute; reflexivity. Qed.

(** Neighbouring navigation data words of different satellites in the same subframe can be
    exchanged as well, as long as there are not more satellites than entries: the two states differ
    at most in the places of the entries, and what can be read is the same. *)
Theorem C82_order_of_navigation_words :
  forall (C : crypto) (B : build) (S : storage), crypto_ok C -> storage_ok S ->
  forall root user slow h h', rearranged h h' -> Forall op_ok h -> room_for (map nw_svn (inav_words h)) ->
  forall o, run (osnma_new root user slow) h = Ok o ->
  exists o', run (osnma_new root user slow) h' = Ok o' /\ same_up_to_places o o'.
Proof. intros C B S HC HS root user slow h h'. exact (rearranged_run HC HS root user slow h h'). Qed.

(** In particular always, with 36 entries. *)
Theorem C82_order_of_navigation_words_full_storage :
  forall (C : crypto) (B : build) (S : storage), crypto_ok C -> storage_ok S -> (36 <= num_sats)%nat ->
  forall root user slow h h', rearranged h h' -> Forall op_ok h ->
  forall o, run (osnma_new root user slow) h = Ok o ->
  exists o', run (osnma_new root user slow) h' = Ok o' /\ same_up_to_places o o'.
Proof.
  intros C B S HC HS H36 root user slow h h' H Hok.
  exact (rearranged_run HC HS root user slow h h' H Hok (room_36_words h H36 Hok)).
Qed.

(** The first two words received: satellites 1 and 2 get different places, with the same data authenticated
    in the end. *)
Definition c82_places {S : storage} (o : outcome osnma) : outcome (list (option Z)) :=
  o <- o ;; Ok (map e_svn (stored_row Ced (o_nav o) 0)).
Definition c82_n1 : op := Eval vm_compute in nth 0 tx_nominal (FeedOsnma [] 1 (gst_at 0)).
Definition c82_n2 : op := Eval vm_compute in nth 1 tx_nominal (FeedOsnma [] 1 (gst_at 0)).
Definition c82_n : list op := Eval vm_compute in skipn 2 tx_nominal.
Example C82_example_navigation : Forall op_ok (c82_n1 :: c82_n2 :: c82_n) /\
  rearranged (c82_n1 :: c82_n2 :: c82_n) (c82_n2 :: c82_n1 :: c82_n) /\
  tx_get (run (osnma_new None (Some (tx_pub 3)) false) (c82_n1 :: c82_n2 :: c82_n)) Ced 2 = Ok (Some (80, gst_at (tx_t0 - 30))) /\
  (o <- c82_places (run (osnma_new None (Some (tx_pub 3)) false) (c82_n1 :: c82_n2 :: c82_n)) ;; Ok (skipn 33 o))
    = Ok [None; Some 2; Some 1] /\
  (o <- c82_places (run (osnma_new None (Some (tx_pub 3)) false) (c82_n2 :: c82_n1 :: c82_n)) ;; Ok (skipn 33 o))
    = Ok [None; Some 1; Some 2].
Proof.
  split; [apply op_okb_ok; vm_compute; reflexivity|].
  split; [exact (rearranged_swap [] c82_n1 c82_n2 c82_n (conj (proj1 (Z.eqb_neq 2 1) eq_refl) eq_refl))|].
  split; [vm_compute; reflexivity|]. split; vm_compute; reflexivity.
Qed.

(** With room for two satellites only and words of three, the order decides which ones are kept. *)
Definition c82_two : storage :=
  {| num_sats := 2; nav_depth := 3; nav_depth_sats := 6; mack_depth := 2; mack_depth_sats := 4 |}.
Definition c82_word (svn : Z) : op := FeedInav (nth 0 demo_nav2 []) svn (gst_at tx_t0) E1B.
Example C82_example_room_is_needed : storage_ok c82_two /\ other_satellites (c82_word 2) (c82_word 3) /\
  c82_places (S := c82_two) (@run _ _ c82_two (@osnma_new _ c82_two None None false) [c82_word 2; c82_word 3; c82_word 4])
    = Ok [Some 3; Some 4] /\
  c82_places (S := c82_two) (@run _ _ c82_two (@osnma_new _ c82_two None None false) [c82_word 3; c82_word 2; c82_word 4])
    = Ok [Some 2; Some 4].
Proof.
  split; [repeat split; vm_compute; repeat constructor|]. split; [split; [discriminate|reflexivity]|].
  split; vm_compute; reflexivity.
Qed.

Print Assumptions C82_order_does_not_matter.
Print Assumptions C82_order_of_navigation_words.
Print Assumptions C82_order_of_navigation_words_full_storage.

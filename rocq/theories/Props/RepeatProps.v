(** Property C83: words that are received again. *)
From Coq Require Import ZArith String List Bool Lia.
From Verif Require Import Model.Prelude Model.Params Model.Gst Model.Svn Model.Bitfields Model.Tesla Model.Merkle
  Model.Dsm Model.Nav Model.Osnma
  Spec.TimeSpec Spec.CollectSpec Spec.NavSpec Spec.KeySpec Spec.SystemSpec Spec.StoredSpec Spec.RepeatSpec
  Proofs.Base Proofs.StoredProofs Proofs.RepeatProofs
  Examples.Vectors Examples.Demo Examples.Toy Examples.Transmit Props.KeyProps.
Import ListNotations.
Open Scope list_scope.
Open Scope Z_scope.
Local Existing Instance toy_crypto.

(** ** C83 *)

(** OSNMA data of a satellite for a time of which there was data already makes no difference,
    whatever it is and whatever follows. *)
Theorem C83_repeated_osnma_word :
  forall (C : crypto) (B : build) (S : storage), crypto_ok C -> storage_ok S ->
  forall root user slow h data svn g t, Forall op_ok h -> 1 <= svn <= 36 -> osnma_word_repeats h svn g ->
  run (osnma_new root user slow) (h ++ FeedOsnma data svn g :: t) = run (osnma_new root user slow) (h ++ t).
Proof. intros C B S HC HS root user slow h data svn g t. exact (osnma_repeats HC HS root user slow h data svn g t). Qed.

(** A navigation data word received again makes no difference, as long as there are not more
    satellites than entries: no age, no data, no authentication bits change. *)
Theorem C83_repeated_navigation_word :
  forall (C : crypto) (B : build) (S : storage), crypto_ok C -> storage_ok S ->
  forall root user slow h word svn g b t, Forall op_ok h -> room_for (map nw_svn (inav_words h)) ->
  inav_word_repeats h word svn g b ->
  run (osnma_new root user slow) (h ++ FeedInav word svn g b :: t) = run (osnma_new root user slow) (h ++ t).
Proof. intros C B S HC HS root user slow h word svn g b t. exact (inav_repeats HC HS root user slow h word svn g b t). Qed.

(** Any number of repeated words can be left out. *)
Theorem C83_repeats_can_be_left_out :
  forall (C : crypto) (B : build) (S : storage), crypto_ok C -> storage_ok S ->
  forall root user slow h h', repeats_removed h h' -> Forall op_ok h -> room_for (map nw_svn (inav_words h)) ->
  run (osnma_new root user slow) h = run (osnma_new root user slow) h'.
Proof. intros C B S HC HS root user slow h h' H Hok Hroom. exact (proj2 (proj2 (removed_fine HC HS root user slow h h' H Hok Hroom))). Qed.

(** In particular always, with 36 entries. *)
Theorem C83_repeats_can_be_left_out_full_storage :
  forall (C : crypto) (B : build) (S : storage), crypto_ok C -> storage_ok S -> (36 <= num_sats)%nat ->
  forall root user slow h h', repeats_removed h h' -> Forall op_ok h ->
  run (osnma_new root user slow) h = run (osnma_new root user slow) h'.
Proof.
  intros C B S HC HS H36 root user slow h h' H Hok.
  exact (proj2 (proj2 (removed_fine HC HS root user slow h h' H Hok (room_36_words h H36 Hok)))).
Qed.

(** The first word of the subframe at 60 s comes again, with other data, after the second one, and
    so does the last one, after which the subframe is complete; and a navigation data word.  The
    key of the subframe is stored in the end. *)
Definition c83_h : list op := Eval vm_compute in (tx_nominal ++ tx_nav (tx_t0 + 30)).
Definition c83_n : op := Eval vm_compute in FeedInav (nth 0 demo_nav2 []) 2 (gst_at (tx_t0 + 60)) E1B.
Definition c83_n' : op := Eval vm_compute in FeedInav (nth 0 demo_nav2 []) 2 (gst_at (tx_t0 + 64)) E1B.
Definition c83_a : op := Eval vm_compute in nth 0 mack60_ops (FeedOsnma [] 1 (gst_at 0)).
Definition c83_a' : op := Eval vm_compute in match c83_a with FeedOsnma _ s g => FeedOsnma [1; 2; 3; 4; 5] s g | x => x end.
Definition c83_b : op := Eval vm_compute in nth 1 mack60_ops (FeedOsnma [] 1 (gst_at 0)).
Definition c83_m : list op := Eval vm_compute in firstn 12 (skipn 2 mack60_ops).
Definition c83_z : op := Eval vm_compute in nth 14 mack60_ops (FeedOsnma [] 1 (gst_at 0)).
Example C83_example :
  Forall op_ok (c83_h ++ c83_n :: c83_a :: c83_b :: c83_a' :: c83_n' :: c83_m ++ c83_z :: c83_z :: []) /\
  repeats_removed (c83_h ++ c83_n :: c83_a :: c83_b :: c83_a' :: c83_n' :: c83_m ++ c83_z :: c83_z :: [])
    (c83_h ++ c83_n :: c83_a :: c83_b :: c83_m ++ c83_z :: []) /\
  tx_held (run tx_new (c83_h ++ c83_n :: c83_a :: c83_b :: c83_a' :: c83_n' :: c83_m ++ c83_z :: c83_z :: []))
    = Ok (true, (Some 3, None), (Some (1, gst_at (tx_t0 + 60)), None), Some (mkCif 1 None)).
Proof.
  split; [apply op_okb_ok; vm_compute; reflexivity|]. split; [|vm_compute; reflexivity].
  generalize c83_h as h. generalize c83_m as m. intros m h.
  eapply removed_more; [|eapply removed_more].
  - change (h ++ c83_n :: c83_a :: c83_b :: c83_a' :: c83_n' :: m ++ c83_z :: c83_z :: [])
      with (h ++ [c83_n; c83_a; c83_b] ++ c83_a' :: c83_n' :: m ++ c83_z :: c83_z :: []).
    rewrite app_assoc. apply removed_osnma.
    exists (h ++ [c83_n]), (match c83_a with FeedOsnma d _ _ => d | _ => [] end), [c83_b].
    split; [rewrite <- !app_assoc; reflexivity|]. split; [exists 146; split; [now left|discriminate]|].
    intros d s g [E|[]]. unfold c83_b in E. injection E as <- <- <-. split; [reflexivity|]. intros _. cbn. lia.
  - apply removed_inav. exists h, (gst_at (tx_t0 + 60)), [c83_a; c83_b].
    split; [reflexivity|]. split; [reflexivity|].
    intros w s g b [E|[E|[]]]; discriminate E.
  - match goal with |- repeats_removed ?l _ =>
      replace l with ((h ++ c83_n :: c83_a :: c83_b :: m ++ [c83_z]) ++ c83_z :: [])
        by (rewrite <- !app_assoc; cbn [app]; rewrite <- !app_assoc; reflexivity) end.
    match goal with |- repeats_removed (?l ++ c83_z :: []) _ => pose (before := l) end.
    assert (R : repeats_removed (before ++ c83_z :: []) (before ++ [])); [|rewrite app_nil_r in R; exact R].
    apply removed_osnma.
    exists (h ++ c83_n :: c83_a :: c83_b :: m), (match c83_z with FeedOsnma d _ _ => d | _ => [] end), [].
    split; [rewrite <- app_assoc; reflexivity|]. split; [|intros d s g []].
    exists 1. split; [now left|discriminate].
Qed.

(** The condition on the times is needed: the second word comes too early and is ignored, but
    when it comes again, after the first one, it is used. *)
Example C83_example_times_are_needed :
  tx_held (run tx_new (c83_h ++ c83_b :: c83_a :: c83_m ++ [c83_z]))
    = Ok (true, (Some 3, None), (Some (1, gst_at (tx_t0 + 30)), None), Some (mkCif 1 None)) /\
  tx_held (run tx_new (c83_h ++ c83_b :: c83_a :: c83_b :: c83_m ++ [c83_z]))
    = Ok (true, (Some 3, None), (Some (1, gst_at (tx_t0 + 60)), None), Some (mkCif 1 None)).
Proof. split; vm_compute; reflexivity. Qed.

(** So is the condition on the number of satellites: with two entries, satellite 3 loses its entry
    to other satellites, and gets one back when its word comes again. *)
Definition c83_places {S : storage} (o : outcome osnma) : outcome (list (option Z)) :=
  o <- o ;; Ok (map e_svn (stored_row Ced (o_nav o) 0)).
Definition c83_two : storage :=
  {| num_sats := 2; nav_depth := 3; nav_depth_sats := 6; mack_depth := 2; mack_depth_sats := 4 |}.
Definition c83_word (svn : Z) : op := FeedInav (nth 0 demo_nav2 []) svn (gst_at tx_t0) E1B.
Example C83_example_room_is_needed : storage_ok c83_two /\
  inav_word_repeats [c83_word 3; c83_word 2; c83_word 4; c83_word 5] (nth 0 demo_nav2 []) 3 (gst_at tx_t0) E1B /\
  c83_places (S := c83_two) (@run _ _ c83_two (@osnma_new _ c83_two None None false) [c83_word 3; c83_word 2; c83_word 4; c83_word 5])
    <> c83_places (S := c83_two) (@run _ _ c83_two (@osnma_new _ c83_two None None false) [c83_word 3; c83_word 2; c83_word 4; c83_word 5; c83_word 3]).
Proof.
  split; [repeat split; vm_compute; repeat constructor|]. split.
  - exists [], (gst_at tx_t0), [c83_word 2; c83_word 4; c83_word 5]. split; [reflexivity|]. split; [reflexivity|].
    intros w s g b K.
    assert (E : g = gst_at tx_t0 /\ (s = 2 \/ s = 4 \/ s = 5)).
    { revert K. unfold c83_word. generalize (nth 0 demo_nav2 []) as d. generalize (gst_at tx_t0) as g0.
      intros g0 d [E|[E|[E|[]]]]; injection E as _ <- <- _; auto. }
    clear K. destruct E as (-> & E). split; [reflexivity|]. intros ->. exfalso. clear - E. lia.
  - vm_compute. discriminate.
Qed.

Print Assumptions C83_repeated_osnma_word.
Print Assumptions C83_repeated_navigation_word.
Print Assumptions C83_repeats_can_be_left_out.
Print Assumptions C83_repeats_can_be_left_out_full_storage.

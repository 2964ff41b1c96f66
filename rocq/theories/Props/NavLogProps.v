(** Property C64: the lines of the log about the navigation data storage. *)
From Coq Require Import ZArith String List Bool Lia.
From Verif Require Import Model.Prelude Model.Params Model.Gst Model.Svn Model.Bitfields Model.Tesla Model.Merkle
  Model.Dsm Model.MackStore Model.Nav Model.Osnma Model.Logging
  Spec.TimeSpec Spec.CollectSpec Spec.SystemSpec Spec.StoredSpec Spec.NavLogSpec
  Proofs.Base Proofs.LoggingProofs Proofs.LogRunProofs Proofs.NavLines
  Examples.Vectors Examples.Demo Examples.Toy Examples.Transmit.
Import ListNotations.
Open Scope list_scope.
Open Scope Z_scope.
Local Existing Instance toy_crypto.

(** ** C64 *)

(** A line about the navigation data storage is written only by a call that feeds navigation data,
    and what it says ([nav_claim]) is true of the words fed before and of what is stored before
    and after the call. *)
Theorem C64_navigation_lines_are_true :
  forall (C : crypto) (B : build) (S : storage), crypto_ok C -> storage_ok S ->
  forall mx root user slow h x ls1 o1 ls2 o2 l m, Forall op_ok (h ++ [x]) ->
  run_log mx (osnma_new root user slow) h = Ok (ls1, o1) -> step_log mx o1 x = Ok (ls2, o2) ->
  In (l, m) ls2 -> about_nav_storage m = true ->
  exists word svn g b, x = FeedInav word svn g b /\ nav_claim (inav_words h) (o_nav o1) (o_nav o2) svn g m.
Proof.
  intros C B S HC HS mx root user slow h x ls1 o1 ls2 o2 l m Hok Hr.
  refine (nav_lines HC HS mx root user slow h o1 x ls2 o2 l m Hok _).
  rewrite <- (run_plain HC HS mx root user slow h), Hr; [reflexivity|]. apply Forall_app in Hok. exact (proj1 Hok).
Qed.

(** At the beginning of another subframe all that is stored is shown. *)
Theorem C64_contents_are_shown :
  forall (C : crypto) (B : build) (S : storage), crypto_ok C -> storage_ok S ->
  forall mx root user slow h word svn g b ls1 o1 ls2 o2, Forall op_ok (h ++ [FeedInav word svn g b]) ->
  run_log mx (osnma_new root user slow) h = Ok (ls1, o1) -> step_log mx o1 (FeedInav word svn g b) = Ok (ls2, o2) ->
  begins_subframe (inav_words h) g -> enabled mx LDebug = true ->
  filter shows_contents (map snd ls2) = contents_shown Ced (o_nav o1) ++ contents_shown Timing (o_nav o1).
Proof.
  intros C B S HC HS mx root user slow h word svn g b ls1 o1 ls2 o2 Hok Hr.
  refine (contents_are_shown HC HS mx root user slow h o1 word svn g b ls2 o2 Hok _).
  rewrite <- (run_plain HC HS mx root user slow h), Hr; [reflexivity|]. apply Forall_app in Hok. exact (proj1 Hok).
Qed.

(** With room for two satellites: words of satellites 2 and 3, in the next subframe another of
    satellite 2, then one of satellite 4, which takes the place of satellite 2: some words of both are
    missing (age 255), so that none of the two entries is older. *)
Definition c64_two : storage :=
  {| num_sats := 2; nav_depth := 3; nav_depth_sats := 6; mack_depth := 2; mack_depth_sats := 4 |}.
Definition c64_word (i : nat) (svn t : Z) : op := FeedInav (nth i demo_nav2 []) svn (gst_at (tx_t0 + t)) E1B.
Definition c64_h : list op := Eval vm_compute in
  [c64_word 0 2 0; c64_word 0 3 0; c64_word 1 2 30; c64_word 0 4 30].
Inductive c64_line :=
| New (t t0 : Z) | Contents (k : nav_kind) | Stored (svn : option Z) (age : list Z)
| Selected (svn : option Z) (oldest : Z) | Age (svn : Z) (age : list Z).
Definition c64_nav (r : outcome (lines * osnma)) : list c64_line :=
  match r with
  | Ok (l, _) => flat_map (fun '(_, m) => match m with
                   | LgNavNewGst g g0 => [New (time_of g - tx_t0) (time_of g0 - tx_t0)]
                   | LgContents k => [Contents k]
                   | LgEntry svn age _ => [Stored svn age]
                   | LgSelected Ced svn age => [Selected svn age]
                   | LgAge Ced svn age => [Age svn age]
                   | _ => [] end) l
  | Panic => []
  end.
Example C64_example_navigation : storage_ok c64_two /\ Forall op_ok c64_h /\
  begins_subframe (inav_words (firstn 2 c64_h)) (gst_at (tx_t0 + 30)) /\ enabled (Some LTrace) LDebug = true /\
  c64_nav (run_log (S := c64_two) (Some LTrace) (osnma_new (S := c64_two) None None false) c64_h) =
  [Selected None 255; Age 2 [0; 255; 255; 255; 255]; Selected None 255; Age 3 [0; 255; 255; 255; 255];
   New 30 0; Contents Ced; Stored (Some 3) [1; 255; 255; 255; 255]; Stored (Some 2) [1; 255; 255; 255; 255];
   Contents Timing; Stored (Some 3) [255; 255]; Stored (Some 2) [255; 255];
   Selected (Some 2) 255; Age 2 [1; 0; 255; 255; 255];
   Selected (Some 2) 255; Age 4 [0; 255; 255; 255; 255]].
Proof.
  split; [repeat split; vm_compute; repeat constructor|].
  split; [apply op_okb_ok; vm_compute; reflexivity|].
  split.
  { exists (gst_at tx_t0). split; [|vm_compute; discriminate]. eexists [_], _. split; vm_compute; reflexivity. }
  split; vm_compute; reflexivity.
Qed.

Print Assumptions C64_navigation_lines_are_true.
Print Assumptions C64_contents_are_shown.

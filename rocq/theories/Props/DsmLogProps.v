(** Property C64: the lines of the log about DSM blocks and the MACK storage. *)
From Coq Require Import ZArith String List Bool Lia.
From Verif Require Import Model.Prelude Model.Params Model.Gst Model.Svn Model.Bitfields Model.Tesla Model.Merkle
  Model.Dsm Model.MackStore Model.Nav Model.Osnma Model.Logging
  Spec.TimeSpec Spec.CollectSpec Spec.SystemSpec Spec.CompleteSpec Spec.PanicSpec Spec.DsmLogSpec
  Proofs.Base Proofs.LoggingProofs Proofs.LogRunProofs Proofs.DsmLines
  Examples.Vectors Examples.Toy Examples.Transmit Props.ColdProps Props.LoggingProps.
Import ListNotations.
Open Scope list_scope.
Open Scope Z_scope.
Local Existing Instance toy_crypto.

(** ** C64 *)

(** A line about DSM blocks is written only by a call that completes a subframe, and what it says
    ([dsm_claim]) is true of the DSM block of this subframe and the DSM blocks received before. *)
Theorem C64_dsm_lines_are_true :
  forall (C : crypto) (B : build) (S : storage), crypto_ok C -> storage_ok S ->
  forall mx root user slow h x ls1 o1 ls2 o2 l m, Forall op_ok (h ++ [x]) ->
  run_log mx (osnma_new root user slow) h = Ok (ls1, o1) -> step_log mx o1 x = Ok (ls2, o2) ->
  In (l, m) ls2 -> about_dsm m = true ->
  exists hkroot mack g, completes h x hkroot mack g /\
    dsm_claim (blocks_received (osnma_words h)) (block_of hkroot) m.
Proof.
  intros C B S HC HS mx root user slow h x ls1 o1 ls2 o2 l m Hok Hr.
  refine (dsm_lines HC HS mx root user slow h o1 x ls2 o2 l m Hok _).
  rewrite <- (run_plain HC HS mx root user slow h), Hr; [reflexivity|]. apply Forall_app in Hok. exact (proj1 Hok).
Qed.

(** The example receives the 13 blocks of a DSM-PKR and then the 8 blocks of a DSM-KROOT and
    more of the same.  The sizes with the missing blocks, the ids, the blocks that are stored. *)
Example C64_example_dsm :
  flat_map (fun x => match snd x with LgDsmSize n missing => [(n, missing)] | _ => [] end) (c62_log (Some LTrace))
    = map (fun i => (13, 12 - i)%nat) (seq 0 13) ++ map (fun i => (8, 7 - i)%nat) (seq 0 8) /\
  flat_map (fun x => match snd x with LgNewDsm id old => [(id, old)] | _ => [] end) (c62_log (Some LTrace)) = [(13, 0); (7, 13)] /\
  flat_map (fun x => match snd x with LgBlockStored i => [i] | _ => [] end) (c62_log (Some LTrace)) = seq 0 13 ++ seq 0 8 /\
  flat_map (fun x => match snd x with LgDsmCompleted id size => [(id, size)] | _ => [] end) (c62_log (Some LTrace)) = [(13, 169%nat); (7, 104%nat)] /\
  existsb (fun x => match snd x with LgDsmIsComplete => true | _ => false end) (c62_log (Some LTrace)) = true.
Proof.
  split; [vm_compute; reflexivity|]. split; [vm_compute; reflexivity|]. split; [vm_compute; reflexivity|].
  split; vm_compute; reflexivity.
Qed.

(** How many words were collected from satellites 1 to 4 when another subframe begins. *)
Example C64_example_sections :
  flat_map (fun x => match snd x with LgValidSections n => [firstn 4 n] | _ => [] end) (c62_log (Some LTrace))
  = [[0; 0; 0; 0]; [15; 15; 15; 15]].
Proof. vm_compute. reflexivity. Qed.

(** The same for the lines about the MACK storage. *)
Theorem C64_mack_lines_are_true :
  forall (C : crypto) (B : build) (S : storage), crypto_ok C -> storage_ok S ->
  forall mx root user slow h x ls1 o1 ls2 o2 l m, Forall op_ok (h ++ [x]) ->
  run_log mx (osnma_new root user slow) h = Ok (ls1, o1) -> step_log mx o1 x = Ok (ls2, o2) ->
  In (l, m) ls2 -> about_mack_storage m = true ->
  exists hkroot mack g, completes h x hkroot mack g /\
    mack_claim (macks_received (osnma_words h)) mack (op_svn x) g m.
Proof.
  intros C B S HC HS mx root user slow h x ls1 o1 ls2 o2 l m Hok Hr.
  refine (mack_lines HC HS mx root user slow h o1 x ls2 o2 l m Hok _).
  rewrite <- (run_plain HC HS mx root user slow h), Hr; [reflexivity|]. apply Forall_app in Hok. exact (proj1 Hok).
Qed.

(** In the example the MACK messages of two subframes are stored.  With room for 12 satellites
    only, the others of the first subframe are not. *)
Definition c64_macks (r : outcome (lines * osnma)) : list (bool * Z * Z) :=
  match r with
  | Ok (l, _) => flat_map (fun '(_, m) => match m with
                   | LgMackStored _ svn g => [(true, svn, time_of g - tx_t0)]
                   | LgNoRoomForMack _ svn g => [(false, svn, time_of g - tx_t0)]
                   | _ => [] end) l
  | Panic => []
  end.
Example C64_example_macks :
  c64_macks (run_log (S := small_storage) (Some LTrace) (osnma_new (S := small_storage) (Some c61_root) None false) c61_h)
  = map (fun i => (true, Z.of_nat i, 0)) (seq 14 12) ++ map (fun i => (false, i, 0)) [26; 1; 2; 3; 4; 5; 6; 7; 8] ++ [(true, 1, 30)].
Proof. vm_compute. reflexivity. Qed.

Print Assumptions C64_dsm_lines_are_true.
Print Assumptions C64_mack_lines_are_true.

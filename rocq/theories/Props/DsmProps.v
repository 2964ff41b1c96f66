(** Property C25: collection of DSM messages. *)
From Coq Require Import ZArith List Bool Lia.
From Verif Require Import Model.Prelude Model.Params Model.Bitfields Model.Dsm
  Spec.CollectSpec Proofs.Base Proofs.DsmProofs.
Import ListNotations.
Open Scope Z_scope.

(** For every history of blocks and every next block: feeding never panics, and the output is
    the one of the specification. *)
Theorem C25_dsm_exact : forall h, Forall block_ok h ->
  exists st, fold_outcome (fun st b => r <- dsm_feed st (b_header b) (b_data b) ;; Ok (fst r))
               h dsm_new = Ok st /\
  forall b, block_ok b ->
  exists st' out, dsm_feed st (b_header b) (b_data b) = Ok (st', out) /\
    option_map (fun d => (dm_id d, dsm_type_eqb (dm_type d) DsmPkr, dm_data d)) out
    = expected_dsm h b.
Proof. exact dsm_exact. Qed.

(** What the output is: blocks 0, 1, ... of this DSM id, as many as block 0 says, all of them
    in the history, one after the other. *)
Theorem C25_output_is_history : forall h b id pkr data,
  expected_dsm h b = Some (id, pkr, data) ->
  id = b_dsm b /\ pkr = (12 <=? id) /\
  exists bs b0, nth_error bs 0 = Some b0 /\ data = flat_map b_data bs /\
    blocks_needed id (nth 0 (b_data b0) 0) = Some (length bs) /\
    forall i c, nth_error bs i = Some c ->
      In c (h ++ [b]) /\ b_dsm c = id /\ b_num c = Z.of_nat i.
Proof. exact expected_dsm_sound. Qed.

(** When a DSM is complete: all the blocks have come since the DSM id last changed. *)
Theorem C25_complete_iff : forall id run,
  (exists data, complete_dsm id run = Some data) <->
  exists b0 n, first_copy 0 run = Some b0 /\ blocks_needed id (nth 0 (b_data b0) 0) = Some n /\
    forall i, (i < n)%nat -> exists b, In b run /\ b_num b = Z.of_nat i.
Proof. exact complete_dsm_iff. Qed.

(** It is returned only once until a block of another DSM id comes. *)
Theorem C25_at_most_once : forall h b q b',
  expected_dsm h b <> None ->
  (forall x, In x q -> b_dsm x = b_dsm b) -> b_dsm b' = b_dsm b ->
  expected_dsm (h ++ b :: q) b' = None.
Proof. exact expected_dsm_once. Qed.

(** A DSM-KROOT of 8 blocks received backwards, with two copies of block 3, of which the
    first counts. *)
Definition ex_block (id n x : Z) : block := mkBlock (16 * id + n) (32 :: repeat x 12).
Definition ex_blocks : list block :=
  ex_block 13 0 9 :: map (fun n => ex_block 5 (Z.of_nat n) (Z.of_nat n)) [7; 6; 5; 4; 3; 2; 1]%nat
  ++ [ex_block 5 3 100].

Example C25_example :
  Forall block_ok ex_blocks /\
  expected_dsm ex_blocks (ex_block 5 0 0)
  = Some (5, false, flat_map (fun n => 32 :: repeat (Z.of_nat n) 12) (seq 0 8)) /\
  expected_dsm (ex_blocks ++ [ex_block 5 0 0]) (ex_block 5 0 0) = None /\
  expected_dsm (ex_blocks ++ [ex_block 6 0 0]) (ex_block 5 0 0) = None.
Proof.
  split; [|vm_compute; repeat split].
  unfold ex_blocks. cbn [map app]. repeat constructor; vm_compute; congruence.
Qed.

Print Assumptions C25_dsm_exact.
Print Assumptions C25_output_is_history.
Print Assumptions C25_complete_iff.
Print Assumptions C25_at_most_once.

(** What the lines of the log about DSM blocks and about the MACK storage say, in terms of the
    blocks and MACK messages that were received. *)
From Coq Require Import ZArith List Bool.
From Verif Require Import Model.Prelude Model.Params Model.Gst Model.Bitfields Model.Tesla Model.Osnma Model.Logging
  Spec.CollectSpec Spec.StoreSpec.
Import ListNotations.
Open Scope Z_scope.

Section Crypto.
Context {C : crypto} {B : build} {S : storage}.

(** The lines of dsm.rs. *)
Definition about_dsm (m : message) : bool :=
  match m with
  | LgFeedDsm _ _ _ | LgNewDsm _ _ | LgDsmIsComplete | LgDsmCompleted _ _ | LgDsmContents _
  | LgBlockDiffers _ _ _ | LgBlockAlreadyStored _ | LgBlockStored _ | LgNoFirstBlock | LgDsmSize _ _ | LgReservedNb _ _ => true
  | _ => false
  end.

(** How many of the blocks 0 to [n-1] are not there. *)
Definition blocks_missing (n : nat) (run : list block) : nat :=
  length (filter (fun i => match first_copy i run with None => true | Some _ => false end) (seq 0 n)).

(** The block [b] is received after the blocks [bl].  [before] are those since the DSM id last
    changed, none if [b] has another id, and [now] are these and [b]. *)
Definition dsm_claim (bl : list block) (b : block) (m : message) : Prop :=
  let before := dsm_run_for (dsm_run bl) b in
  let now := before ++ [b] in
  match m with
  (* "feed with id, block id and block" *)
  | LgFeedDsm id i data => id = b_dsm b /\ i = b_num b /\ data = b_data b
  (* "new DSM id, old DSM id": the block before had another id, which is given *)
  | LgNewDsm id old => id = b_dsm b /\ forall l c, bl = l ++ [c] -> old = b_dsm c /\ old <> id
  (* "DSM is already complete" *)
  | LgDsmIsComplete => exists d, complete_dsm (b_dsm b) before = Some d
  (* "received block with different contents": from those of the first copy *)
  | LgBlockDiffers i stored received =>
      Z.of_nat i = b_num b /\ received = b_data b /\ stored <> received /\
      exists c, first_copy i before = Some c /\ stored = b_data c
  (* "block is already stored, not storing" *)
  | LgBlockAlreadyStored i => Z.of_nat i = b_num b /\ exists c, first_copy i before = Some c /\ b_data c = b_data b
  (* "storing block" *)
  | LgBlockStored i => Z.of_nat i = b_num b /\ first_copy i before = None
  (* "block 0 not available, size unknown" *)
  | LgNoFirstBlock => first_copy 0 now = None
  (* "reserved NB value": the first block does not give a number of blocks *)
  | LgReservedNb nb t =>
      exists c, first_copy 0 now = Some c /\ nb = nth 0 (b_data c) 0 / 16 /\
        blocks_needed (b_dsm b) (nth 0 (b_data c) 0) = None /\ (t = DsmPkr <-> is_pkr (b_dsm b) = true)
  (* "DSM has size, missing blocks" *)
  | LgDsmSize n missing =>
      exists c, first_copy 0 now = Some c /\ blocks_needed (b_dsm b) (nth 0 (b_data c) 0) = Some n /\
        missing = blocks_missing n now
  (* "completed DSM with id and size", and its contents: it was not complete before *)
  | LgDsmCompleted id size =>
      id = b_dsm b /\ exists d, complete_dsm id before = None /\ complete_dsm id now = Some d /\ length d = size
  | LgDsmContents d => complete_dsm (b_dsm b) before = None /\ complete_dsm (b_dsm b) now = Some d
  | _ => False
  end.

(** ** MACK messages *)

(** The MACK messages of all the subframes that the words complete, in order. *)
Definition push_mack_of (acc : list oword * list item) (w : oword) : list oword * list item :=
  (fst acc ++ [w],
   match expected_subframe (fst acc) w with
   | Some (hkroot, mack, g) => snd acc ++ [mkItem mack (w_svn w) g (nma_status (nth 0 hkroot 0))]
   | None => snd acc
   end).
Definition macks_received (ws : list oword) : list item := snd (fold_left push_mack_of ws ([], [])).

(** Those since the time last changed, none if it is not [g]. *)
Definition macks_now (ms : list item) (g : gst) : list item :=
  match rev (stretches ms) with
  | (g0, l) :: _ => if gst_eqb g0 g then l else []
  | [] => []
  end.

(** The lines of mack.rs. *)
Definition about_mack_storage (m : message) : bool :=
  match m with LgMackStored _ _ _ | LgNoRoomForMack _ _ _ | LgMackNewGst _ _ => true | _ => false end.

(** The MACK message [mack] of the satellite [svn] in the subframe [g] is received after [ms]. *)
Definition mack_claim (ms : list item) (mack : list Z) (svn : Z) (g : gst) (m : message) : Prop :=
  match m with
  (* "storing MACK": there is room for one more of the same subframe *)
  | LgMackStored mack' svn' g' => mack' = mack /\ svn' = svn /\ g' = g /\ (length (macks_now ms g) < num_sats)%nat
  (* "no room to store MACK" *)
  | LgNoRoomForMack mack' svn' g' => mack' = mack /\ svn' = svn /\ g' = g /\ (num_sats <= length (macks_now ms g))%nat
  (* "got a new GST; current GST": the one of the message before *)
  | LgMackNewGst g' current => g' = g /\ current <> g /\ exists ms' i, ms = ms' ++ [i] /\ it_gst i = current
  | _ => False
  end.

End Crypto.

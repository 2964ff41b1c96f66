(** Model of galileo-osnma/src/dsm.rs. *)
From Coq Require Import ZArith List Bool.
From Verif Require Import Model.Prelude Model.Params Model.Bitfields.
Import ListNotations.
Open Scope Z_scope.

(** [MAX_DSM_BLOCKS] and [MAX_DSM_BYTES], dsm.rs:9-10; [DSM_BLOCK_BYTES], types.rs. *)
Definition max_dsm_blocks : nat := 16.
Definition dsm_block_bytes : nat := 13.

(** [struct Dsm], dsm.rs:18-22. *)
Record dsm : Type := mkDsm { dm_id : Z; dm_type : dsm_type_t; dm_data : list Z }.

(** [struct CollectDsm], dsm.rs:47-53. *)
Record collect_dsm : Type := mkCollectDsm {
  cd_dsm : list Z;
  cd_block_valid : list bool;
  cd_done : bool;
  cd_type : option dsm_type_t;
  cd_id : Z
}.

(** [CollectDsm::new], dsm.rs:57-65. *)
Definition dsm_new : collect_dsm :=
  mkCollectDsm (repeat 0 (max_dsm_blocks * dsm_block_bytes)) (repeat false max_dsm_blocks)
               false None 0.

(** [CollectDsm::number_of_blocks], dsm.rs:165-195. *)
Definition dsm_number_of_blocks (t : dsm_type_t) (nb : Z) : option nat :=
  match t with
  | DsmPkr => match nb with
              | 7 => Some 13%nat | 8 => Some 14%nat | 9 => Some 15%nat | 10 => Some 16%nat
              | _ => None
              end
  | DsmKroot => match nb with
                | 1 => Some 7%nat | 2 => Some 8%nat | 3 => Some 9%nat | 4 => Some 10%nat
                | 5 => Some 11%nat | 6 => Some 12%nat | 7 => Some 13%nat | 8 => Some 14%nat
                | _ => None
                end
  end.

(** [CollectDsm::store_block], dsm.rs:122-140.  A block which is already present is only
    compared for the log. *)
Definition store_block (st : collect_dsm) (block_id : Z) (block : list Z) : outcome collect_dsm :=
  let block_id := Z.to_nat block_id in
  let idx := (block_id * dsm_block_bytes)%nat in
  slice (cd_dsm st) idx (idx + dsm_block_bytes) ;;;
  v <- index (cd_block_valid st) block_id ;;
  if v then Ok st
  else
    d <- copy_from (cd_dsm st) idx (idx + dsm_block_bytes) block ;;
    bv <- set_index (cd_block_valid st) block_id true ;;
    Ok (mkCollectDsm d bv (cd_done st) (cd_type st) (cd_id st)).

(** [CollectDsm::done_and_size], dsm.rs:142-163. *)
Definition done_and_size (st : collect_dsm) (t : dsm_type_t) : outcome (option nat) :=
  v0 <- index (cd_block_valid st) 0 ;;
  if negb v0 then Ok None
  else
    b0 <- index (cd_dsm st) 0 ;;
    let nb := Z.shiftr b0 4 in
    match dsm_number_of_blocks t nb with
    | None => Ok None
    | Some n =>
        first <- slice (cd_block_valid st) 0 n ;;
        Ok (if forallb (fun x => x) first then Some (n * dsm_block_bytes)%nat else None)
    end.

(** [CollectDsm::feed], dsm.rs:83-120. *)
Definition dsm_feed (st : collect_dsm) (header : Z) (block : list Z)
  : outcome (collect_dsm * option dsm) :=
  let st :=
    if negb (dsm_id header =? cd_id st)
       || match cd_type st with None => true | Some _ => false end
    then mkCollectDsm (cd_dsm st) (repeat false max_dsm_blocks) false
                      (Some (dsm_type header)) (dsm_id header)
    else st in
  t <- unwrap (cd_type st) ;;
  if cd_done st then Ok (st, None)
  else
    st <- store_block st (dsm_block_id header) block ;;
    size <- done_and_size st t ;;
    match size with
    | Some size =>
        data <- slice (cd_dsm st) 0 size ;;
        Ok (mkCollectDsm (cd_dsm st) (cd_block_valid st) true (cd_type st) (cd_id st),
            Some (mkDsm (cd_id st) t data))
    | None => Ok (st, None)
    end.

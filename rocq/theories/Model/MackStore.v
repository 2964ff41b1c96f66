(** Model of galileo-osnma/src/mack.rs. *)
From Coq Require Import ZArith List Bool.
From Verif Require Import Model.Prelude Model.Params Model.Gst Model.Bitfields.
Import ListNotations.
Open Scope Z_scope.

(** [struct Mack], mack.rs:30-34. *)
Record stored_mack : Type := mkStored {
  sm_message : list Z;
  sm_svn : Z;
  sm_status : nma_status_t
}.

(** [struct MackStorage], mack.rs:21-25. *)
Record mack_storage : Type := mkMackStorage {
  ms_macks : list (option stored_mack);
  ms_gsts : list (option gst);
  ms_wp : nat
}.

Definition is_none {A} (x : option A) : bool := match x with None => true | Some _ => false end.

Section Storage.
Context {S : storage}.

(** [MackStorage::new], mack.rs:38-44. *)
Definition mack_storage_new : mack_storage :=
  mkMackStorage (repeat None mack_depth_sats) (repeat None mack_depth) 0.

(** [MackStorage::adjust_write_pointer], mack.rs:80-95 (with [current_macks_as_mut],
    mack.rs:76-78). *)
Definition mack_adjust (st : mack_storage) (g : gst) : outcome mack_storage :=
  cur <- index (ms_gsts st) (ms_wp st) ;;
  st <- (match cur with
         | Some g0 =>
             if negb (gst_eqb g0 g) then
               let wp := ((ms_wp st + 1) mod mack_depth)%nat in
               macks <- copy_from (ms_macks st) (wp * num_sats) ((wp + 1) * num_sats)
                                  (repeat None num_sats) ;;
               Ok (mkMackStorage macks (ms_gsts st) wp)
             else Ok st
         | None => Ok st
         end) ;;
  gsts <- set_index (ms_gsts st) (ms_wp st) (Some g) ;;
  Ok (mkMackStorage (ms_macks st) gsts (ms_wp st)).

(** [MackStorage::store], mack.rs:60-74. *)
Definition mack_store (st : mack_storage) (message : list Z) (svn : Z) (g : gst)
    (s : nma_status_t) : outcome mack_storage :=
  st <- mack_adjust st g ;;
  let a := (ms_wp st * num_sats)%nat in
  let b := ((ms_wp st + 1) * num_sats)%nat in
  row <- slice (ms_macks st) a b ;;
  match position is_none row with
  | Some i =>
      row <- set_index row i (Some (mkStored message svn s)) ;;
      macks <- copy_from (ms_macks st) a b row ;;
      Ok (mkMackStorage macks (ms_gsts st) (ms_wp st))
  | None => Ok st
  end.

(** [MackStorage::get], mack.rs:109-125. *)
Definition mack_get (st : mack_storage) (svn : Z) (g : gst)
  : outcome (option (list Z * nma_status_t)) :=
  match position (fun x => option_eqb gst_eqb x (Some g)) (ms_gsts st) with
  | None => Ok None
  | Some gst_idx =>
      row <- slice (ms_macks st) (gst_idx * num_sats) ((gst_idx + 1) * num_sats) ;;
      Ok (match find_first (fun x => match x with
                                     | Some m => sm_svn m =? svn
                                     | None => false
                                     end) row with
          | Some (Some m) => Some (sm_message m, sm_status m)
          | _ => None
          end)
  end.

End Storage.

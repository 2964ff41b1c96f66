(** Model of galileo-osnma/src/maclt.rs. *)
From Coq Require Import ZArith List Bool.
From Verif Require Import Model.Prelude Model.Params Model.Bitfields.
Import ListNotations.
Open Scope Z_scope.

(** [enum AuthObject], maclt.rs:239-244. *)
Inductive auth_object : Type := SelfAuth | CrossAuth.

Definition auth_object_eqb (a b : auth_object) : bool :=
  match a, b with SelfAuth, SelfAuth | CrossAuth, CrossAuth => true | _, _ => false end.

(** [enum MacLTSlot], maclt.rs:211-232. *)
Inductive maclt_slot : Type :=
| SlotFixed (adkd : adkd_t) (object : auth_object)
| SlotFlex.

(** [enum MacLTError], maclt.rs:248-255. *)
Inductive maclt_error : Type := InvalidMaclt | InvalidTagNumber.

(** Constants of maclt.rs:24-44. *)
Definition F00S : maclt_slot := SlotFixed AdkdInavCed SelfAuth.
Definition F00E : maclt_slot := SlotFixed AdkdInavCed CrossAuth.
Definition F04S : maclt_slot := SlotFixed AdkdInavTiming SelfAuth.
Definition F12S : maclt_slot := SlotFixed AdkdSlowMac SelfAuth.
Definition F12E : maclt_slot := SlotFixed AdkdSlowMac CrossAuth.
Definition FLX : maclt_slot := SlotFlex.

(** [struct MacLTEntry], maclt.rs:46-57. *)
Record maclt_entry : Type := mkMaclt {
  lt_id : Z;
  lt_nt : nat;
  lt_sequence : list (list maclt_slot)
}.

(** [MACLT], maclt.rs:60-157. *)
Definition maclt_table : list maclt_entry := [
  mkMaclt 27 6 [[F00E; F00E; F00E; F12S; F00E; FLX; FLX; FLX; FLX];
                [F00E; F00E; F04S; F12S; F00E; FLX; FLX; FLX; FLX]];
  mkMaclt 28 10 [[F00E; F00E; F00E; F00S; F00E; F00E; F12S; F00E; F00E];
                 [F00E; F00E; F00S; F00E; F00E; F04S; F12S; F00E; F00E]];
  mkMaclt 31 5 [[F00E; F00E; F12S; F00E; FLX; FLX; FLX; FLX; FLX];
                [F00E; F00E; F12S; F04S; FLX; FLX; FLX; FLX; FLX]];
  mkMaclt 33 6 [[F00E; F04S; F00E; F12S; F00E; FLX; FLX; FLX; FLX];
                [F00E; F00E; F12S; F00E; F12E; FLX; FLX; FLX; FLX]];
  mkMaclt 34 6 [[FLX; F04S; FLX; F12S; F00E; FLX; FLX; FLX; FLX];
                [FLX; F00E; F12S; F00E; F12E; FLX; FLX; FLX; FLX]];
  mkMaclt 35 6 [[FLX; F04S; FLX; F12S; FLX; FLX; FLX; FLX; FLX];
                [FLX; FLX; F12S; FLX; FLX; FLX; FLX; FLX; FLX]];
  mkMaclt 36 5 [[FLX; F04S; FLX; F12S; FLX; FLX; FLX; FLX; FLX];
                [FLX; F00E; F12S; F12E; FLX; FLX; FLX; FLX; FLX]];
  mkMaclt 37 5 [[F00E; F04S; F00E; F12S; FLX; FLX; FLX; FLX; FLX];
                [F00E; F00E; F12S; F12E; FLX; FLX; FLX; FLX; FLX]];
  mkMaclt 38 5 [[FLX; F04S; FLX; F12S; FLX; FLX; FLX; FLX; FLX];
                [FLX; FLX; F12S; FLX; FLX; FLX; FLX; FLX; FLX]];
  mkMaclt 39 4 [[FLX; F04S; FLX; FLX; FLX; FLX; FLX; FLX; FLX];
                [FLX; F00E; F12S; FLX; FLX; FLX; FLX; FLX; FLX]];
  mkMaclt 40 4 [[F00E; F04S; F12S; FLX; FLX; FLX; FLX; FLX; FLX];
                [F00E; F00E; F12E; FLX; FLX; FLX; FLX; FLX; FLX]];
  mkMaclt 41 4 [[FLX; F04S; FLX; FLX; FLX; FLX; FLX; FLX; FLX];
                [FLX; FLX; F12S; FLX; FLX; FLX; FLX; FLX; FLX]]
].

Definition is_flex (s : maclt_slot) : bool :=
  match s with SlotFlex => true | SlotFixed _ _ => false end.

(** [get_maclt_entry], maclt.rs:169-184. *)
Definition get_maclt_entry (maclt : Z) (msg num_tag : nat) : outcome (result maclt_slot maclt_error) :=
  assert_ ((msg =? 0) || (msg =? 1))%nat ;;;
  assert_ (1 <=? num_tag)%nat ;;;
  match find_first (fun x => lt_id x =? maclt) maclt_table with
  | None => Ok (RErr InvalidMaclt)
  | Some entry =>
      if (lt_nt entry <=? num_tag)%nat then Ok (RErr InvalidTagNumber)
      else
        row <- index (lt_sequence entry) msg ;;
        slot <- index row (num_tag - 1) ;;
        (match slot with
         | SlotFixed adkd object =>
             assert_ (negb (adkd_eqb adkd AdkdInavTiming) || auth_object_eqb object SelfAuth)
         | SlotFlex => Ok tt
         end) ;;;
        Ok (ROk slot)
  end.

(** [get_flx_indices], maclt.rs:195-205; the iterator is the list of its values. *)
Definition get_flx_indices (maclt : Z) (msg : nat) : outcome (result (list nat) maclt_error) :=
  assert_ ((msg =? 0) || (msg =? 1))%nat ;;;
  match find_first (fun x => lt_id x =? maclt) maclt_table with
  | None => Ok (RErr InvalidMaclt)
  | Some entry =>
      row <- index (lt_sequence entry) msg ;;
      let taken := firstn (lt_nt entry - 1) row in
      Ok (ROk (flat_map (fun jx => if is_flex (snd jx) then [S (fst jx)] else [])
                        (combine (seq 0 (length taken)) taken)))
  end.

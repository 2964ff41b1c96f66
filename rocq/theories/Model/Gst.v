(** Model of galileo-osnma/src/gst.rs. *)
From Coq Require Import ZArith List Bool.
From Verif Require Import Model.Prelude Model.Params.
Import ListNotations.
Open Scope Z_scope.

(** gst.rs:8 [SECS_IN_WEEK], gst.rs:9 [SECS_PER_SUBFRAME] *)
Definition secs_in_week : Z := 604800.
Definition secs_per_subframe : Z := 30.

(** [struct Gst], gst.rs:24-27. *)
Record gst : Type := mkGst { g_wn : Z; g_tow : Z }.

(** What the types [u16], [u32] and the constructor guarantee of every [Gst]. *)
Definition gst_ok (g : gst) : Prop :=
  0 <= g_wn g < 65536 /\ 0 <= g_tow g < 604800.

(** [Gst::new], gst.rs:36-39. *)
Definition gst_new (wn tow : Z) : outcome gst :=
  assert_ (tow <? secs_in_week) ;;; Ok (mkGst wn tow).

(** Derived [PartialEq], [Ord] on (wn, tow), gst.rs:23. *)
Definition gst_eqb (a b : gst) : bool := (g_wn a =? g_wn b) && (g_tow a =? g_tow b).
Definition gst_cmp (a b : gst) : comparison :=
  match g_wn a ?= g_wn b with
  | Eq => g_tow a ?= g_tow b
  | c => c
  end.
Definition gst_ltb (a b : gst) : bool :=
  match gst_cmp a b with Lt => true | _ => false end.

Section Build.
Context {B : build}.

(** [Gst::add_seconds], gst.rs:67-85.  [i32::try_from(self.tow)] cannot fail because
    the time of week is below 604800. *)
Definition add_seconds (g : gst) (seconds : Z) : outcome gst :=
  let weeks := Z.quot seconds secs_in_week in
  let seconds := seconds - weeks * secs_in_week in
  let tow := g_tow g + seconds in
  weeks16 <- (if (0 <=? weeks) && (weeks <? 65536) then Ok weeks else Panic) ;;
  wn <- u16_arith overflow_checks (g_wn g + weeks16) ;;
  '(wn, tow) <-
    (if tow <? 0 then
       wn <- u16_arith overflow_checks (wn - 1) ;; Ok (wn, tow + secs_in_week)
     else if secs_in_week <=? tow then
       wn <- u16_arith overflow_checks (wn + 1) ;; Ok (wn, tow - secs_in_week)
     else Ok (wn, tow)) ;;
  assert_ ((0 <=? tow) && (tow <? secs_in_week)) ;;;
  Ok (mkGst wn tow).

(** [Gst::add_subframes], gst.rs:103-105. *)
Definition add_subframes (g : gst) (subframes : Z) : outcome gst :=
  s <- i32_arith overflow_checks (subframes * secs_per_subframe) ;;
  add_seconds g s.

End Build.

(** [Gst::gst_subframe], gst.rs:122-127. *)
Definition gst_subframe (g : gst) : gst :=
  mkGst (g_wn g) (g_tow g / secs_per_subframe * secs_per_subframe).

(** [Gst::is_subframe], gst.rs:142-144. *)
Definition is_subframe (g : gst) : bool := g_tow g mod secs_per_subframe =? 0.

(** [Gst::subframes_difference], gst.rs:150-155.  No overflow is possible for valid
    GSTs: the exact result is below 65536 * 20160 < 2^31 in absolute value.  Rust's
    [/] on i32 truncates towards zero. *)
Definition subframes_difference (a b : gst) : Z :=
  (g_wn a - g_wn b) * (secs_in_week / secs_per_subframe)
  + Z.quot (g_tow a - g_tow b) secs_per_subframe.

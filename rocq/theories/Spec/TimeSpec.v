(** Specification of time: GST as a number of seconds on one time scale. *)
From Coq Require Import ZArith List Bool.
From Verif Require Import Model.Gst.
Open Scope Z_scope.

(** Seconds since the start of week 0.  A week has 604800 seconds. *)
Definition time_of (g : gst) : Z := 604800 * g_wn g + g_tow g.

(** The week number is a 16-bit number, so these are the times that can be written. *)
Definition representable (t : Z) : Prop := 0 <= t < 65536 * 604800.

(** A subframe lasts 30 seconds and subframes start at multiples of 30 seconds. *)
Definition subframe_start (t : Z) : Prop := exists n, t = 30 * n.

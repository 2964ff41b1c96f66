(** Specification of the serial line between the client and the firmware. *)
From Coq Require Import ZArith List Bool.
From Verif Require Import Model.Prelude Model.Params Model.Gst Model.Nav Model.Osnma Model.Apps Model.Serial
  Spec.TimeSpec Spec.CollectSpec Spec.NavSpec Spec.SystemSpec.
Import ListNotations.
Open Scope Z_scope.

(** The line is what the client sends for the word or the OSNMA data of this call. *)
Definition carries (x : op) (line : list Z) : Prop :=
  match x with
  | FeedInav word svn g b => line = send_line word svn g b
  | FeedOsnma data svn g => exists b, line = send_line data svn g b
  end.

Section Crypto.
Context {C : crypto} {B : build} {S : storage}.

(** The library, if the firmware runs. *)
Definition library (b : board) : option osnma :=
  match b with
  | Writing _ f => Some (f_osnma f)
  | Reading f => Some (f_osnma f)
  | Halted => None
  end.

(** The firmware is not waiting for bytes. *)
Definition busy (b : board) : Prop := exists out f, b = Writing out f.

(** Some function of the library that the firmware calls panics during the call number [n], or
    for the status after it. *)
Definition library_panics (o : osnma) (calls : list op) : Prop :=
  exists n, (n < length calls)%nat /\
    (run o (firstn (n + 1) calls) = Panic \/
     exists o' k svn, run o (firstn (n + 1) calls) = Ok o' /\ 1 <= svn <= 36 /\ getter k o' svn = Panic).

(** Nothing can happen any more. *)
Definition stuck (u : line_state) : Prop := forall v, ~ line_step u v.

End Crypto.

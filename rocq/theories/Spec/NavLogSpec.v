(** What the lines of the log about the navigation data storage say, in terms of the words that
    were fed and of what is stored before and after the call. *)
From Coq Require Import ZArith List Bool.
From Verif Require Import Model.Prelude Model.Params Model.Gst Model.Bitfields Model.Tesla Model.Nav Model.Osnma
  Model.Logging Spec.TimeSpec Spec.CollectSpec Spec.NavSpec Spec.SystemSpec Spec.StoredSpec.
Import ListNotations.
Open Scope Z_scope.

Section Crypto.
Context {C : crypto} {B : build} {S : storage}.

(** The lines of navmessage.rs that only the feeding of navigation data writes (except those
    about the call itself and its word, which [claim] covers). *)
Definition about_nav_storage (m : message) : bool :=
  match m with
  | LgNavNewGst _ _ | LgAdvanced _ | LgContents _ | LgEntry _ _ _ | LgSelected _ _ _ | LgAge _ _ _ => true
  | _ => false
  end.

(** The last of the words is of the subframe that starts at [g]. *)
Definition last_word_in (ws : list nword) (g : gst) : Prop :=
  exists before w, ws = before ++ [w] /\ subframe_of (nw_gst w) = g.
(** A word at time [g] begins another subframe than that of the words [ws] before it. *)
Definition begins_subframe (ws : list nword) (g : gst) : Prop :=
  exists cur, last_word_in ws cur /\ cur <> subframe_of g.

(** A word of [svn] at time [g] is fed after the words [ws].  [n] and [n'] are what is stored
    before and after. *)
Definition nav_claim (ws : list nword) (n n' : nav) (svn : Z) (g : gst) (m : message) : Prop :=
  match m with
  (* "got a new GST (current GST is)" *)
  | LgNavNewGst new cur => new = subframe_of g /\ last_word_in ws cur /\ cur <> new
  (* "write pointer advanced to new GST" and "current CED and status / timing parameters" *)
  | LgAdvanced new => new = subframe_of g /\ begins_subframe ws g
  | LgContents _ => begins_subframe ws g
  (* An entry, one subframe older than it was in the subframe before *)
  | LgEntry sv ages bits =>
      begins_subframe ws g /\
      exists k e e1, In e (stored_row k n 0) /\ one_older e e1 /\ sv = e_svn e1 /\ ages = e_age e1 /\ bits = e_authbits e1
  (* "selected entry with SVN and oldest page": the entry of the satellite; if it has none, an
     unused one; if there is none, the one whose oldest word is oldest *)
  | LgSelected k sv age =>
      exists e e1, In e (stored_row k n 0) /\ carried_over n g e e1 /\ sv = e_svn e1 /\ age = oldest_word e1 /\
        (sv = Some svn \/
         (forall x, ~ stored k n 0 svn x) /\
         (sv = None \/
          (forall x, In x (stored_row k n 0) -> e_svn x <> None) /\
          (forall x x1, In x (stored_row k n 0) -> carried_over n g x x1 -> oldest_word x1 <= age)))
  (* "ages of the words": those of the entry that the satellite has now *)
  | LgAge k sv ages => sv = svn /\ exists e, stored k n' 0 svn e /\ ages = e_age e
  | _ => False
  end.

(** The lines that show the contents of the storage, and what they are for the entries [n] at the
    beginning of another subframe: first those of the CED, then those of the timing parameters,
    all of them, in the order in which they are stored, one subframe older. *)
Definition shows_contents (m : message) : bool :=
  match m with LgContents _ | LgEntry _ _ _ => true | _ => false end.
Definition contents_shown (k : nav_kind) (n : nav) : list message :=
  LgContents k ::
  map (fun e => LgEntry (e_svn e) (map (fun a => Z.min 255 (a + 1)) (e_age e)) (e_authbits e)) (stored_row k n 0).

End Crypto.

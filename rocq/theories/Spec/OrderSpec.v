(** Calls of which the order does not matter. *)
From Coq Require Import ZArith List Bool.
From Verif Require Import Model.Prelude Model.Params Model.Gst Model.Nav Model.Osnma Spec.CollectSpec Spec.SystemSpec Spec.StoredSpec Spec.CompleteSpec.
Import ListNotations.
Open Scope Z_scope.

Section Crypto.
Context {C : crypto} {B : build} {S : storage}.

(** After the calls [h], the call [x] completes no subframe. *)
Definition not_completing (h : list op) (x : op) : Prop := forall hkroot mack g, ~ completes h x hkroot mack g.

(** [a] is a call with OSNMA data, and [y] is one with a navigation data word, or one with OSNMA
    data of another satellite in the same subframe. *)
Definition independent (a y : op) : Prop :=
  match a, y with
  | FeedOsnma _ _ _, FeedInav _ _ _ _ => True
  | FeedOsnma _ svn g, FeedOsnma _ svn' g' => svn' <> svn /\ same_subframe g g' = true
  | FeedInav _ _ _ _, _ => False
  end.

(** One sequence of calls is the other with calls exchanged, any number of times: always an OSNMA
    word that completes nothing, and a call next to it that is independent of it. *)
Inductive reordered : list op -> list op -> Prop :=
| reordered_refl h : reordered h h
| reordered_swap h a y t : not_completing h a -> independent a y -> reordered (h ++ a :: y :: t) (h ++ y :: a :: t)
| reordered_back h h' : reordered h h' -> reordered h' h
| reordered_trans h h' h'' : reordered h h' -> reordered h' h'' -> reordered h h''.

(** Navigation data words of different satellites in the same subframe. *)
Definition other_satellites (x y : op) : Prop :=
  match x, y with
  | FeedInav _ svn g _, FeedInav _ svn' g' _ => svn' <> svn /\ same_subframe g g' = true
  | _, _ => False
  end.

(** Exchanges as above, and exchanges of neighbouring navigation data words of different
    satellites in the same subframe. *)
Inductive rearranged : list op -> list op -> Prop :=
| rearranged_reordered h h' : reordered h h' -> rearranged h h'
| rearranged_swap h x y t : other_satellites x y -> rearranged (h ++ x :: y :: t) (h ++ y :: x :: t)
| rearranged_trans h h' h'' : rearranged h h' -> rearranged h' h'' -> rearranged h h''.

(** Two states that differ at most in the places where the satellites have their entries in the
    navigation data storage. *)
Record same_up_to_places (o o' : osnma) : Prop := {
  sp_sub : o_sub o' = o_sub o;
  sp_dsm : o_dsm o' = o_dsm o;
  sp_mack : o_mack o' = o_mack o;
  sp_merkle : o_merkle o' = o_merkle o;
  sp_pub : o_pub o' = o_pub o;
  sp_keys : o_keys o' = o_keys o;
  sp_slow : o_slow o' = o_slow o;
  sp_gst : forall j, (j < nav_depth)%nat -> stored_gst (o_nav o') j = stored_gst (o_nav o) j;
  sp_nav : forall k j svn e, (j < nav_depth)%nat -> stored k (o_nav o') j svn e <-> stored k (o_nav o) j svn e;
  sp_ced : forall svn, get_ced_and_status o' svn = get_ced_and_status o svn;
  sp_timing : forall svn, get_timing_parameters o' svn = get_timing_parameters o svn
}.

End Crypto.

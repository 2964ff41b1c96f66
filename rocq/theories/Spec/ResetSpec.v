(** Use of the navigation data store by itself (the module [navmessage] is public). *)
From Coq Require Import ZArith List Bool.
From Verif Require Import Model.Prelude Model.Params Model.Gst Model.Bitfields Model.Tesla Model.Nav.
Import ListNotations.
Open Scope Z_scope.

(** The calls that change the store. *)
Inductive nav_call : Type :=
| NvWord (word : list Z) (svn : Z) (g : gst) (b : band)
| NvMack (m : mack) (key : tkey) (prna : Z) (g : gst) (s : nma_status_t)
| NvSlow (m : mack) (key : tkey) (prna : Z) (g : gst) (s : nma_status_t)
| NvReset.

Definition is_word (c : nav_call) : Prop := match c with NvWord _ _ _ _ => True | _ => False end.

(** The same data, received at the same time from the same satellite, with at most as many
    authentication bits. *)
Definition same_data (e' e : entry) : Prop :=
  e_data e' = e_data e /\ e_age e' = e_age e /\ e_svn e' = e_svn e /\ 0 <= e_authbits e' <= e_authbits e.
Definition same_store (n' n : nav) : Prop :=
  Forall2 same_data (nv_ced n') (nv_ced n) /\ Forall2 same_data (nv_timing n') (nv_timing n) /\
  nv_gsts n' = nv_gsts n /\ nv_wp n' = nv_wp n.

Section Calls.
Context {C : crypto} {B : build} {S : storage}.
Definition nav_call_do (n : nav) (c : nav_call) : outcome nav :=
  match c with
  | NvWord word svn g b => nav_feed n word svn g b
  | NvMack m key prna g s => process_mack n m key prna g s
  | NvSlow m key prna g s => process_mack_slowmac n m key prna g s
  | NvReset => Ok (reset_authbits n)
  end.
Definition nav_calls (n : nav) (l : list nav_call) : outcome nav := fold_outcome nav_call_do l n.
End Calls.

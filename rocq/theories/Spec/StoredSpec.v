(** The contents of the navigation data storage, as the description of the data structure in
    navmessage.rs:23-33 gives it: a circular array of subframes, each with [num_sats] entries
    for each kind of data. *)
From Coq Require Import ZArith List Bool.
From Verif Require Import Model.Params Model.Gst Model.Nav Spec.TimeSpec Spec.CollectSpec Spec.NavSpec Spec.SystemSpec.
Import ListNotations.
Open Scope Z_scope.

Section Storage.
Context {S : storage}.

(** The entries of the [j]-th most recent subframe: [j = 0] is the current one. *)
Definition stored_row (k : nav_kind) (n : nav) (j : nat) : list entry :=
  firstn num_sats (skipn (((nav_depth + nv_wp n - j) mod nav_depth) * num_sats) (nv_arr k n)).
(** The start of the [j]-th most recent subframe. *)
Definition stored_gst (n : nav) (j : nat) : option gst :=
  nth ((nav_depth + nv_wp n - j) mod nav_depth) (nv_gsts n) None.

(** The entry of a satellite in the [j]-th most recent subframe. *)
Definition stored (k : nav_kind) (n : nav) (j : nat) (svn : Z) (e : entry) : Prop :=
  In e (stored_row k n j) /\ e_svn e = Some svn.
End Storage.

(** The data of an entry: as many bits as the fields have. *)
Definition data_of (k : nav_kind) (e : entry) : list bool :=
  firstn (field_start k (length (icd_fields k))) (e_data e).

(** The age of the oldest and of the newest word of an entry. *)
Definition oldest_word (e : entry) : Z := fold_right Z.max 0 (e_age e).
Definition newest_word (e : entry) : Z := fold_right Z.min 255 (e_age e).

(** The copy of an entry for the next subframe: one subframe older, nothing else. *)
Definition one_older (e e' : entry) : Prop :=
  e_data e' = e_data e /\ e_svn e' = e_svn e /\ e_authbits e' = e_authbits e /\
  e_age e' = map (fun a => Z.min 255 (a + 1)) (e_age e).

(** The entry at the beginning of a call at time [g]: the same if [g] is in the current
    subframe, else the copy for the new subframe. *)
Definition carried_over {S : storage} (n : nav) (g : gst) (e e' : entry) : Prop :=
  (stored_gst n 0 = Some (subframe_of g) -> e' = e) /\
  (stored_gst n 0 <> Some (subframe_of g) -> one_older e e').

(** There are not more different satellites in the list than a subframe of the storage has
    entries. *)
Definition room_for {S : storage} (svns : list Z) : Prop :=
  exists sats, (length sats <= num_sats)%nat /\ forall s, In s svns -> In s sats.

(** The words of one satellite. *)
Definition words_of (svn : Z) (ws : list nword) : list nword :=
  filter (fun w => nw_svn w =? svn) ws.

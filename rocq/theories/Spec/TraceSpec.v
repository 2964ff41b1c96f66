(** What the log has to say about a change of what the receiver trusts. *)
From Coq Require Import ZArith List Bool.
From Verif Require Import Model.Prelude Model.Params Model.Gst Model.Bitfields Model.Tesla Model.Merkle Model.Osnma
  Model.Logging Spec.KeySpec.
Import ListNotations.
Open Scope Z_scope.

Section Crypto.
Context {C : crypto} {B : build} {S : storage}.

(** The message is among the lines, if its level is one that is logged. *)
Definition written (mx : option level) (ls : lines) (l : level) (m : message) : Prop :=
  enabled mx l = true -> In (l, m) ls.

(** The two places for TESLA keys. *)
Definition in_place (ks : key_store) (i : nat) (k : tkey) : Prop :=
  match i with
  | 0%nat => ks_k0 ks = Some k
  | 1%nat => ks_k1 ks = Some k
  | _ => False
  end.

(** The lines [ls] account for the changes of what is trusted between [o] and [o']. *)
Record accounted (mx : option level) (o : osnma) (ls : lines) (o' : osnma) : Prop := mkAccounted {
  (* The Merkle tree root goes away only with a warning about an alert. *)
  ac_root : o_merkle o' = o_merkle o \/ o_merkle o' = None /\ written mx ls LWarn LgAlert;
  (* A TESLA key is new in one of the two places: the log has the key as validated, or as a root
     key that is stored in this place. *)
  ac_new_key : forall i k, in_place (o_keys o') i k -> in_place (o_keys o) i k \/
    (exists old, written mx ls LInfo (LgKeyValidated k old)) \/
    written mx ls LInfo (LgStoringKroot k i) \/ written mx ls LInfo (LgOverwritingKroot k i);
  (* A TESLA key is gone from its place: there was an alert, or the key is revoked, or the key was
     used to validate a later one, or this place is taken by a root key. *)
  ac_lost_key : forall i k, in_place (o_keys o) i k -> in_place (o_keys o') i k \/
    written mx ls LWarn LgAlert \/ written mx ls LWarn (LgRevokingKey k) \/
    (exists new, written mx ls LInfo (LgKeyValidated new k)) \/
    (exists new, written mx ls LInfo (LgOverwritingKroot new i));
  (* Another chain is in force, or the time from which it is: a root key was verified, or there
     was an alert. *)
  ac_chain : ks_cif (o_keys o') = ks_cif (o_keys o) \/
    (exists pkid, written mx ls LInfo (LgKrootVerified pkid)) \/ written mx ls LWarn LgAlert;
  (* A public key is new: the log has the DSM-PKR with this key id as verified. *)
  ac_new_pubkey : forall pk, held_pub (o_pub o') pk -> held_pub (o_pub o) pk \/
    exists p, sh_id p = pk_id pk /\ written mx ls LInfo (LgPubkeyVerified p);
  (* A public key is gone: there was an alert, or a newer key is stored in its place, or the
     next key is in use instead. *)
  ac_lost_pubkey : forall pk, held_pub (o_pub o) pk -> held_pub (o_pub o') pk \/
    written mx ls LWarn LgAlert \/
    (exists new, new > pk_id pk /\ written mx ls LWarn (LgPubkeyOverwrites new (pk_id pk))) \/
    (written mx ls LInfo LgNextPubkeySelected /\ exists pkid, pkid > pk_id pk /\ written mx ls LInfo (LgKrootVerified pkid))
}.

End Crypto.

(** When the receiver has a TESLA key of the chain in force, and what may take it away. *)
From Coq Require Import ZArith List Bool.
From Verif Require Import Model.Prelude Model.Params Model.Gst Model.Bitfields Model.Tesla Model.Merkle Model.Osnma
  Spec.TeslaSpec Spec.KrootSpec Spec.KeySpec Spec.SystemSpec Spec.LogSpec.
Open Scope Z_scope.

(** There is a key of the chain in force. *)
Definition has_key_in_force (ks : key_store) : Prop :=
  exists c k, ks_cif ks = Some c /\ held ks k /\ chain_of k = cif_cid c.

Section Crypto.
Context {C : crypto} {B : build} {S : storage}.

(** There was an authenticated alert, or a verified DSM-KROOT came with an NMA header that says
    that another chain is in force than that of the root key in it, or that the chain or the
    public key is revoked. *)
Definition key_withdrawn (root : option (list Z)) (user : option public_key) (h : list op) : Prop :=
  alerted root user h \/
  exists hd f kr, kroot_was_verified root user h hd f kr /\
    (header_chain hd <> chain_of kr \/
     header_status hd = status_dont_use /\
     (header_cpks hd = cpks_chain_revoked \/ header_cpks hd = cpks_public_key_revoked)).

End Crypto.

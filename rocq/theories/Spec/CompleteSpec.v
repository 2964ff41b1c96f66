(** When data must become authenticated. *)
From Coq Require Import ZArith List Bool.
From Verif Require Import Model.Prelude Model.Params Model.Gst Model.Bitfields Model.Tesla Model.Merkle
  Model.Dsm Model.MackStore Model.Nav Model.Osnma
  Spec.TimeSpec Spec.CollectSpec Spec.NavSpec Spec.TeslaSpec Spec.KrootSpec Spec.MacltSpec Spec.SystemSpec
  Spec.StoredSpec.
Import ListNotations.
Open Scope Z_scope.

Section Crypto.
Context {C : crypto} {B : build} {S : storage}.

(** The call [x], after the calls [h], completes a subframe with these messages. *)
Definition completes (h : list op) (x : op) (hkroot mack : list Z) (g : gst) : Prop :=
  exists data svn gk, x = FeedOsnma data svn gk /\ forallb (Z.eqb 0) data = false /\
    expected_subframe (osnma_words h) (mkWord data svn gk) = Some (hkroot, mack, g).

(** [ks] is the key store when the MACK message of the subframe is looked at: after the DSM
    block of the same subframe, which may complete a DSM, has been processed. *)
Definition keys_then (o : osnma) (hkroot : list Z) (g : gst) (ks : key_store) : Prop :=
  exists cd d, dsm_feed (o_dsm o) (nth 1 hkroot 0) (skipn 2 hkroot) = Ok (cd, d) /\
    match d with
    | None => ks = o_keys o
    | Some m => exists o2, process_dsm o m (nth 0 hkroot 0) g = Ok o2 /\ ks = o_keys o2
    end.

(** The chain in force is in force since before [t], as far as the receiver knows. *)
Definition in_force_since (ks : key_store) (t : Z) : Prop :=
  forall c g, ks_cif ks = Some c -> cif_start c = Some g -> gst_ok g /\ time_of g <= t.

(** The MACK message of the subframe [g] discloses [key], of the chain of [K] and leading to
    it. *)
Definition discloses (K : tkey) (mack : list Z) (g : gst) (key : tkey) : Prop :=
  Forall is_byte (key_bytes key) /\ key_in_mack mack key /\ k_chain key = k_chain K /\ k_gst key = g /\
  exists n, (1 <= n <= 3000)%nat /\ time_of g = time_of (k_gst K) + 30 * Z.of_nat n /\
    key_before (k_chain K) n (key_bytes key) (time_of g) (key_bytes K).

(** [message], sent by [prna] in the subframe [gm] with status [s], is held; its MACSEQ is
    right for the key [mkey] of the chain [mc], and with the key [key] the [tag] in it verifies
    for the data [bits] of [svn]. *)
Definition holds_tag (o : osnma) (prna : Z) (gm : gst) (mc : chain) (mkey : list Z) (key : tkey)
    (svn adkd cop : Z) (bits tag : list bool) : Prop :=
  exists message s,
    1 <= prna <= 36 /\ length message = 60%nat /\
    mack_get (o_mack o) prna gm = Ok (Some (message, s)) /\
    (s = NmaTest \/ s = NmaOperational) /\
    mack_valid mc mkey prna (time_of gm) message
               (8 * ch_key_bytes (k_chain key)) (ch_tag_bits (k_chain key)) /\
    tag_in_mack (k_chain key) (key_bytes key) prna (time_of gm) s message svn adkd cop bits tag.

End Crypto.

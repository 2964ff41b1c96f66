(** Property C72: the reset of the authentication bits of the navigation data store. *)
From Coq Require Import ZArith String List Bool Lia.
From Verif Require Import Model.Prelude Model.Params Model.Gst Model.Svn Model.Bitfields Model.Tesla Model.Nav Model.Osnma
  Spec.ResetSpec Proofs.Base Proofs.ResetProofs
  Examples.Vectors Examples.Demo Examples.Toy Examples.Transmit.
Import ListNotations.
Open Scope list_scope.
Open Scope Z_scope.
Local Existing Instance toy_crypto.

(** After a reset nothing is returned, however many words are received then, until tags are
    processed again. *)
Theorem C72_nothing_after_reset : forall (C : crypto) (B : build) (S : storage), storage_ok S ->
  forall before after k svn n, Forall is_word after ->
  nav_calls nav_new (before ++ NvReset :: after) = Ok n -> nav_get k n svn = Ok None.
Proof. intros C B S HS before after k svn n. exact (reset_then HS before after k svn n). Qed.

(** A reset changes nothing else: with or without it later calls panic or not alike, and the
    stores have the same data, with no more bits if there was a reset. *)
Theorem C72_only_bits_change : forall (C : crypto) (B : build) (S : storage),
  forall before after,
  match nav_calls nav_new (before ++ NvReset :: after), nav_calls nav_new (before ++ after) with
  | Ok n', Ok n => same_store n' n
  | Panic, Panic => True
  | _, _ => False
  end.
Proof. intros C B S before after. exact (reset_keeps before after). Qed.

(** Data authenticated by a tag; the reset discards this, and the same tag authenticates it again. *)
Definition c72_key : tkey := Eval vm_compute in
  match run (osnma_new None (Some (tx_pub 3)) false) tx_nominal with
  | Ok o => match ks_k0 (o_keys o) with Some k => k | None => match ks_k1 (o_keys o) with Some k => k | None => mkKey [] test_chain (mkGst 0 0) end end
  | Panic => mkKey [] test_chain (mkGst 0 0)
  end.
Definition c72_words : list nav_call := Eval vm_compute in
  map (fun i => NvWord (nth i demo_nav1 []) 1 (gst_at (tx_t0 - 30 + 2 * Z.of_nat i)) E1B) (seq 0 7).
Definition c72_tags : nav_call := Eval vm_compute in
  NvMack (mack_new (tx_mack1 chain1 tx_t0) 128 40) c72_key 1 (gst_at tx_t0) NmaOperational.
Definition c72_get (l : list nav_call) k : outcome (option Z) :=
  n <- nav_calls nav_new l ;; x <- nav_get k n 1 ;; Ok (option_map nd_authbits x).
Example C72_example :
  c72_get (c72_words ++ [c72_tags]) Ced = Ok (Some 40) /\ c72_get (c72_words ++ [c72_tags]) Timing = Ok (Some 40) /\
  c72_get (c72_words ++ [c72_tags; NvReset]) Ced = Ok None /\
  c72_get (c72_words ++ [c72_tags] ++ NvReset :: c72_words) Timing = Ok None /\ Forall is_word c72_words /\
  c72_get (c72_words ++ [c72_tags; NvReset; c72_tags]) Ced = Ok (Some 40) /\
  c72_get (c72_words ++ [c72_tags; c72_tags]) Ced = Ok (Some 80).
Proof.
  split; [vm_compute; reflexivity|]. split; [vm_compute; reflexivity|]. split; [vm_compute; reflexivity|].
  split; [vm_compute; reflexivity|]. split; [repeat (constructor; [exact I|]); constructor|].
  split; vm_compute; reflexivity.
Qed.

Print Assumptions C72_nothing_after_reset.
Print Assumptions C72_only_bits_change.

(** Property C81: nothing that is trusted is changed silently. *)
From Coq Require Import ZArith String List Bool Lia.
From Verif Require Import Model.Prelude Model.Params Model.Gst Model.Svn Model.Bitfields Model.Tesla Model.Merkle
  Model.Dsm Model.Nav Model.Osnma Model.Logging
  Spec.TimeSpec Spec.CollectSpec Spec.KeySpec Spec.SystemSpec Spec.PanicSpec Spec.TraceSpec
  Proofs.Base Proofs.KeyStoreProofs Proofs.LoggingProofs Proofs.LogRunProofs Proofs.TraceProofs
  Examples.Vectors Examples.Demo Examples.Toy Examples.Transmit Props.KeyProps.
Import ListNotations.
Open Scope list_scope.
Open Scope Z_scope.
Local Existing Instance toy_crypto.

(** ** C81 *)

(** Each change that a call makes to the Merkle tree root, the TESLA keys, the chain in force and
    the public keys is in the lines of the log of this call, as far as the log level goes. *)
Theorem C81_changes_are_logged :
  forall (C : crypto) (B : build) (S : storage), crypto_ok C -> storage_ok S ->
  forall mx root user slow h x ls1 o1 ls2 o2, Forall op_ok h ->
  run_log mx (osnma_new root user slow) h = Ok (ls1, o1) -> step_log mx o1 x = Ok (ls2, o2) ->
  accounted mx o1 ls2 o2.
Proof.
  intros C B S HC HS mx root user slow h x ls1 o1 ls2 o2 Hok Hr. apply step_acc.
  apply (run_stores h (osnma_new root user slow)); [apply new_stores|].
  rewrite <- (run_plain HC HS mx root user slow h), Hr; [reflexivity|exact Hok].
Qed.

(** So a call without lines, when the level is info or more, leaves all of it as it was. *)
Theorem C81_silent_calls_change_nothing :
  forall (C : crypto) (B : build) (S : storage), crypto_ok C -> storage_ok S ->
  forall mx root user slow h x ls1 o1 o2, Forall op_ok h -> In mx [Some LInfo; Some LDebug; Some LTrace] ->
  run_log mx (osnma_new root user slow) h = Ok (ls1, o1) -> step_log mx o1 x = Ok ([], o2) ->
  o_merkle o2 = o_merkle o1 /\ (forall i k, in_place (o_keys o2) i k <-> in_place (o_keys o1) i k) /\
  ks_cif (o_keys o2) = ks_cif (o_keys o1) /\ (forall pk, held_pub (o_pub o2) pk <-> held_pub (o_pub o1) pk).
Proof.
  intros C B S HC HS mx root user slow h x ls1 o1 o2 Hok Hmx Hr Hs.
  destruct (C81_changes_are_logged C B S HC HS mx root user slow h x ls1 o1 [] o2 Hok Hr Hs) as [A1 A2 A3 A4 A5 A6].
  assert (N : forall l m, l = LInfo \/ l = LWarn -> ~ written mx [] l m).
  { intros l m Hl H. apply H. cbn [In] in Hmx. destruct Hmx as [<-|[<-|[<-|[]]]], Hl as [->| ->]; reflexivity. }
  pose proof (fun m => N LInfo m (or_introl eq_refl)) as Ni. pose proof (fun m => N LWarn m (or_intror eq_refl)) as Nw. clear N.
  split; [destruct A1 as [A1|(_ & A1)]; [exact A1|now apply Nw in A1]|].
  split; [|split].
  - intros i k. split; intros Hk.
    + destruct (A2 i k Hk) as [H|[(y & H)|[H|H]]]; [exact H|now apply Ni in H..].
    + destruct (A3 i k Hk) as [H|[H|[H|[(y & H)|(y & H)]]]]; [exact H|now apply Nw in H..|now apply Ni in H|now apply Ni in H].
  - destruct A4 as [H|[(y & H)|H]]; [exact H|now apply Ni in H|now apply Nw in H].
  - intros k. split; intros Hk.
    + destruct (A5 k Hk) as [H|(y & _ & H)]; [exact H|now apply Ni in H].
    + destruct (A6 k Hk) as [H|[H|[(y & _ & H)|(H & _)]]]; [exact H|now apply Nw in H..|now apply Ni in H].
Qed.

(** Key 3 is in use and key 4 is received; a DSM-KROOT with key 4 revokes key 3 and its chain; then
    there is an alert.  The lines about changes, with two levels, and what is held in the end; a
    call without lines and the one that completes the revocation.  Codes: 1 public key verified (its id), 2 DSM-KROOT verified (id of the public key),
    3 next public key selected, 4 root key stored (id of the chain), 5 key revoked (id of the
    chain), 6 key validated (id of the chain), 7 alert. *)
Definition c81_codes (r : outcome (lines * osnma)) : list (Z * Z) :=
  match r with
  | Ok (l, _) => flat_map (fun '(_, m) => match m with
                   | LgPubkeyVerified p => [(1, sh_id p)]
                   | LgKrootVerified pkid => [(2, pkid)]
                   | LgNextPubkeySelected => [(3, 0)]
                   | LgStoringKroot k _ => [(4, chain_of k)]
                   | LgRevokingKey k => [(5, chain_of k)]
                   | LgKeyValidated k _ => [(6, chain_of k)]
                   | LgAlert => [(7, 0)]
                   | _ => [] end) l
  | Panic => []
  end.
Definition c81_alert_ops : list op := Eval vm_compute in (tx_kroot_ops (tx_t0 + 120) 9 (tx_header 3 1 7) 4 chain1 junk).
Definition c81_h : list op := Eval vm_compute in (pk_revoke_ops ++ kroot42_ops ++ c81_alert_ops).
(** The number of lines of one more call. *)
Definition c81_lines (r : outcome (lines * osnma)) (x : op) : option nat :=
  match r with
  | Ok (_, o) => match step_log (Some LInfo) o x with Ok (l, _) => Some (List.length l) | Panic => None end
  | Panic => None
  end.
Example C81_example : Forall op_ok c81_h /\
  c81_codes (run_log (Some LInfo) tx_new c81_h)
    = [(2, 3); (4, 1); (6, 1); (6, 1); (1, 4); (3, 0); (2, 4); (4, 2); (5, 1); (2, 4); (4, 1); (7, 0)] /\
  c81_codes (run_log (Some LWarn) tx_new c81_h) = [(5, 1); (7, 0)] /\
  tx_held (run tx_new c81_h) = Ok (false, (None, None), (None, None), None) /\
  c81_lines (run_log (Some LInfo) tx_new (pk_revoke_ops ++ firstn 1 kroot42_ops)) (nth 1 kroot42_ops (FeedOsnma [] 1 (gst_at 0))) = Some 0%nat /\
  c81_lines (run_log (Some LInfo) tx_new (pk_revoke_ops ++ removelast kroot42_ops)) (last kroot42_ops (FeedOsnma [] 1 (gst_at 0))) = Some 9%nat.
Proof.
  split; [apply op_okb_ok; vm_compute; reflexivity|]. split; [vm_compute; reflexivity|]. split; [vm_compute; reflexivity|].
  split; [vm_compute; reflexivity|]. split; vm_compute; reflexivity.
Qed.

Print Assumptions C81_changes_are_logged.
Print Assumptions C81_silent_calls_change_nothing.

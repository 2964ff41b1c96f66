(** Property C80: without a new TESLA key nothing is authenticated. *)
From Coq Require Import ZArith List Bool Lia.
From Verif Require Import Model.Prelude Model.Params Model.Gst Model.Tesla Model.Merkle Model.Nav Model.Osnma
  Spec.TimeSpec Spec.CollectSpec Spec.NavSpec Spec.TeslaSpec Spec.KrootSpec Spec.MerkleSpec Spec.KeySpec Spec.SystemSpec Spec.CompleteSpec
  Proofs.Base Proofs.GstProofs Proofs.KeyStoreProofs Proofs.StuckProofs
  Examples.Vectors Examples.Demo Examples.Toy Examples.Transmit Props.SystemProps Props.KeyProps.
Import ListNotations.
Open Scope Z_scope.
Local Existing Instance toy_crypto.

(** * C80 *)

(** A receiver is fed [h] and then [q].  If none of the calls of [q] that complete a subframe ends
    with a held TESLA key of this subframe, then whatever is returned after [q] is authenticated by
    what was received in [h]. *)
Theorem C80_no_key_no_authentication :
  forall (C : crypto) (B : build) (S : storage), crypto_ok C -> storage_ok S ->
  forall root user slow h q o1 o2, Forall op_ok (h ++ q) ->
  run (osnma_new root user slow) h = Ok o1 -> run o1 q = Ok o2 ->
  (forall p x q' o hkroot mack g key, q = p ++ x :: q' -> run o1 (p ++ [x]) = Ok o -> completes (h ++ p) x hkroot mack g ->
     held (o_keys o) key -> k_gst key <> g) ->
  forall k svn d, getter k o2 svn = Ok (Some d) -> authenticated root user slow h k svn (nd_data d) (nd_authbits d).
Proof. intros C B S HC HS root user slow. exact (no_key_no_authentication HC HS root user slow). Qed.

(** ** Example *)

Definition keyb (g : gst) (k : option tkey) : bool := match k with Some k => gst_eqb (k_gst k) g | None => false end.
Fixpoint no_new_keyb (h q : list op) (o : osnma) : bool :=
  match q with
  | [] => true
  | x :: q' =>
      match step o x with
      | Ok o' =>
          match x with
          | FeedOsnma data svn gk =>
              match expected_subframe (osnma_words h) (mkWord data svn gk) with
              | Some (_, _, g) => negb (keyb g (ks_k0 (o_keys o')) || keyb g (ks_k1 (o_keys o')))
              | None => true
              end
          | FeedInav _ _ _ _ => true
          end && no_new_keyb (h ++ [x]) q' o'
      | Panic => true
      end
  end.

Lemma no_new_keyb_ok q : forall h o1, no_new_keyb h q o1 = true -> no_new_key h q o1.
Proof.
  induction q as [|y q IH]; intros h o1 H p x q' o hk mk g k Eq Hr Hc Hk Hg; [destruct p; discriminate Eq|].
  cbn [no_new_keyb] in H. destruct p as [|z p]; cbn [app] in Eq.
  - assert (y = x) by congruence. subst y. cbn [app] in Hr. unfold run in Hr. cbn [fold_outcome] in Hr.
    destruct (step o1 x) as [o'|]; [|discriminate Hr]. cbn [bind] in Hr. injection Hr as ->.
    apply andb_true_iff in H. destruct H as (H & _). destruct Hc as (data & svn & gk & -> & _ & Hx). rewrite app_nil_r in Hx.
    rewrite Hx in H. apply negb_true_iff, orb_false_iff in H. destruct H as (H1 & H2).
    destruct Hk as [Hk|Hk]; rewrite Hk in *; cbn [keyb] in *; subst g; rewrite gst_eqb_refl in *; discriminate.
  - assert (y = z) by congruence. assert (Eq' : q = p ++ x :: q') by congruence. subst y. cbn [app] in Hr.
    unfold run in Hr. cbn [fold_outcome] in Hr.
    destruct (step o1 z) as [o'|]; [|discriminate Hr]. cbn [bind] in Hr. apply andb_true_iff in H. destruct H as (_ & H).
    apply (IH (h ++ [z]) o' H p x q' o hk mk g k Eq' Hr); auto. now rewrite <- app_assoc.
Qed.

(** After [tx_nominal] two more subframes are received, with the tags and keys of the chain; or
    with MACK messages that have been changed on the way. *)
Definition c80_after (mack : Z -> list Z) : list op :=
  tx_nav (tx_t0 + 90) ++ tx_one (tx_t0 + 120) nominal 7 (tx_kroot nominal 3 chain1) (mack (tx_t0 + 120))
  ++ tx_one (tx_t0 + 150) nominal 7 (tx_kroot nominal 3 chain1) (mack (tx_t0 + 150)).
Definition c80_good : list op := Eval vm_compute in c80_after (tx_mack1 chain1).
Definition c80_bad : list op := Eval vm_compute in c80_after junk.
Example C80_example :
  Forall op_ok (tx_nominal ++ c80_bad) /\
  (exists o1 o2, run tx_new tx_nominal = Ok o1 /\ run o1 c80_bad = Ok o2 /\ no_new_key tx_nominal c80_bad o1) /\
  tx_get (run tx_new (tx_nominal ++ c80_bad)) Ced 2 = Ok (Some (80, gst_at (tx_t0 + 90))) /\
  tx_get (run tx_new (tx_nominal ++ c80_good)) Ced 2 = Ok (Some (160, gst_at (tx_t0 + 90))).
Proof.
  split; [apply op_okb_ok; vm_compute; reflexivity|]. split.
  - assert (H : match run tx_new tx_nominal with
                | Ok o1 => match run o1 c80_bad with Ok _ => no_new_keyb tx_nominal c80_bad o1 | Panic => false end
                | Panic => false
                end = true) by (vm_compute; reflexivity).
    destruct (run tx_new tx_nominal) as [o1|]; [|discriminate H]. exists o1.
    destruct (run o1 c80_bad) as [o2|]; [|discriminate H]. exists o2. split; [reflexivity|]. split; [reflexivity|].
    now apply no_new_keyb_ok.
  - split; vm_compute; reflexivity.
Qed.

Print Assumptions C80_no_key_no_authentication.

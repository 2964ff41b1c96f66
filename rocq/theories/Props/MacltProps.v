(** Property C21: the MAC look-up table. *)
From Coq Require Import ZArith List Bool Lia String Sorting.Sorted.
From Verif Require Import Model.Prelude Model.Params Model.Gst Model.Bitfields Model.Maclt Model.Tesla
  Spec.MacltSpec Proofs.Base Proofs.MacltProofs.
Import ListNotations.
Open Scope Z_scope.

(** For every id (256 of them can be announced), half and tag number at least 1, the lookup
    returns what the ICD prints there, and fails exactly for unknown ids and tag numbers
    beyond the sequence. *)
Theorem C21_lookup_matches_icd : forall id half n,
  (half < 2)%nat -> (1 <= n)%nat ->
  match icd_sequence id half with
  | None => get_maclt_entry id half n = Ok (RErr InvalidMaclt)
  | Some seq =>
      match nth_error seq n with
      | None => get_maclt_entry id half n = Ok (RErr InvalidTagNumber)
      | Some code => exists s, get_maclt_entry id half n = Ok (ROk s) /\ slot_code s = code
      end
  end.
Proof. exact get_maclt_entry_icd. Qed.

(** The only panics are the documented ones; in particular the internal assertion about
    ADKD 4 never fires. *)
Theorem C21_lookup_panics_iff : forall id half n,
  get_maclt_entry id half n = Panic <-> (2 <= half \/ n = 0)%nat.
Proof. exact get_maclt_entry_panic. Qed.

Theorem C21_flx_indices_exact : forall id half,
  (half < 2)%nat ->
  match icd_sequence id half with
  | None => get_flx_indices id half = Ok (RErr InvalidMaclt)
  | Some seq =>
      exists idxs, get_flx_indices id half = Ok (ROk idxs) /\
      (forall i, In i idxs <-> nth_error seq i = Some "FLX"%string) /\ StronglySorted lt idxs
  end.
Proof. exact get_flx_indices_icd. Qed.

Theorem C21_validate_adkd_never_panics : forall c n tag prna g,
  (1 <= n)%nat -> exists r, validate_adkd c n tag prna g = Ok r.
Proof. exact validate_adkd_total. Qed.

Example C21_example :
  icd_sequence 34 1 = Some ["00S"; "FLX"; "00E"; "12S"; "00E"; "12E"]%string /\
  get_maclt_entry 34 1 5 = Ok (ROk (SlotFixed AdkdSlowMac CrossAuth)) /\
  get_maclt_entry 34 1 6 = Ok (RErr InvalidTagNumber) /\
  get_maclt_entry 29 1 5 = Ok (RErr InvalidMaclt) /\
  get_flx_indices 34 0 = Ok (ROk [1; 3]%nat).
Proof. repeat split. Qed.

Print Assumptions C21_lookup_matches_icd.
Print Assumptions C21_lookup_panics_iff.
Print Assumptions C21_flx_indices_exact.
Print Assumptions C21_validate_adkd_never_panics.

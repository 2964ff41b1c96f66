(** Model of the work that a call does: how many times the one-way function of a TESLA chain is
    evaluated.  The functions through which a call reaches it, once more, with a count. *)
From Coq Require Import ZArith List Bool.
From Verif Require Import Model.Prelude Model.Params Model.Gst Model.Svn Model.Bitfields
  Model.Tesla Model.Merkle Model.Subframe Model.Dsm Model.MackStore Model.Nav Model.Osnma.
Import ListNotations.
Open Scope Z_scope.

Section Crypto.
Context {C : crypto} {B : build} {S : storage}.

(** The result of a function and the number of evaluations. *)
Definition counting (A : Type) : Type := outcome (Z * A).
(** A function that does not evaluate it. *)
Definition free {A} (x : outcome A) : counting A := a <- x ;; Ok (0, a).
Definition then_ {A D} (x : counting A) (f : A -> counting D) : counting D :=
  '(n, a) <- x ;; '(m, b) <- f a ;; Ok (n + m, b).

(** [Key::one_way_function], tesla.rs:681-700: one evaluation. *)
Definition one_way_function_work (k : tkey) : counting tkey :=
  k' <- one_way_function k ;; Ok (1, k').

(** [Key::derive], tesla.rs:711-717. *)
Fixpoint derive_work (k : tkey) (n : nat) : counting tkey :=
  match n with
  | O => free (Ok k)
  | Datatypes.S n' => then_ (one_way_function_work k) (fun k' => derive_work k' n')
  end.

(** [Key::validate_key], tesla.rs:731-756. *)
Definition validate_key_work (self other : tkey) : counting (result tkey validation_error) :=
  if negb (chain_eqb (k_chain self) (k_chain other)) then free (Ok (RErr DifferentChain))
  else if negb (gst_ltb (k_gst self) (k_gst other)) then free (Ok (RErr DoesNotFollow))
  else
    let derivations := subframes_difference (k_gst other) (k_gst self) in
    then_ (free (assert_ (1 <=? derivations))) (fun _ =>
    if 3000 <? derivations then free (Ok (RErr TooManyDerivations))
    else
      then_ (derive_work other (Z.to_nat derivations)) (fun derived_key => free (
      assert_ (gst_eqb (k_gst derived_key) (k_gst self)) ;;;
      let size := ch_key_bytes (k_chain self) in
      a <- slice (k_data derived_key) 0 size ;;
      b <- slice (k_data self) 0 size ;;
      if bytes_eqb a b then Ok (ROk other) else Ok (RErr WrongOneWayFunction)))).

(** The key for the MACSEQ of the Slow MAC MACK, osnma.rs:446-454. *)
Definition slowmac_key_of_work (ks : key_store) (gst_k_slowmac : gst) : counting (option tkey) :=
  match key_past_chain ks gst_k_slowmac with
  | None => free (Ok None)
  | Some k =>
      let derivations := subframes_difference (k_gst k) gst_k_slowmac in
      if 0 <=? derivations then
        then_ (derive_work k (Z.to_nat derivations)) (fun k' => free (Ok (Some k')))
      else free (Ok None)
  end.

(** [OsnmaData::process_tags], osnma.rs:440-493. *)
Definition process_tags_work (o : osnma) (current_key : tkey) : counting osnma :=
  then_ (free (add_seconds (k_gst current_key) (-30))) (fun gst_mack =>
  then_ (free (add_seconds gst_mack (-300))) (fun gst_slowmac =>
  then_ (free (add_seconds (k_gst current_key) (-300))) (fun gst_k_slowmac =>
  then_ (slowmac_key_of_work (o_keys o) gst_k_slowmac) (fun slowmac_key => free (
  n <- fold_outcome
         (fun n svn =>
            n <- process_tags_fast (o_mack o) (o_slow o) current_key gst_mack svn n ;;
            process_tags_slow (o_mack o) slowmac_key current_key gst_slowmac svn n)
         svn_iter (o_nav o) ;;
  Ok (set_nav n o)))))).

(** [OsnmaData::validate_key], osnma.rs:401-438. *)
Definition osnma_validate_key_work (o : osnma) (message : list Z) (g : gst) : counting osnma :=
  match current_key (o_keys o) with
  | None => free (Ok o)
  | Some current =>
      then_ (free (mack_key (mack_of_chain message current))) (fun kb =>
      then_ (free (key_from_bitslice kb g (k_chain current))) (fun new_key =>
      match gst_cmp (k_gst current) (k_gst new_key) with
      | Eq => free (Ok o)
      | Gt => free (Ok o)
      | Lt =>
          then_ (validate_key_work current new_key) (fun r =>
          match r with
          | ROk new_valid_key =>
              then_ (free (store_key (o_keys o) new_valid_key)) (fun ks =>
              process_tags_work (set_keys ks o) new_valid_key)
          | RErr _ => free (Ok o)
          end)
      end))
  end.

(** [OsnmaDsm::process_subframe], osnma.rs:238-255. *)
Definition process_subframe_work (o : osnma) (hkroot message : list Z) (svn : Z) (g : gst)
  : counting osnma :=
  then_ (free (index hkroot 0)) (fun nma_header =>
  then_ (free (mack_store (o_mack o) message svn g (nma_status nma_header))) (fun ms =>
  let o := set_mack ms o in
  then_ (free (index hkroot 1)) (fun dsm_header =>
  then_ (free (dsm_feed (o_dsm o) dsm_header (skipn 2 hkroot))) (fun '(cd, d) =>
  let o := set_dsm cd o in
  then_ (free (match d with
               | Some d => process_dsm o d nma_header g
               | None => Ok o
               end)) (fun o =>
  osnma_validate_key_work o message g))))).

(** [Osnma::feed_osnma], osnma.rs:205-213. *)
Definition feed_osnma_work (o : osnma) (data : list Z) (svn : Z) (g : gst) : counting osnma :=
  if forallb (fun x => x =? 0) data then free (Ok o)
  else
    then_ (free (subframe_feed (o_sub o) data svn g)) (fun '(sf, r) =>
    let o := set_sub sf o in
    match r with
    | Some (hkroot, message, subframe_gst) => process_subframe_work o hkroot message svn subframe_gst
    | None => free (Ok o)
    end).

Definition step_work (o : osnma) (x : op) : counting osnma :=
  match x with
  | FeedInav word svn g b => free (feed_inav o word svn g b)
  | FeedOsnma data svn g => feed_osnma_work o data svn g
  end.

End Crypto.

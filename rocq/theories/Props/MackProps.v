(** Properties C26 and C27: the storage of MACK messages. *)
From Coq Require Import ZArith List Bool Lia.
From Verif Require Import Model.Prelude Model.Params Model.Gst Model.Bitfields Model.MackStore
  Spec.StoreSpec Proofs.Base Proofs.MackProofs.
Import ListNotations.
Open Scope Z_scope.

(** Storing never panics, for any sizes of the storage that obey the rules. *)
Theorem C26_store_never_panics : forall (S : storage), storage_ok S -> forall h,
  exists st, fold_outcome (fun st x => mack_store st (it_message x) (it_svn x) (it_gst x) (it_status x))
               h mack_storage_new = Ok st /\
    forall svn g, exists r, mack_get st svn g = Ok r.
Proof.
  intros S HS h. destruct (store_items_represents HS h) as (st & E & Hrep).
  exists st. split; [exact E|]. intros svn g.
  destruct (mack_get_total HS _ st svn g Hrep) as (r & Er & _). eauto.
Qed.

(** What is returned was stored in one call for this satellite and time. *)
Theorem C26_get_only_what_was_stored : forall (S : storage), storage_ok S ->
  forall h st svn g m s,
  fold_outcome (fun st x => mack_store st (it_message x) (it_svn x) (it_gst x) (it_status x))
    h mack_storage_new = Ok st ->
  mack_get st svn g = Ok (Some (m, s)) -> In (mkItem m svn g s) h.
Proof. intros S HS. exact (mack_get_sound HS). Qed.

(** The messages [grp] stored for a time [g] are available exactly until [mack_depth] other
    stretches of messages with the same time have been stored after them: the first message
    of the satellite among the first [num_sats] stored is returned. *)
Theorem C27_retention : forall (S : storage), storage_ok S ->
  forall h1 grp h2 g, grp <> [] ->
  (forall x, In x grp -> it_gst x = g) ->
  (forall x, In x h1 \/ In x h2 -> it_gst x <> g) ->
  forall st svn,
  fold_outcome (fun st x => mack_store st (it_message x) (it_svn x) (it_gst x) (it_status x))
    (h1 ++ grp ++ h2) mack_storage_new = Ok st ->
  mack_get st svn g =
  Ok (if (length (stretches h2) <? mack_depth)%nat
      then option_map (fun x => (it_message x, it_status x))
             (find (fun x => it_svn x =? svn) (firstn num_sats grp))
      else None).
Proof. intros S HS. exact (mack_retained HS). Qed.

(** The number of stretches is the number of times the time changed: for a list of messages
    of different times, one for each. *)
Theorem C27_stretches_count : forall h,
  (forall i j x y, nth_error h i = Some x -> nth_error h j = Some y -> it_gst x = it_gst y -> i = j) ->
  length (stretches h) = length h.
Proof.
  induction h as [|y h IH] using rev_ind; intros H; [reflexivity|].
  rewrite stretches_app.
  - rewrite !app_length. rewrite IH; [reflexivity|].
    intros i j a b Ha Hb. apply H; rewrite nth_error_app1; auto; apply nth_error_Some; congruence.
  - intros x z Hx Hz E. destruct Hz as [<-|[]]. apply In_nth_error in Hx. destruct Hx as (i & Hi).
    assert (Hlt : (i < length h)%nat) by (apply nth_error_Some; congruence).
    assert (i = length h); [|lia].
    apply (H i (length h) x y); auto.
    + rewrite nth_error_app1; auto.
    + rewrite nth_error_app2, Nat.sub_diag; auto.
Qed.

Lemma small_storage_ok : storage_ok small_storage.
Proof. unfold storage_ok; cbn; lia. Qed.
Lemma full_storage_ok : storage_ok full_storage.
Proof. unfold storage_ok; cbn; lia. Qed.

(** The small storage (2 subframes): found after one more subframe, gone after two. *)
Definition ex_item (svn t : Z) : item := mkItem [svn; t] svn (mkGst 1200 (30 * t)) NmaTest.
Definition ex_store (h : list item) (svn t : Z) : outcome (option (list Z * nma_status_t)) :=
  st <- fold_outcome (fun st x => @mack_store small_storage st (it_message x) (it_svn x) (it_gst x)
                                                             (it_status x))
          h (@mack_storage_new small_storage) ;;
  @mack_get small_storage st svn (mkGst 1200 (30 * t)).
Example C27_example :
  ex_store [ex_item 1 0; ex_item 5 1; ex_item 7 1; ex_item 5 2] 7 1 = Ok (Some ([7; 1], NmaTest)) /\
  ex_store [ex_item 1 0; ex_item 5 1; ex_item 7 1; ex_item 5 2; ex_item 5 3] 7 1 = Ok None.
Proof. vm_compute. split; reflexivity. Qed.

Print Assumptions C26_store_never_panics.
Print Assumptions C26_get_only_what_was_stored.
Print Assumptions C27_retention.
Print Assumptions C27_stretches_count.

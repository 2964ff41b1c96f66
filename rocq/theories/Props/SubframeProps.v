(** Properties C23 and C24: collection of subframes. *)
From Coq Require Import ZArith List Bool Lia.
From Verif Require Import Model.Prelude Model.Params Model.Gst Model.Subframe
  Spec.CollectSpec Proofs.Base Proofs.SubframeProofs.
Import ListNotations.
Open Scope Z_scope.

(** For every history of words and every next word: feeding never panics, and the output is
    the one of the specification. *)
Theorem C23_subframe_exact : forall h, Forall word_ok h ->
  exists st, fold_outcome (fun st w => r <- subframe_feed st (w_data w) (w_svn w) (w_gst w) ;; Ok (fst r))
               h subframe_new = Ok st /\
  forall w, word_ok w ->
  exists st', subframe_feed st (w_data w) (w_svn w) (w_gst w) = Ok (st', expected_subframe h w).
Proof. exact subframe_exact. Qed.

(** When the specification has an output: the word is word 14, words 0 to 13 of the satellite
    are there in this order since the subframe last changed, and the subframe was not
    complete before. *)
Theorem C23_expected_iff : forall h w,
  expected_subframe h w <> None <->
  w_index w = 14 /\ (exists ws, has_words (w_svn w) 14 ws (run_for (current_run h) w)) /\
  ~ (exists ws, has_words (w_svn w) 15 ws (run_for (current_run h) w)).
Proof. exact expected_subframe_iff. Qed.

(** What the output is: the concatenation of 15 words of the history, all of this satellite
    and this subframe, in order. *)
Theorem C23_output_is_history : forall h w hk mk g,
  expected_subframe h w = Some (hk, mk, g) ->
  exists ws, has_words (w_svn w) 15 (ws ++ [w]) (h ++ [w]) /\
    hk = hkroot_of (ws ++ [w]) /\ mk = mack_of (ws ++ [w]) /\ g = subframe_of (w_gst w) /\
    (forall x, In x ws -> same_subframe (w_gst x) (w_gst w) = true).
Proof. exact expected_subframe_sound. Qed.

(** A subframe of a satellite is returned at most once until the subframe changes. *)
Theorem C23_at_most_once : forall h w q w',
  expected_subframe h w <> None ->
  (forall x, In x q -> same_subframe (w_gst x) (w_gst w') = true) ->
  same_subframe (w_gst w) (w_gst w') = true -> w_svn w' = w_svn w ->
  expected_subframe (h ++ w :: q) w' = None.
Proof. exact expected_subframe_once. Qed.

(** Words of other satellites fed in the same subframe make no difference: what is returned
    only depends on the words of the satellite itself. *)
Theorem C24_no_interference : forall p q1 q2 w,
  (forall x, In x q1 \/ In x q2 -> same_subframe (w_gst x) (w_gst w) = true) ->
  filter (fun x => w_svn x =? w_svn w) q1 = filter (fun x => w_svn x =? w_svn w) q2 ->
  expected_subframe (p ++ q1) w = expected_subframe (p ++ q2) w.
Proof. exact expected_subframe_local. Qed.

(** The same, directly on the collector. *)
Theorem C24_no_interference_model : forall p q1 q2 w,
  Forall word_ok (p ++ q1) -> Forall word_ok (p ++ q2) -> word_ok w ->
  (forall x, In x q1 \/ In x q2 -> same_subframe (w_gst x) (w_gst w) = true) ->
  filter (fun x => w_svn x =? w_svn w) q1 = filter (fun x => w_svn x =? w_svn w) q2 ->
  exists st1 st2 st1' st2' out,
    feed_words (p ++ q1) = Ok st1 /\ feed_words (p ++ q2) = Ok st2 /\
    subframe_feed st1 (w_data w) (w_svn w) (w_gst w) = Ok (st1', out) /\
    subframe_feed st2 (w_data w) (w_svn w) (w_gst w) = Ok (st2', out).
Proof.
  intros p q1 q2 w H1 H2 Hw Hs Hf.
  destruct (subframe_exact _ H1) as (st1 & E1 & F1). destruct (F1 w Hw) as (st1' & G1).
  destruct (subframe_exact _ H2) as (st2 & E2 & F2). destruct (F2 w Hw) as (st2' & G2).
  exists st1, st2, st1', st2', (expected_subframe (p ++ q1) w). repeat split; auto.
  rewrite (expected_subframe_local p q1 q2 w Hs Hf). exact G2.
Qed.

(** Two satellites interleaved; each gets its own subframe. *)
Definition ex_word (svn i : Z) : oword :=
  mkWord [i; svn; i; svn; i] svn (mkGst 1200 (604770 + 2 * i)).
Definition ex_history : list oword :=
  flat_map (fun i => [ex_word 11 (Z.of_nat i); ex_word 36 (Z.of_nat i)]) (seq 0 14).

Example C23_example :
  Forall word_ok ex_history /\
  expected_subframe ex_history (ex_word 36 14)
  = Some (map Z.of_nat (seq 0 15), flat_map (fun i => [36; Z.of_nat i; 36; Z.of_nat i]) (seq 0 15),
          mkGst 1200 604770) /\
  expected_subframe (ex_history ++ [ex_word 36 14; ex_word 11 3]) (ex_word 36 14) = None /\
  expected_subframe (ex_history ++ [ex_word 36 14; ex_word 11 3]) (ex_word 11 14) <> None.
Proof.
  split; [|vm_compute; repeat split; discriminate].
  apply Forall_forall. intros x Hx. unfold ex_history in Hx. apply in_flat_map in Hx.
  destruct Hx as (i & Hi & Hx). apply in_seq in Hi.
  destruct Hx as [<-|[<-|[]]]; unfold word_ok, gst_ok; cbn [ex_word w_data w_svn w_gst g_wn g_tow length]; lia.
Qed.

(** A single word of another subframe, from any satellite, discards what was collected. *)
Example C24_other_subframe_example :
  expected_subframe (ex_history ++ [mkWord [1; 2; 3; 4; 5] 2 (mkGst 1201 0)]) (ex_word 36 14) = None.
Proof. reflexivity. Qed.

Print Assumptions C23_subframe_exact.
Print Assumptions C23_expected_iff.
Print Assumptions C23_output_is_history.
Print Assumptions C23_at_most_once.
Print Assumptions C24_no_interference.
Print Assumptions C24_no_interference_model.

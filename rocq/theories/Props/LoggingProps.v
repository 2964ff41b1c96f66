(** Properties C62 to C65: the log. *)
From Coq Require Import ZArith String List Bool Lia.
From Verif Require Import Model.Prelude Model.Params Model.Gst Model.Svn Model.Bitfields Model.Tesla Model.Merkle
  Model.Dsm Model.MackStore Model.Nav Model.Osnma Model.Logging
  Spec.TimeSpec Spec.CollectSpec Spec.NavSpec Spec.TeslaSpec Spec.KrootSpec Spec.MerkleSpec Spec.KeySpec Spec.SystemSpec
  Spec.LogSpec
  Proofs.Base Proofs.LoggingProofs Proofs.LogRunProofs Proofs.LogTrueProofs Proofs.LogCountProofs Proofs.LogWordProofs
  Proofs.LogLevelProofs
  Examples.Vectors Props.SystemProps Examples.Demo Examples.Toy Examples.Transmit Props.HonestProps Props.ColdProps.
Import ListNotations.
Open Scope list_scope.
Open Scope Z_scope.
Local Existing Instance toy_crypto.

(** ** C62 *)

(** At any level of logging the receiver does what it does without: the same state, and a
    panic in the same cases. *)
Theorem C62_logging_is_transparent :
  forall (C : crypto) (B : build) (S : storage), crypto_ok C -> storage_ok S ->
  forall mx root user slow h, Forall op_ok h ->
  match run_log mx (osnma_new root user slow) h with
  | Ok (_, o) => run (osnma_new root user slow) h = Ok o
  | Panic => run (osnma_new root user slow) h = Panic
  end.
Proof.
  intros C B S HC HS mx root user slow h Hok. rewrite <- (run_plain HC HS mx root user slow h Hok).
  destruct (run_log mx _ h) as [(ls, o)|]; reflexivity.
Qed.

(** The lines logged with a maximum level are those of the full log that have this level or a
    more important one. *)
Theorem C62_level_only_selects_lines :
  forall (C : crypto) (B : build) (S : storage) mx o h ls o',
  run_log (Some LTrace) o h = Ok (ls, o') ->
  run_log mx o h = Ok (filter (fun x => match mx with Some m => level_number (fst x) <=? level_number m | None => false end) ls, o').
Proof. intros C B S mx o h ls o'. exact (run_log_sel mx o h ls o'). Qed.

(** *** C35 in the log *)

(** A word of OSNMA data with a bit that is not zero, or an INAV word. *)
Definition counts (x : op) : bool :=
  match x with FeedOsnma data _ _ => existsb (fun b => negb (b =? 0)) data | FeedInav _ _ _ _ => true end.

(** All-zero words anywhere leave no trace, in the state or in the log. *)
Theorem C35_zeros_leave_no_trace :
  forall (C : crypto) (B : build) (S : storage) mx o h,
  run o h = run o (filter counts h) /\ run_log mx o h = run_log mx o (filter counts h).
Proof.
  intros C B S mx o h. split; revert o; induction h as [|x h IH]; intros o; try reflexivity.
  - cbn [filter]. unfold run in *. cbn [fold_outcome]. destruct (counts x) eqn:E.
    + cbn [fold_outcome]. destruct (step o x); [apply IH|reflexivity].
    + destruct x as [|data svn g]; [discriminate E|]. cbn [step]. unfold feed_osnma.
      replace (forallb (fun x => x =? 0) data) with true; [apply IH|]. symmetry. cbn [counts] in E. clear - E.
      induction data as [|b data IH]; [reflexivity|]. cbn [existsb] in E. apply orb_false_iff in E. destruct E as (E1 & E2).
      cbn [forallb]. rewrite (IH E2). destruct (b =? 0); [reflexivity|discriminate E1].
  - cbn [filter]. unfold run_log in *. cbn [fold_logging]. destruct (counts x) eqn:E.
    + cbn [fold_logging]. unfold lbind. destruct (step_log mx o x) as [(l & o')|]; [|reflexivity]. now rewrite IH.
    + destruct x as [|data svn g]; [discriminate E|]. cbn [step_log]. unfold feed_osnma_log.
      replace (forallb (fun x => x =? 0) data) with true.
      * unfold done, lbind. rewrite IH. destruct (fold_logging _ _ o) as [(l & o')|]; reflexivity.
      * symmetry. cbn [counts] in E. clear - E.
        induction data as [|b data IH]; [reflexivity|]. cbn [existsb] in E. apply orb_false_iff in E. destruct E as (E1 & E2).
        cbn [forallb]. rewrite (IH E2). destruct (b =? 0); [reflexivity|discriminate E1].
Qed.

(** Zeros from a satellite before each call of the example of C61. *)
Example C35_zeros_example :
  let h := flat_map (fun x => [FeedOsnma (repeat 0 5) 7 (op_gst x); x]) c61_h in
  filter counts h = c61_h /\ (List.length h = 2 * List.length c61_h)%nat /\ (0 < List.length c61_h)%nat.
Proof. vm_compute. repeat split; auto with arith. Qed.

(** *** A receiver with a log *)

(** The receiver of C61_example: it starts with a Merkle tree root, gets the public key, the
    DSM-KROOT, and then keys and tags.  What is kept here of its log: the level and a number for
    the message. *)
Definition c62_new : osnma := osnma_new (Some c61_root) None false.
Definition c62_log (mx : option level) : lines := match run_log mx c62_new c61_h with Ok (ls, _) => ls | Panic => [] end.
Definition c62_number (m : message) : Z :=
  match m with
  | LgNoKey => 1
  | LgDsmCompleted _ _ => 2
  | LgPubkeyVerified _ => 3
  | LgKrootVerified _ => 4
  | LgStoringKroot _ _ => 5
  | LgKeyValidated _ _ => 6
  | LgTagCorrect prnd _ _ _ _ => 100 + prnd
  | LgMackError _ _ _ _ => 7
  | LgFeedInav _ _ _ => 8
  | LgFeedOsnma _ _ _ _ _ => 9
  | LgSubframeCompleted _ _ _ _ => 10
  | _ => 0
  end.
Definition c62_count (n : Z) (ls : lines) : nat := List.length (filter (fun x => c62_number (snd x) =? n) ls).
(** In the full log of 591 lines there is one for each word, each completed subframe and DSM, one
    for each key; two tags for the data of satellite 1 and two for those of satellite 2 are
    correct; the MACK messages of the other satellites are not valid. *)
Example C62_example :
  crypto_ok toy_crypto /\ storage_ok full_storage /\ Forall op_ok c61_h /\
  (exists o, run c62_new c61_h = Ok o) /\
  List.length (c62_log (Some LTrace)) = 591%nat /\
  map (fun n => c62_count n (c62_log (Some LTrace))) [1; 2; 3; 4; 5; 6; 101; 102; 7]
    = [20; 2; 1; 1; 1; 2; 2; 2; 20]%nat /\
  map (fun n => c62_count n (c62_log (Some LInfo))) [1; 2; 3; 4; 5; 6; 101; 102; 7]
    = [20; 2; 1; 1; 1; 2; 2; 2; 20]%nat /\
  map (fun n => c62_count n (c62_log (Some LInfo))) [8; 9; 10] = [0; 0; 0]%nat /\
  map fst (c62_log (Some LWarn)) = repeat LError 20 /\ List.length (c62_log None) = 0%nat.
Proof.
  split; [exact toy_crypto_ok|]. split; [exact full_storage_ok|]. split; [apply op_okb_ok; vm_compute; reflexivity|].
  split; [|vm_compute; repeat split]. assert (H : match run c62_new c61_h with Ok _ => true | Panic => false end = true) by (vm_compute; reflexivity).
  destruct (run c62_new c61_h) as [o|]; [exists o; reflexivity|discriminate].
Qed.

(** ** C63 *)

(** Data is returned only with 40 bits of authentication or more, and for each 40 of them the
    log has a line that says that a tag for data of this kind of this satellite is correct. *)
Theorem C63_nothing_is_authenticated_silently :
  forall (C : crypto) (B : build) (S : storage), crypto_ok C -> storage_ok S ->
  forall mx root user slow h ls o k svn d, info_enabled mx -> Forall op_ok h ->
  run_log mx (osnma_new root user slow) h = Ok (ls, o) -> getter k o svn = Ok (Some d) ->
  40 <= nd_authbits d <= 40 * correct_lines k svn ls.
Proof.
  intros C B S HC HS mx root user slow h ls o k svn d Hmx.
  exact (returned_was_logged HC HS mx Hmx root user slow h ls o k svn d).
Qed.

(** The bound is reached. *)
Example C63_example :
  info_enabled (Some LInfo) /\
  match run_log (Some LInfo) c62_new c61_h with
  | Ok (ls, o) => match getter Ced o 2 with
                  | Ok (Some d) => (nd_authbits d =? 80) && (correct_lines Ced 2 ls =? 2)
                  | _ => false
                  end
  | Panic => false
  end = true.
Proof. split; [now left|vm_compute; reflexivity]. Qed.

(** ** C64 *)

(** What a line says ([claim]) is true of the calls up to the one, [x], that writes it. *)
Theorem C64_lines_are_true :
  forall (C : crypto) (B : build) (S : storage), crypto_ok C -> storage_ok S ->
  forall mx root user slow h ls o l m, Forall op_ok h ->
  run_log mx (osnma_new root user slow) h = Ok (ls, o) -> In (l, m) ls ->
  exists h1 x h2 ls1 o1 ls2 o2, h = h1 ++ x :: h2 /\
    run_log mx (osnma_new root user slow) h1 = Ok (ls1, o1) /\ step_log mx o1 x = Ok (ls2, o2) /\
    In (l, m) ls2 /\ claim root user (h1 ++ [x]) m.
Proof. intros C B S HC HS mx root user slow h ls o l m. exact (run_says_at HC HS mx root user slow h ls o l m). Qed.

(** A tag of which the log says that it is correct is one that authenticates, in the sense of
    C01, data that was received. *)
Theorem C64_correct_tag_is_verified :
  forall (C : crypto) (B : build) (S : storage), crypto_ok C -> storage_ok S ->
  forall mx root user slow h ls o l prnd adkd g j prna, Forall op_ok h ->
  run_log mx (osnma_new root user slow) h = Ok (ls, o) -> In (l, LgTagCorrect prnd adkd g j prna) ls ->
  exists h1 h2 k s cop bits hkroot mack key v delay tag gn, h = h1 ++ h2 /\
    subframe_received h1 prna g hkroot mack /\ s = status_of hkroot /\
    adkd_number adkd = Some v /\ adkd_means v k delay /\
    trusted_key root user h1 key /\ seconds_after g (k_gst key) delay /\
    tag_at (k_chain key) (key_bytes key) prna (time_of g) s mack prnd v cop bits tag j /\
    0 < cop < 16 /\ seconds_after gn g 30 /\ nav_seen (inav_words h1) k prnd bits gn cop.
Proof.
  intros C B S HC HS mx root user slow h ls o l prnd adkd g j prna Hok Hr Hin.
  destruct (run_says HC HS mx root user slow h ls o l _ Hok Hr Hin) as (h1 & h2 & E & key & k & s & cop & tag & bits & Ht & (Hc & gn & Hgn & Hn) & Hm).
  destruct Ht as (hkroot & mack & v & delay & Hs & Hst & Hv & Hd & Hp & _ & Hk & _ & Ha).
  exists h1, h2, k, s, cop, bits, hkroot, mack, key, v, delay, tag, gn. repeat (split; [assumption|]).
  split; [|auto]. destruct Hp as (Hp1 & Hp2 & Hp3). split; [exact Hp1|]. split; [exact Hp2|]. destruct j as [|j].
  - destruct Hp3 as (Hp3 & Hp4 & Hp5). auto.
  - auto.
Qed.

(** The lines of the example: a key that was verified, the tags. *)
Example C64_example :
  existsb (fun x => match snd x with LgKrootVerified 3 => true | _ => false end) (c62_log (Some LInfo)) = true /\
  flat_map (fun x => match snd x with LgTagCorrect 2 AdkdInavCed g j prna => [(time_of g, j, prna)] | _ => [] end)
           (c62_log (Some LInfo))
    = [(tx_t0, 1%nat, 1); (tx_t0, 5%nat, 1)] /\
  flat_map (fun x => match snd x with LgNmaHeader s c p => [(s, c, p)] | _ => [] end) (c62_log (Some LInfo)) <> [] /\
  existsb (fun x => match snd x with LgTag 1 1 AdkdInavCed g _ (PrndSvid 2) => time_of g =? tx_t0 | _ => false end)
          (c62_log (Some LInfo)) = true.
Proof.
  split; [vm_compute; reflexivity|]. split; [vm_compute; reflexivity|]. split; [vm_compute; discriminate|vm_compute; reflexivity].
Qed.

(** ** C65 *)

(** As stated ([word_line_right]) the property is false: for a word of type 1 of satellite 5 the
    line reads "storing INAV word type E05 for 1". *)
Definition c65_word : list Z := [4; 0; 0; 0; 0; 0; 0; 0; 0; 0; 0; 0; 0; 0; 0; 0].
Definition c65_shown {C : crypto} (ls : lines) : list (bool * Z * Z) :=
  flat_map (fun x => match snd x with LgWord _ (ShownSvn a) (ShownNumber b) => [(true, a, b)] | LgWord _ _ _ => [(false, 0, 0)] | _ => [] end) ls.
Lemma c65_shown_in {C : crypto} (ls : lines) a b t : c65_shown ls = (true, a, b) :: t ->
  exists l k, In (l, LgWord k (ShownSvn a) (ShownNumber b)) ls.
Proof.
  intros H. assert (Hin : In (true, a, b) (c65_shown ls)) by (rewrite H; now left).
  unfold c65_shown in Hin. apply in_flat_map in Hin. destruct Hin as ((l, m) & Hl & Hm). cbn [snd] in Hm.
  destruct m; try now destruct Hm. destruct word_type, for_; destruct Hm as [Hm|[]]; try discriminate.
  exists l, k. assert (svn = a /\ n = b) as (-> & ->) by (split; congruence). exact Hl.
Qed.
Definition c65_call {C : crypto} {S : storage} : outcome (list (bool * Z * Z)) :=
  match feed_inav_log (Some LTrace) (osnma_new None None false) c65_word 5 (gst_at tx_t0) E1B with
  | Ok (ls, _) => Ok (c65_shown ls)
  | Panic => Panic
  end.
Example C65_example : c65_call = Ok [(true, 5, 1)].
Proof. vm_compute. reflexivity. Qed.
Theorem C65_refuted :
  exists word svn g b ls o l m, op_ok (FeedInav word svn g b) /\
  run_log (Some LTrace) (osnma_new None None false) [FeedInav word svn g b] = Ok (ls, o) /\
  In (l, m) ls /\ ~ word_line_right word svn m.
Proof.
  pose proof C65_example as Hx. unfold c65_call in Hx.
  destruct (feed_inav_log _ _ _ _ _ _) as [(ls, o)|] eqn:E; [|discriminate].
  assert (Hs : c65_shown ls = [(true, 5, 1)]) by congruence. apply c65_shown_in in Hs. destruct Hs as (l & k & Hin).
  exists c65_word, 5, (gst_at tx_t0), E1B, ls, o, l, (LgWord k (ShownSvn 5) (ShownNumber 1)). split.
  { assert (H : forallb op_okb [FeedInav c65_word 5 (gst_at tx_t0) E1B] = true) by (vm_compute; reflexivity).
    apply op_okb_ok in H. now apply Forall_cons_iff in H. }
  split; [rewrite run_log_one; exact E|]. split; [exact Hin|]. intros H. destruct (H _ _ _ eq_refl) as (H1 & _). discriminate H1.
Qed.

(** What is true: the two values are printed in each other's place, and only for words with data
    of the kind that is named. *)
Theorem C65_word_line_partial :
  forall (C : crypto) (B : build) (S : storage) mx o word svn g b ls o' l m,
  op_ok (FeedInav word svn g b) -> feed_inav_log mx o word svn g b = Ok (ls, o') -> In (l, m) ls ->
  word_line_exchanged word svn m /\ forall k x y, m = LgWord k x y -> has_data k word b.
Proof.
  intros C B S mx o word svn g b ls o' l m Hok E Hin.
  split; intros k x y ->; destruct (word_lines mx o word svn g b ls o' l k x y Hok E Hin) as (H1 & H2 & H3); auto.
Qed.
Print Assumptions C35_zeros_leave_no_trace.
Print Assumptions C62_logging_is_transparent.
Print Assumptions C62_level_only_selects_lines.
Print Assumptions C63_nothing_is_authenticated_silently.
Print Assumptions C64_lines_are_true.
Print Assumptions C64_correct_tag_is_verified.
Print Assumptions C65_refuted.
Print Assumptions C65_word_line_partial.

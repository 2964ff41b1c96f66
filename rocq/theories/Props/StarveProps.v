(** Property C60: satellites that are new to a full storage. *)
From Coq Require Import ZArith String List Bool Lia.
From Verif Require Import Model.Prelude Model.Params Model.Gst Model.Svn Model.Bitfields Model.Tesla Model.Merkle
  Model.Dsm Model.Nav Model.Osnma
  Spec.TimeSpec Spec.CollectSpec Spec.NavSpec Spec.SystemSpec Spec.StoredSpec Spec.StarveSpec
  Proofs.Base Proofs.GstProofs Proofs.NavProofs Proofs.NavInv Proofs.SystemProofs Proofs.GetterProofs Proofs.KeyStoreProofs
  Proofs.StoredProofs Proofs.StarveProofs
  Examples.Vectors Props.SystemProps Examples.Demo Examples.Toy Examples.Transmit Props.KeyProps Props.NavProps.
Import ListNotations.
Open Scope list_scope.
Open Scope Z_scope.

(** ** C60 *)

(** Once the satellites received are not more than the entries of a subframe, one would expect
    the data of each of them to be stored when all its words are received in a subframe.

    What holds: if all the satellites received from some point on have an entry by then, they
    keep it, and the data of each is stored when its words are received in a subframe.
    (Then nothing is asked about how many there are; and without other words in between it also
    holds for a satellite that has no entry, see C28.) *)
Theorem C60_stored_satellites_partial :
  forall (C : crypto) (B : build) (S : storage), crypto_ok C -> storage_ok S ->
  forall root user slow h q o o' k, Forall op_ok (h ++ q) ->
  run (osnma_new root user slow) h = Ok o -> run o q = Ok o' ->
  (forall w, In w (inav_words q) -> exists e, stored k (o_nav o) 0 (nw_svn w) e) ->
  (forall svn e, stored k (o_nav o) 0 svn e -> exists e', stored k (o_nav o') 0 svn e') /\
  (forall svn g bits, (forall w, In w (inav_words q) -> subframe_of (nw_gst w) = g) ->
     icd_data k (words_of svn (inav_words q)) = Some bits ->
     exists e, stored k (o_nav o') 0 svn e /\ data_of k e = bits /\ stored_gst (o_nav o') 0 = Some g /\ oldest_word e = 0).
Proof.
  intros C B S HC HS root user slow h q o o' k Hok Hr Hq Hkn. split.
  - intros svn e He. destruct (known_kept HC HS root user slow h q o o' k svn e Hok Hr Hq Hkn He) as (e' & He' & _). now exists e'.
  - intros svn g bits Hg Hd.
    destruct (subframe_data HC HS root user slow h q o o' k svn g bits Hok Hr Hq Hg (or_intror (or_intror Hkn)) Hd)
      as (e & H1 & H2 & H3 & H4 & _). exists e. auto.
Qed.

(** What happens otherwise: all entries are taken, by the satellites [sats] and by [z] whose
    data is the oldest; then two satellites [a] and [b] that were not received before come, and
    their words are received in turn.  The first takes the place of [z]; but until it is
    complete its entry counts as the oldest, so that the other one takes its place, and so on.
    Neither is ever complete and nothing is ever returned for them, however long it takes. *)
Theorem C60_two_new_satellites_starve :
  forall (C : crypto) (B : build) (S : storage), crypto_ok C -> storage_ok S ->
  forall root user slow a b z sats h q o o',
  a <> z -> b <> z -> ~ In a sats -> ~ In b sats -> ~ In z sats -> Forall op_ok (h ++ q) ->
  run (osnma_new root user slow) h = Ok o -> run o q = Ok o' -> (forall k, full_with k (o_nav o) sats z) ->
  ~ In a (map nw_svn (inav_words h)) -> ~ In b (map nw_svn (inav_words h)) ->
  (forall w, In w (inav_words q) -> nw_svn w = a \/ nw_svn w = b \/ In (nw_svn w) sats) ->
  take_turns a b (map nw_svn (inav_words q)) ->
  forall k s, s = a \/ s = b ->
  (forall j e, stored k (o_nav o') j s e -> (j < nav_depth)%nat -> oldest_word e = 255 /\ e_authbits e = 0) /\
  (forall d, getter k o' s <> Ok (Some d)).
Proof.
  intros C B S HC HS root user slow a b z sats h q o o' H1 H2 H3 H4 H5 Hok Hr Hq Hf Ha Hb Hw.
  apply (starve HS HC root user slow a b z sats H1 H2 H3 H4 H5 h q o o' Hok Hr Hq Hf Ha Hb).
  intros w Hin. unfold rival. specialize (Hw w Hin). tauto.
Qed.

(** *** Twelve entries *)

(** All the words of the satellites in a subframe, in the order of reception. *)
Definition c60_subframe (t : Z) (svns : list Z) : list op :=
  flat_map (fun i => map (fun svn => FeedInav (nth i demo_nav1 []) svn (gst_at (t + 2 * Z.of_nat i)) E1B) svns) (seq 0 7).
Definition c60_range (a b : nat) : list Z := map Z.of_nat (seq a (b + 1 - a)).
(** Satellites 1 to 12; then satellite 1 sets. *)
Definition c60_h : list op := Eval vm_compute in c60_subframe tx_t0 (c60_range 1 12) ++ c60_subframe (tx_t0 + 30) (c60_range 2 12).
(** Satellite 2 sets as well, 13 and 14 rise. *)
Definition c60_q : list op := Eval vm_compute in
  c60_subframe (tx_t0 + 60) (c60_range 3 14) ++ c60_subframe (tx_t0 + 90) (c60_range 3 14).

(** Words only change the navigation data. *)
Definition nav_word {S : storage} (n : nav) (x : op) : outcome nav :=
  match x with FeedInav word svn g b => nav_feed n word svn g b | FeedOsnma _ _ _ => Panic end.
Lemma run_words {C : crypto} {B : build} {S : storage} h : forall (o : osnma) n,
  fold_outcome nav_word h (o_nav o) = Ok n -> run o h = Ok (set_nav n o).
Proof.
  induction h as [|x h IH]; intros o n H.
  - cbn [fold_outcome] in H. injection H as <-. unfold run. cbn [fold_outcome]. destruct o; reflexivity.
  - cbn [fold_outcome] in H. bind_inv H. unfold run in *. cbn [fold_outcome].
    destruct x as [word svn g b|]; [|discriminate]. cbn [nav_word] in E. cbn [step]. unfold feed_inav. rewrite E. cbn [bind].
    rewrite (IH (set_nav x0 o) n H). destruct o; reflexivity.
Qed.
Definition fullb {S : storage} (k : nav_kind) (n : nav) (sats : list Z) (z : Z) : bool :=
  let r := stored_row k n 0 in
  let front := removelast r in let e := last r (entry_new k) in
  negb (List.length r =? 0)%nat &&
  forallb (fun p => option_eqb Z.eqb (e_svn (fst p)) (Some (snd p))) (combine front sats) && (List.length front =? List.length sats)%nat &&
  option_eqb Z.eqb (e_svn e) (Some z) && forallb (fun x => oldest_word x <=? oldest_word e) front.
Lemma fullb_ok {S : storage} k n sats z : fullb k n sats z = true -> full_with k n sats z.
Proof.
  unfold fullb, full_with. generalize (stored_row k n 0). intros r. rewrite !andb_true_iff. intros ((((H0 & H1) & H2) & H3) & H4).
  assert (Hr : r <> []) by (intros ->; discriminate H0).
  exists (removelast r), (last r (entry_new k)). split; [now apply app_removelast_last|].
  assert (Hopt : forall (x : option Z) s, option_eqb Z.eqb x (Some s) = true -> x = Some s).
  { intros [x|] s E; [|discriminate E]. cbn in E. f_equal. now apply Z.eqb_eq. }
  split; [|split; [now apply Hopt|]].
  - apply Nat.eqb_eq in H2. clear - H1 H2 Hopt. revert sats H1 H2. induction (removelast r) as [|x l IH]; intros [|s sats] H1 H2; try discriminate H2; [reflexivity|].
    cbn [combine forallb fst snd] in H1. apply andb_true_iff in H1. destruct H1 as (H1 & H1'). cbn [map]. f_equal; [now apply Hopt|]. apply IH; [exact H1'|]. now injection H2.
  - intros x Hx. rewrite forallb_forall in H4. specialize (H4 x Hx). now apply Z.leb_le.
Qed.
Definition c60_sats : list Z := Eval vm_compute in rev (c60_range 2 12).
Lemma c60_full : exists n, fold_outcome (nav_word (S := small_storage)) c60_h (nav_new (S := small_storage)) = Ok n /\
  forall k, full_with (S := small_storage) k n c60_sats 1.
Proof.
  assert (H : match fold_outcome (nav_word (S := small_storage)) c60_h (nav_new (S := small_storage)) with
              | Ok n => fullb (S := small_storage) Ced n c60_sats 1 && fullb (S := small_storage) Timing n c60_sats 1
              | Panic => false end = true) by (vm_compute; reflexivity).
  destruct (fold_outcome _ _ _) as [n|]; [|discriminate H]. apply andb_true_iff in H. destruct H as (H1 & H2).
  exists n. split; [reflexivity|]. intros []; now apply fullb_ok.
Qed.
Lemma c60_h_ok : Forall op_ok c60_h.
Proof. apply op_okb_ok. vm_compute. reflexivity. Qed.
Lemma c60_h_order : in_time_order c60_h.
Proof. apply in_time_orderb. vm_compute. reflexivity. Qed.
Lemma c60_h_svns : forallb (fun s => s <=? 12) (map nw_svn (inav_words c60_h)) = true.
Proof. vm_compute. reflexivity. Qed.
Lemma c60_small_ok : storage_ok small_storage.
Proof. unfold storage_ok. cbn. lia. Qed.

(** The property is false of the storage with twelve entries: after [h] only words of the twelve
    satellites 3 to 14 are received.  Whatever they are, and however often all the words of
    satellites 13 and 14 are received: as long as these two take turns, nothing is ever
    returned for them. *)
Theorem C60_refuted : exists h, Forall op_ok h /\ in_time_order h /\
  forall (C : crypto) (B : build), crypto_ok C ->
  forall root user slow q o, Forall op_ok q ->
  (forall w, In w (inav_words q) -> 3 <= nw_svn w <= 14) -> take_turns 13 14 (map nw_svn (inav_words q)) ->
  run (S := small_storage) (osnma_new (S := small_storage) root user slow) (h ++ q) = Ok o ->
  forall k s, s = 13 \/ s = 14 ->
  (forall j e, stored (S := small_storage) k (o_nav o) j s e -> (j < nav_depth (storage := small_storage))%nat ->
     oldest_word e = 255 /\ e_authbits e = 0) /\
  (forall d, getter (S := small_storage) k o s <> Ok (Some d)).
Proof.
  exists c60_h. split; [exact c60_h_ok|]. split; [exact c60_h_order|]. intros C B HC root user slow q o' Hq Hw Ht Hr.
  generalize c60_full c60_h_ok c60_h_svns Hr. generalize c60_h. intros h (n & Hn & Hf) Hok Hsv Hrun.
  pose proof (run_words (S := small_storage) h (osnma_new (S := small_storage) root user slow) n Hn) as Hh.
  rewrite run_app, Hh in Hrun. cbn [bind] in Hrun. rewrite forallb_forall in Hsv.
  apply (C60_two_new_satellites_starve C B small_storage HC c60_small_ok root user slow 13 14 1 c60_sats h q
           (set_nav n (osnma_new (S := small_storage) root user slow)) o'); auto; try lia.
  - unfold c60_sats. cbn. lia.
  - unfold c60_sats. cbn. lia.
  - unfold c60_sats. cbn. lia.
  - apply Forall_app. now split.
  - intros H. specialize (Hsv _ H). discriminate Hsv.
  - intros H. specialize (Hsv _ H). discriminate Hsv.
  - intros w Hin. specialize (Hw w Hin). unfold c60_sats. cbn. lia.
Qed.

(** Two subframes in which all the words of the satellites 3 to 14 are received, which are not
    more satellites than entries; nothing of 13 and 14 is complete.  If satellite 14 does not
    come, satellite 13 is complete; and with 36 entries both are. *)
Definition c60_ages {S : storage} (h : list op) (svn : Z) : outcome (list (list Z)) :=
  n <- fold_outcome nav_word h nav_new ;;
  Ok (map e_age (filter (fun e => match e_svn e with Some s => s =? svn | None => false end) (stored_row Ced n 0))).
Definition c60_q13 : list op := Eval vm_compute in c60_subframe (tx_t0 + 60) (c60_range 3 13).
Definition take_turnsb (a b : Z) (svns : list Z) : bool :=
  (fix go l := match l with x :: ((y :: _) as l') => negb (x =? y) && go l' | _ => true end)
    (filter (fun s => (s =? a) || (s =? b)) svns).
Lemma take_turnsb_ok a b svns : take_turnsb a b svns = true -> take_turns a b svns.
Proof.
  unfold take_turnsb, take_turns. generalize (filter (fun s => (s =? a) || (s =? b)) svns). intros l H l1 s l2 ->.
  induction l1 as [|x l1 IH]; cbn [app] in H.
  - rewrite Z.eqb_refl in H. discriminate H.
  - apply IH. destruct (l1 ++ s :: s :: l2) as [|y l'] eqn:E; [reflexivity|]. now apply andb_true_iff in H.
Qed.
Example C60_example :
  Forall op_ok (c60_h ++ c60_q) /\ in_time_order (c60_h ++ c60_q) /\
  room_for (S := small_storage) (map nw_svn (inav_words c60_q)) /\
  (forall w, In w (inav_words c60_q) -> 3 <= nw_svn w <= 14) /\ take_turns 13 14 (map nw_svn (inav_words c60_q)) /\
  (forall k, icd_data k (words_of 13 (inav_words (firstn 84 c60_q))) = Some (c28_bits k) /\
             icd_data k (words_of 13 (inav_words (skipn 84 c60_q))) = Some (c28_bits k)) /\
  c60_ages (S := small_storage) (c60_h ++ c60_q) 13 = Ok [] /\
  c60_ages (S := small_storage) (c60_h ++ c60_q) 14 = Ok [[255; 255; 255; 255; 255]] /\
  c60_ages (S := small_storage) (c60_h ++ c60_q13) 13 = Ok [[0; 0; 0; 0; 0]] /\
  c60_ages (S := full_storage) (c60_h ++ c60_q) 13 = Ok [[0; 0; 0; 0; 0]] /\
  c60_ages (S := full_storage) (c60_h ++ c60_q) 14 = Ok [[0; 0; 0; 0; 0]].
Proof.
  split; [apply op_okb_ok; vm_compute; reflexivity|]. split; [apply in_time_orderb; vm_compute; reflexivity|].
  assert (H : forallb (fun w => (3 <=? nw_svn w) && (nw_svn w <=? 14)) (inav_words c60_q) = true) by (vm_compute; reflexivity).
  rewrite forallb_forall in H.
  assert (H' : forall w, In w (inav_words c60_q) -> 3 <= nw_svn w <= 14).
  { intros w Hw. specialize (H w Hw). apply andb_true_iff in H. rewrite !Z.leb_le in H. exact H. }
  split.
  { exists (c60_range 3 14). split; [vm_compute; repeat constructor|]. intros s Hs. apply in_map_iff in Hs. destruct Hs as (w & <- & Hw).
    specialize (H' w Hw). unfold c60_range. cbn. lia. }
  split; [exact H'|]. split; [apply take_turnsb_ok; vm_compute; reflexivity|].
  split; [intros []; split; vm_compute; reflexivity|]. vm_compute. repeat split.
Qed.

(** The satellites that are stored are served: those from 2 to 12 after [c60_h]. *)
Example C60_example_stored : exists n, fold_outcome (nav_word (S := small_storage)) c60_h (nav_new (S := small_storage)) = Ok n /\
  forall k s, 2 <= s <= 12 -> exists e, stored (S := small_storage) k n 0 s e.
Proof.
  destruct c60_full as (n & Hn & Hf). exists n. split; [exact Hn|]. intros k s Hs.
  destruct (Hf k) as (front & e & Er & Em & _). unfold stored. rewrite Er.
  assert (Hin : In (Some s) (map e_svn front)) by (rewrite Em; apply in_map; unfold c60_sats; cbn; lia).
  apply in_map_iff in Hin. destruct Hin as (x & Ex & Hx). exists x. split; [apply in_or_app; now left|exact Ex].
Qed.

Print Assumptions C60_stored_satellites_partial.
Print Assumptions C60_two_new_satellites_starve.
Print Assumptions C60_refuted.

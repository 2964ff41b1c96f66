(** The line about a word of the navigation message. *)
From Coq Require Import ZArith List Bool Lia ZifyBool ZifyNat.
From Verif Require Import Model.Prelude Model.Params Model.Gst Model.Svn Model.Bitfields
  Model.Maclt Model.Tesla Model.Merkle Model.Subframe Model.Dsm Model.MackStore Model.Nav Model.Osnma
  Model.Logging Spec.SystemSpec Spec.LogSpec
  Proofs.Base Proofs.EntryProofs Proofs.LoggingProofs Proofs.LogTrueProofs.
Import ListNotations.
Open Scope Z_scope.

Section Crypto.
Context {C : crypto} {B : build} {S : storage}.
Variable mx : option level.

Definition word_line (word : list Z) (svn : Z) (b : band) (m : message) : Prop :=
  match m with
  | LgWord k x y => x = ShownSvn svn /\ y = ShownNumber (nth 0 word 0 / 4) /\ has_data k word b
  | _ => True
  end.

Lemma selected svn e : e_svn (entry_select_svn svn e) = Some svn.
Proof.
  unfold entry_select_svn. destruct (e_svn e) as [s|] eqn:E; [|reflexivity]. destruct (s =? svn) eqn:E2; [|reflexivity].
  rewrite E. f_equal. lia.
Qed.

Lemma feed_inav_words o word svn g b : (word <> [] /\ Forall is_byte word) ->
  says (word_line word svn b) (feed_inav_log mx o word svn g b).
Proof.
  intros (H0 & Hb). pose proof (word_type_spec word H0 Hb) as Ht.
  assert (Hl : forall k e, has_data k word b ->
    says (word_line word svn b) (log_word mx k (word_type (bits_of_bytes word)) (entry_select_svn svn e))).
  { intros k e Hd. unfold log_word. apply says_log. intros m E. rewrite selected in E. cbn [unwrap bind] in E. injection E as <-.
    cbn [word_line]. rewrite Ht. auto. }
  assert (Ha : forall k e, says (word_line word svn b) (log_age mx k e)) by (intros; unfold log_age; says).
  assert (He : forall k e, says (word_line word svn b) (entry_feed_log mx k word svn b e)).
  { intros k e. unfold entry_feed_log, ced_feed_log, timing_feed_log, has_data in *. cbv zeta in *. rewrite <- Ht in Hl. destruct k.
    - apply says_lbind; [|intros _ _; apply says_lbind; [apply Ha|intros _ _; apply says_done]].
      destruct (_ && _) eqn:E; [|apply says_done]. apply (Hl Ced). lia.
    - apply says_lbind; [|intros e' _; apply says_lbind; [apply Ha|intros _ _; apply says_done]].
      assert (H6 : word_type (bits_of_bytes word) = 6 -> b = E1B -> says (word_line word svn b) (log_word mx Timing 6 (entry_select_svn svn e))).
      { intros E Eb. rewrite <- E. apply (Hl Timing). auto. }
      assert (H10 : word_type (bits_of_bytes word) = 10 -> b = E1B -> says (word_line word svn b) (log_word mx Timing 10 (entry_select_svn svn e))).
      { intros E Eb. rewrite <- E. apply (Hl Timing). auto. }
      destruct (word_type (bits_of_bytes word)) as [|[[[p|p|]|[[p|p|]|[p|p|]|]|]|[[p|[p|p|]|]|[p|p|]|]|]|]; try apply says_done;
        destruct b; try apply says_done; (apply says_lbind; [auto|intros _ _; apply says_done]). }
  unfold feed_inav_log, nav_feed_log, nav_adjust_log, nav_feed_kind_log, log_contents.
  repeat match goal with
  | |- says _ (entry_feed_log _ _ _ _ _ _) => apply He
  | _ => says1; cbv beta
  end; try trivial_line.
Qed.

Theorem word_lines o word svn g b ls o' l k x y : op_ok (FeedInav word svn g b) ->
  feed_inav_log mx o word svn g b = Ok (ls, o') -> In (l, LgWord k x y) ls ->
  x = ShownSvn svn /\ y = ShownNumber (nth 0 word 0 / 4) /\ has_data k word b.
Proof.
  intros Hok E Hin. refine (feed_inav_words o word svn g b _ _ _ E _ _ Hin).
  destruct Hok as ((Hl & Hb) & _). split; [intros ->; discriminate Hl|exact Hb].
Qed.
End Crypto.

(** Words that are received again. *)
From Coq Require Import ZArith List Bool.
From Verif Require Import Model.Prelude Model.Params Model.Gst Model.Nav Model.Osnma
  Spec.CollectSpec Spec.NavSpec Spec.SystemSpec.
Import ListNotations.
Open Scope Z_scope.

(** The calls [h] include one with OSNMA data (not all zeros) of this satellite at this time.
    Since then, OSNMA data has only come from this subframe, and from this satellite only with
    the same time or later ones. *)
Definition osnma_word_repeats (h : list op) (svn : Z) (g : gst) : Prop :=
  exists h1 data h2,
    h = h1 ++ FeedOsnma data svn g :: h2 /\ (exists b, In b data /\ b <> 0) /\
    forall data' svn' g', In (FeedOsnma data' svn' g') h2 ->
      same_subframe g g' = true /\ (svn' = svn -> g_tow g <= g_tow g').

(** The calls [h] include one with this very navigation data word, of this satellite, band and
    subframe.  Since then, navigation data words have only come from this subframe, and from this
    satellite only words of other types. *)
Definition inav_word_repeats (h : list op) (word : list Z) (svn : Z) (g : gst) (b : band) : Prop :=
  exists h1 g0 h2,
    h = h1 ++ FeedInav word svn g0 b :: h2 /\ same_subframe g0 g = true /\
    forall word' svn' g' b', In (FeedInav word' svn' g' b') h2 ->
      same_subframe g g' = true /\
      (svn' = svn -> nw_type (mkNWord word' svn' g' b') <> nw_type (mkNWord word svn g b)).

(** One sequence of calls is the other without some of the repeated words. *)
Inductive repeats_removed : list op -> list op -> Prop :=
| removed_none h : repeats_removed h h
| removed_osnma h data svn g t : osnma_word_repeats h svn g ->
    repeats_removed (h ++ FeedOsnma data svn g :: t) (h ++ t)
| removed_inav h word svn g b t : inav_word_repeats h word svn g b ->
    repeats_removed (h ++ FeedInav word svn g b :: t) (h ++ t)
| removed_more h h' h'' : repeats_removed h h' -> repeats_removed h' h'' -> repeats_removed h h''.

(** Specification of the MACK storage: what was stored, grouped by subframe. *)
From Coq Require Import ZArith List Bool.
From Verif Require Import Model.Gst Model.Bitfields.
Import ListNotations.
Open Scope Z_scope.

(** One call of the storage. *)
Record item : Type := mkItem {
  it_message : list Z;
  it_svn : Z;
  it_gst : gst;
  it_status : nma_status_t
}.

(** The calls grouped in stretches with the same time, oldest first. *)
Definition push_item (gs : list (gst * list item)) (x : item) : list (gst * list item) :=
  match rev gs with
  | (g, l) :: older => if gst_eqb g (it_gst x) then rev older ++ [(g, l ++ [x])]
                       else gs ++ [(it_gst x, [x])]
  | [] => [(it_gst x, [x])]
  end.
Definition stretches (h : list item) : list (gst * list item) := fold_left push_item h [].

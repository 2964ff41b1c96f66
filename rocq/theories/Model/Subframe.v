(** Model of galileo-osnma/src/subframe.rs. *)
From Coq Require Import ZArith List Bool.
From Verif Require Import Model.Prelude Model.Params Model.Gst.
Import ListNotations.
Open Scope Z_scope.

(** [WORDS_PER_SUBFRAME], subframe.rs:16. *)
Definition words_per_subframe : Z := 15.

(** [struct CollectSubframe], subframe.rs:25-31. *)
Record collect_subframe : Type := mkSub {
  sf_hkroot : list (list Z);
  sf_mack : list (list Z);
  sf_num_valid : list Z;
  sf_wn : Z;
  sf_subframe : Z
}.

(** [CollectSubframe::new], subframe.rs:35-43. *)
Definition subframe_new : collect_subframe :=
  mkSub (repeat (repeat 0 15) num_svns) (repeat (repeat 0 60) num_svns)
        (repeat 0 num_svns) 0 0.

(** [CollectSubframe::feed], subframe.rs:59-117.  An OSNMA data message is its list of 5
    bytes: one of HKROOT section, four of MACK section.  [usize::from(svn) - 1] cannot
    underflow because an [Svn] is at least 1. *)
Definition subframe_feed (st : collect_subframe) (osnma_data : list Z) (svn : Z) (g : gst)
  : outcome (collect_subframe * option (list Z * list Z * gst)) :=
  let hkroot_section := sub 0 1 osnma_data in
  let mack_section := sub 1 5 osnma_data in
  let word_num := (g_tow g / 2) mod words_per_subframe in
  let subframe := g_tow g / 30 in
  let st :=
    if negb (g_wn g =? sf_wn st) || negb (subframe =? sf_subframe st) then
      mkSub (sf_hkroot st) (sf_mack st) (repeat 0 num_svns) (g_wn g) subframe
    else st in
  let svn_idx := Z.to_nat (svn - 1) in
  nv <- index (sf_num_valid st) svn_idx ;;
  if negb (word_num =? nv) then Ok (st, None)
  else
    let valid := Z.to_nat nv in
    let hkroot_idx := (valid * 1)%nat in
    let mack_idx := (valid * 4)%nat in
    hk <- index (sf_hkroot st) svn_idx ;;
    hk <- copy_from hk hkroot_idx (hkroot_idx + 1) hkroot_section ;;
    hks <- set_index (sf_hkroot st) svn_idx hk ;;
    mk <- index (sf_mack st) svn_idx ;;
    mk <- copy_from mk mack_idx (mack_idx + 4) mack_section ;;
    mks <- set_index (sf_mack st) svn_idx mk ;;
    nvs <- set_index (sf_num_valid st) svn_idx (nv + 1) ;;
    let st := mkSub hks mks nvs (sf_wn st) (sf_subframe st) in
    if nv + 1 =? words_per_subframe then
      g' <- gst_new (sf_wn st) (sf_subframe st * 30) ;;
      Ok (st, Some (hk, mk, g'))
    else Ok (st, None).

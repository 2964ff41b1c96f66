(** Properties C28 to C32: the navigation data storage and what the getters return from it. *)
From Coq Require Import ZArith String List Bool Lia.
From Verif Require Import Model.Prelude Model.Params Model.Gst Model.Svn Model.Bitfields Model.Tesla Model.Merkle
  Model.Dsm Model.Nav Model.Osnma
  Spec.TimeSpec Spec.CollectSpec Spec.NavSpec Spec.SystemSpec Spec.StoredSpec
  Proofs.Base Proofs.GstProofs Proofs.NavInv Proofs.SystemProofs Proofs.GetterProofs Proofs.KeyStoreProofs
  Proofs.StoredProofs Proofs.RecentProofs
  Examples.Vectors Props.SystemProps Examples.Demo Examples.Toy Examples.Transmit Props.KeyProps.
Import ListNotations.
Open Scope list_scope.
Open Scope Z_scope.
Local Existing Instance toy_crypto.

(** ** C28 *)

(** Whatever was fed before ([h]): if the navigation data words fed in [q] are all of the
    subframe [g], and those of the satellite contain one for each field of the ICD, the data
    stored for the satellite in the current subframe is the concatenation of the fields, each
    taken from the last word that has it.  Any words of other satellites may come in between if
    there is room for all the satellites received (as in a storage of 36, see [room_36]). *)
Theorem C28_navigation_data_layout :
  forall (C : crypto) (B : build) (S : storage), crypto_ok C -> storage_ok S ->
  forall root user slow h q o o' k svn g bits, Forall op_ok (h ++ q) ->
  run (osnma_new root user slow) h = Ok o -> run o q = Ok o' ->
  (forall w, In w (inav_words q) -> subframe_of (nw_gst w) = g) ->
  (room_for (map nw_svn (inav_words (h ++ q))) \/ forall w, In w (inav_words q) -> nw_svn w = svn) ->
  icd_data k (words_of svn (inav_words q)) = Some bits ->
  exists e, stored k (o_nav o') 0 svn e /\ data_of k e = bits /\ stored_gst (o_nav o') 0 = Some g /\
    oldest_word e = 0 /\ (forall e', stored k (o_nav o') 0 svn e' -> e' = e).
Proof.
  intros C B S HC HS root user slow h q o o' k svn g bits Hok Hr Hq Hg Hroom.
  apply (subframe_data HC HS root user slow h q o o' k svn g bits Hok Hr Hq Hg). destruct Hroom as [H|H]; [left|right; left]; exact H.
Qed.

(** A subframe of other data first; then the words in reverse order. *)
Definition c28_before : list op := Eval vm_compute in tx_nav (tx_t0 - 30).
Definition c28_words : list op := Eval vm_compute in
  rev (map (fun i => FeedInav (nth i demo_nav1 []) 2 (gst_at tx_t0) E1B) (seq 0 7)).
Definition c28_bits (k : nav_kind) : list bool := match k with Ced => tx_ced demo_nav1 | Timing => tx_timing demo_nav1 end.
Definition is_ok {A} (x : outcome A) : bool := match x with Ok _ => true | Panic => false end.
Lemma is_ok_spec {A} (x : outcome A) : is_ok x = true -> exists y, x = Ok y.
Proof. destruct x as [y|]; [|discriminate]. intros _. now exists y. Qed.
Definition c28_current (r : outcome osnma) k svn : outcome (list (list bool * list Z * Z)) :=
  o <- r ;; Ok (map (fun e => (data_of k e, e_age e, e_authbits e))
     (filter (fun e => match e_svn e with Some s => s =? svn | None => false end) (stored_row k (o_nav o) 0))).
Definition two_entries : storage :=
  {| num_sats := 2; nav_depth := 3; nav_depth_sats := 6; mack_depth := 2; mack_depth_sats := 4 |}.
Example C28_example :
  Forall op_ok (c28_before ++ c28_words) /\
  (exists o o', run tx_new c28_before = Ok o /\ run o c28_words = Ok o') /\
  (forall w, In w (inav_words c28_words) -> subframe_of (nw_gst w) = gst_at tx_t0) /\
  room_for (S := two_entries) (map nw_svn (inav_words (c28_before ++ c28_words))) /\
  (forall k, icd_data k (words_of 2 (inav_words c28_words)) = Some (c28_bits k)) /\
  (forall k, c28_current (run tx_new c28_before) k 2 <> c28_current (run tx_new (c28_before ++ c28_words)) k 2).
Proof.
  split; [apply op_okb_ok; vm_compute; reflexivity|]. split.
  { destruct (is_ok_spec (run tx_new c28_before)) as (o & E); [vm_compute; reflexivity|].
    destruct (is_ok_spec (run tx_new (c28_before ++ c28_words))) as (o' & E'); [vm_compute; reflexivity|].
    exists o, o'. split; [exact E|]. rewrite run_app, E in E'. exact E'. }
  split.
  { assert (H : forallb (fun w => gst_eqb (subframe_of (nw_gst w)) (gst_at tx_t0)) (inav_words c28_words) = true)
      by (vm_compute; reflexivity).
    intros w Hw. rewrite forallb_forall in H. now apply gst_eqb_eq, H. }
  split; [exists [1; 2]; split; [vm_compute; repeat constructor|]; vm_compute; intuition congruence|].
  split; [intros []; vm_compute; reflexivity|].
  intros []; vm_compute; discriminate.
Qed.

(** ** C29 *)

(** The fields that the word carries are replaced by its bits, the others stay; the
    authentication bits are kept if the data is still the same, and are zero otherwise. *)
Theorem C29_changed_data_is_not_authenticated :
  forall (C : crypto) (B : build) (S : storage), crypto_ok C -> storage_ok S ->
  forall root user slow h o o' word svn g b k, Forall op_ok h -> run (osnma_new root user slow) h = Ok o ->
  op_ok (FeedInav word svn g b) -> feed_inav o word svn g b = Ok o' ->
  let w := mkNWord word svn g b in
  exists e', stored k (o_nav o') 0 svn e' /\
    (forall i f, nth_error (icd_fields k) i = Some f -> carries k f w = true ->
       field_bits k i (data_of k e') = nw_bits w (f_from f) (f_to f)) /\
    (forall e, stored k (o_nav o) 0 svn e ->
       (forall i f, nth_error (icd_fields k) i = Some f -> carries k f w = false ->
          field_bits k i (data_of k e') = field_bits k i (data_of k e)) /\
       (data_of k e' = data_of k e -> e_authbits e' = e_authbits e) /\
       (data_of k e' <> data_of k e -> e_authbits e' = 0)) /\
    ((forall e, ~ stored k (o_nav o) 0 svn e) -> e_authbits e' = 0).
Proof. intros C B S HC HS root user slow. exact (own_word HC HS root user slow). Qed.

(** 80 authentication bits; the same word in the next subframe keeps them, the word with the
    last bit of its ephemeris changed does not. *)
Definition c29_same : op := Eval vm_compute in FeedInav (nth 0 demo_nav2 []) 2 (gst_at (tx_t0 + 30)) E1B.
Definition c29_bit (w : list Z) : list Z := firstn 15 w ++ [Z.lxor (nth 15 w 0) 4].
Definition c29_changed : op := Eval vm_compute in FeedInav (c29_bit (nth 0 demo_nav2 [])) 2 (gst_at (tx_t0 + 30)) E1B.
Definition c29_bits (r : outcome osnma) : outcome (list Z) :=
  l <- c28_current r Ced 2 ;; Ok (map snd l).
Example C29_example : Forall op_ok (tx_nominal ++ [c29_same; c29_changed]) /\
  c29_bits (run tx_new tx_nominal) = Ok [80] /\
  c29_bits (run tx_new (tx_nominal ++ [c29_same])) = Ok [80] /\
  c29_bits (run tx_new (tx_nominal ++ [c29_changed])) = Ok [0].
Proof. split; [apply op_okb_ok; vm_compute; reflexivity|]. vm_compute. repeat split. Qed.

(** ** C30 *)

(** A word of another satellite: the entry stays as it is, or is copied to the new subframe; it
    can only be missing if there are fewer than 36 entries, all of them are taken by other
    satellites, and none of them is older. *)
Theorem C30_eviction_of_the_oldest :
  forall (C : crypto) (B : build) (S : storage), crypto_ok C -> storage_ok S ->
  forall root user slow h o o' word svn g b k s e, Forall op_ok h -> run (osnma_new root user slow) h = Ok o ->
  op_ok (FeedInav word svn g b) -> feed_inav o word svn g b = Ok o' -> s <> svn -> stored k (o_nav o) 0 s e ->
  exists e1, carried_over (o_nav o) g e e1 /\
    (stored k (o_nav o') 0 s e1 \/
     ((num_sats < 36)%nat /\
      (forall x, In x (stored_row k (o_nav o) 0) -> exists s', e_svn x = Some s' /\ s' <> svn) /\
      (forall x x1, In x (stored_row k (o_nav o) 0) -> carried_over (o_nav o) g x x1 ->
         oldest_word x1 <= oldest_word e1))).
Proof. intros C B S HC HS root user slow. exact (other_word HC HS root user slow). Qed.

(** While there are not more satellites received than entries, a satellite once received is in
    the current subframe for ever, and its data only changes when words of that satellite come. *)
Theorem C30_kept_while_there_is_room :
  forall (C : crypto) (B : build) (S : storage), crypto_ok C -> storage_ok S ->
  forall root user slow h q o o' k s e, room_for (map nw_svn (inav_words (h ++ q))) -> Forall op_ok (h ++ q) ->
  run (osnma_new root user slow) h = Ok o -> run o q = Ok o' -> stored k (o_nav o) 0 s e ->
  exists e', stored k (o_nav o') 0 s e' /\
    ((forall w, In w (inav_words q) -> nw_svn w <> s) ->
     e_data e' = e_data e /\ e_authbits e <= e_authbits e').
Proof. intros C B S HC HS root user slow h q. exact (never_lost HC HS root user slow h q). Qed.

(** In particular always, with 36 entries. *)
Theorem C30_full_storage_never_evicts :
  forall (C : crypto) (B : build) (S : storage), crypto_ok C -> storage_ok S ->
  forall root user slow h q o o' k s e, (36 <= num_sats)%nat -> Forall op_ok (h ++ q) ->
  run (osnma_new root user slow) h = Ok o -> run o q = Ok o' -> stored k (o_nav o) 0 s e ->
  exists e', stored k (o_nav o') 0 s e' /\
    ((forall w, In w (inav_words q) -> nw_svn w <> s) ->
     e_data e' = e_data e /\ e_authbits e <= e_authbits e').
Proof.
  intros C B S HC HS root user slow h q o o' k s e H36 Hok.
  exact (never_lost HC HS root user slow h q o o' k s e (room_36_words _ H36 Hok) Hok).
Qed.

(** 36 satellites after satellite 1, and satellite 1 is still there; with two entries, the
    third satellite takes the place of the older one. *)
Definition c30_words (l : list nat) : list op :=
  map (fun s => FeedInav (nth 0 demo_nav2 []) (Z.of_nat s) (gst_at (tx_t0 + 30 * Z.of_nat s)) E1B) l.
Definition c30_sats {S : storage} (r : outcome osnma) : outcome (list (option Z)) :=
  o <- r ;; Ok (map e_svn (stored_row Ced (o_nav o) 0)).
Example C30_example : storage_ok two_entries /\ Forall op_ok (c30_words (seq 1 36)) /\ (36 <= @num_sats full_storage)%nat /\
  c30_sats (run (osnma_new None None false) (c30_words (seq 1 36))) = Ok (map (fun s => Some (Z.of_nat s)) (rev (seq 1 36))) /\
  @c30_sats two_entries (@run _ _ two_entries (@osnma_new _ two_entries None None false) (c30_words [1; 2]%nat))
    = Ok [Some 2; Some 1] /\
  @c30_sats two_entries (@run _ _ two_entries (@osnma_new _ two_entries None None false) (c30_words [1; 2; 3]%nat))
    = Ok [Some 2; Some 3].
Proof.
  split; [repeat split; vm_compute; repeat constructor|]. split; [apply op_okb_ok; vm_compute; reflexivity|]. split; [vm_compute; repeat constructor|]. vm_compute. repeat split.
Qed.

(** ** C31 *)

(** What holds: the reported time is that of the subframe [g] to which the data belongs, less 30
    seconds for each subframe of received words (of whichever satellite) since the last word
    that the data is made of; or 255 times 30 seconds if there are at least as many.  So if no
    subframe is missing, it is the subframe of that word. *)
Theorem C31_reported_time_partial :
  forall (C : crypto) (B : build) (S : storage), crypto_ok C -> storage_ok S ->
  forall root user slow h o k svn d, Forall op_ok h -> (forall w, In w (inav_words h) -> 1 <= g_wn (nw_gst w)) ->
  run (osnma_new root user slow) h = Ok o -> getter k o svn = Ok (Some d) ->
  exists a g l, nth_error (nav_stretches (inav_words h)) a = Some (g, l) /\
   (time_of (nd_gst d) = time_of g - 30 * 255 \/
    exists b g' l' w i, (b <= a)%nat /\ nth_error (nav_stretches (inav_words h)) b = Some (g', l') /\
      In w l' /\ gives_field k svn i (nd_data d) w /\
      time_of (nd_gst d) = time_of g - 30 * (Z.of_nat a - Z.of_nat b) /\
      forall c gc lc w' f, (b < c <= a)%nat -> nth_error (nav_stretches (inav_words h)) c = Some (gc, lc) ->
        In w' lc -> nw_svn w' = svn -> In f (icd_fields k) -> carries k f w' = false).
Proof. intros C B S HC HS root user slow. exact (reported_time HC HS root user slow). Qed.

Theorem C31_reported_time_no_gaps_partial :
  forall (C : crypto) (B : build) (S : storage), crypto_ok C -> storage_ok S ->
  forall root user slow h o k svn d, Forall op_ok h -> (forall w, In w (inav_words h) -> 1 <= g_wn (nw_gst w)) ->
  run (osnma_new root user slow) h = Ok o -> getter k o svn = Ok (Some d) ->
  (forall c g l g' l', nth_error (nav_stretches (inav_words h)) c = Some (g, l) ->
     nth_error (nav_stretches (inav_words h)) (c + 1) = Some (g', l') -> time_of g' = time_of g + 30) ->
  exists a g l, nth_error (nav_stretches (inav_words h)) a = Some (g, l) /\
   (time_of (nd_gst d) = time_of g - 30 * 255 \/
    exists b g' l' w i, (b <= a)%nat /\ nth_error (nav_stretches (inav_words h)) b = Some (g', l') /\
      In w l' /\ gives_field k svn i (nd_data d) w /\ time_of (nd_gst d) = time_of g' /\
      forall c gc lc w' f, (b < c <= a)%nat -> nth_error (nav_stretches (inav_words h)) c = Some (gc, lc) ->
        In w' lc -> nw_svn w' = svn -> In f (icd_fields k) -> carries k f w' = false).
Proof. intros C B S HC HS root user slow. exact (reported_time_no_gaps HC HS root user slow). Qed.

(** One subframe of words; with the words of the next one the time moves on. *)
Definition c31_next : list op := Eval vm_compute in tx_nav (tx_t0 + 30).
Definition c31_fill : op := Eval vm_compute in FeedInav (nth 0 demo_nav1 []) 5 (gst_at (tx_t0 + 12)) E1B.
Definition c31_no_gaps : list op := firstn 14 tx_nominal ++ [c31_fill] ++ skipn 14 tx_nominal ++ c31_next.
Example C31_example :
  Forall op_ok c31_no_gaps /\ (forall w, In w (inav_words c31_no_gaps) -> 1 <= g_wn (nw_gst w)) /\
  map fst (nav_stretches (inav_words c31_no_gaps)) = [gst_at (tx_t0 - 30); gst_at tx_t0; gst_at (tx_t0 + 30)] /\
  tx_get (run tx_new c31_no_gaps) Ced 2 = Ok (Some (80, gst_at (tx_t0 + 30))).
Proof.
  split; [apply op_okb_ok; vm_compute; reflexivity|]. split.
  { assert (H : forallb (fun w => 1 <=? g_wn (nw_gst w)) (inav_words c31_no_gaps) = true) by (vm_compute; reflexivity).
    intros w Hw. rewrite forallb_forall in H. apply Z.leb_le, H, Hw. }
  split; vm_compute; reflexivity.
Qed.

(** The property is false: no words are received for five and a half minutes, and then one of
    satellite 5.  The words of satellite 2 are then reported to be of the subframe before that
    one, in which nothing was received. *)
Definition c31_gap : list op := Eval vm_compute in
  tx_nominal ++ [FeedInav (nth 0 demo_nav1 []) 5 (gst_at (tx_t0 + 330)) E1B].
Lemma c31_gap_ok : Forall op_ok c31_gap.
Proof. apply op_okb_ok. vm_compute. reflexivity. Qed.
Lemma c31_gap_order : in_time_order c31_gap.
Proof. apply in_time_orderb. vm_compute. reflexivity. Qed.
Lemma c31_gap_words : forallb (fun w => negb (gst_eqb (subframe_of (nw_gst w)) (gst_at (tx_t0 + 300)))) (inav_words c31_gap) = true.
Proof. vm_compute. reflexivity. Qed.
Lemma c31_gap_get : tx_get (run tx_new c31_gap) Ced 2 = Ok (Some (80, gst_at (tx_t0 + 300))).
Proof. vm_compute. reflexivity. Qed.
Theorem C31_refuted : exists root user h o d,
  Forall op_ok h /\ in_time_order h /\ run (osnma_new root user false) h = Ok o /\ getter Ced o 2 = Ok (Some d) /\
  forall w, In w (inav_words h) -> subframe_of (nw_gst w) <> nd_gst d.
Proof.
  exists (Some (tx_root tx_leaves)), (Some (tx_pub 3)), c31_gap.
  change (osnma_new _ _ _) with tx_new.
  generalize c31_gap_ok c31_gap_order c31_gap_words c31_gap_get. generalize c31_gap. intros h H1 H2 H3 H4.
  destruct (tx_get_some _ _ _ _ _ H4) as (o & d & E & G & _ & Ed).
  exists o, d. split; [exact H1|]. split; [exact H2|]. split; [exact E|]. split; [exact G|].
  intros w Hw Hg. rewrite forallb_forall in H3. specialize (H3 w Hw). rewrite Hg, Ed, gst_eqb_refl in H3. discriminate H3.
Qed.

(** ** C32 *)

(** The getters return the data of the most recent subframe held that has at least 40
    authentication bits for the satellite, ... *)
Theorem C32_most_recent_authenticated_data :
  forall (C : crypto) (B : build) (S : storage), crypto_ok C -> storage_ok S ->
  forall root user slow h o k svn d, Forall op_ok h -> run (osnma_new root user slow) h = Ok o ->
  getter k o svn = Ok (Some d) ->
  exists j e g, (j < nav_depth)%nat /\ stored k (o_nav o) j svn e /\ 40 <= e_authbits e /\
    nd_data d = data_of k e /\ nd_authbits d = e_authbits e /\
    (forall j' e', (j' < j)%nat -> stored k (o_nav o) j' svn e' -> e_authbits e' < 40) /\
    stored_gst (o_nav o) j = Some g /\ add_subframes g (- newest_word e) = Ok (nd_gst d).
Proof. intros C B S HC HS root user slow. exact (getter_some HC HS root user slow). Qed.
(** ... and nothing only if there is none. *)
Theorem C32_nothing_only_if_there_is_none :
  forall (C : crypto) (B : build) (S : storage), crypto_ok C -> storage_ok S ->
  forall root user slow h o k svn, Forall op_ok h -> run (osnma_new root user slow) h = Ok o ->
  getter k o svn = Ok None ->
  forall j e, (j < nav_depth)%nat -> stored k (o_nav o) j svn e -> e_authbits e < 40.
Proof. intros C B S HC HS root user slow. exact (getter_none HC HS root user slow). Qed.
(** The subframes held are the most recent ones in which words were received, the latest first. *)
Theorem C32_subframes_held :
  forall (C : crypto) (B : build) (S : storage), crypto_ok C -> storage_ok S ->
  forall root user slow h o j, Forall op_ok h -> run (osnma_new root user slow) h = Ok o -> (j < nav_depth)%nat ->
  stored_gst (o_nav o) j = option_map fst (nth_error (rev (nav_stretches (inav_words h))) j).
Proof. intros C B S HC HS root user slow. exact (stored_recent HC HS root user slow). Qed.
Theorem C32_latest_first :
  forall (C : crypto) (B : build) (S : storage), crypto_ok C -> storage_ok S ->
  forall root user slow h o i j g g', Forall op_ok h -> in_subframe_order h -> run (osnma_new root user slow) h = Ok o ->
  (i < j < nav_depth)%nat -> stored_gst (o_nav o) i = Some g -> stored_gst (o_nav o) j = Some g' ->
  time_of g' < time_of g.
Proof. intros C B S HC HS root user slow. exact (stored_order HC HS root user slow). Qed.

(** The data of the subframe at [t0 + 30] is not authenticated, that of [t0 - 30] is returned;
    with nothing authenticated there is none. *)
Definition c32_rows (r : outcome osnma) : outcome (list (option gst)) :=
  o <- r ;; Ok (map (stored_gst (o_nav o)) (seq 0 4)).
Example C32_example :
  tx_get (run tx_new (tx_nominal ++ [c29_changed])) Ced 2 = Ok (Some (80, gst_at (tx_t0 - 30))) /\
  c32_rows (run tx_new (tx_nominal ++ [c29_changed])) = Ok [Some (gst_at (tx_t0 + 30)); Some (gst_at (tx_t0 - 30)); None; None] /\
  tx_get (run tx_new c28_before) Ced 2 = Ok None.
Proof. vm_compute. repeat split. Qed.

Print Assumptions C28_navigation_data_layout.
Print Assumptions C29_changed_data_is_not_authenticated.
Print Assumptions C30_eviction_of_the_oldest.
Print Assumptions C30_full_storage_never_evicts.
Print Assumptions C31_reported_time_partial.
Print Assumptions C31_reported_time_no_gaps_partial.
Print Assumptions C31_refuted.
Print Assumptions C32_most_recent_authenticated_data.
Print Assumptions C32_nothing_only_if_there_is_none.
Print Assumptions C32_subframes_held.
Print Assumptions C32_latest_first.

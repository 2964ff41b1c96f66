(** The navigation data of a subframe stays in the storage for as many subframes as there is
    room for. *)
From Coq Require Import ZArith List Bool Lia ZifyBool ZifyNat Sorted.
From Verif Require Import Model.Prelude Model.Params Model.Gst Model.Svn Model.Bitfields
  Model.Tesla Model.Merkle Model.Nav Model.Osnma
  Spec.TimeSpec Spec.CollectSpec Spec.NavSpec Spec.TeslaSpec Spec.KrootSpec Spec.KeySpec Spec.SystemSpec Spec.StoredSpec
  Spec.CompleteSpec Spec.HonestSpec
  Proofs.Base Proofs.Ring Proofs.Rows Proofs.GstProofs Proofs.NavProofs Proofs.EntryProofs Proofs.NavInv
  Proofs.NavHistory Proofs.SystemProofs Proofs.GetterProofs Proofs.KeyStoreProofs Proofs.StepProofs Proofs.AlertProofs
  Proofs.StoredProofs Proofs.RecentProofs Proofs.AuthProofs.
Import ListNotations.
Open Scope Z_scope.
Ltac Zify.zify_post_hook ::= Z.div_mod_to_equations.

Section Storage.
Context {S : storage}.
Hypothesis HS : storage_ok S.

(** The rows other than the current one do not change, except for their index. *)
Lemma older_row n word s g b n' i gi : StoredProofs.nav_has n -> nav_feed n word s g b = Ok n' -> (i < nav_depth)%nat ->
  stored_gst n i = Some gi ->
  (stored_gst n 0 = Some (subframe_of g) -> (0 < i)%nat ->
     (forall k, stored_row k n' i = stored_row k n i) /\ stored_gst n' i = Some gi) /\
  (stored_gst n 0 <> Some (subframe_of g) -> (i + 1 < nav_depth)%nat ->
     (forall k, stored_row k n' (i + 1) = stored_row k n i) /\ stored_gst n' (i + 1) = Some gi).
Proof.
  intros (hs & Hrep & _) Hf Hi Hg.
  destruct (nav_feed_spec HS hs n word s g b Hrep) as (n1 & E1 & R1). assert (n1 = n') by congruence. subst n1.
  destruct (stored_snap_ex HS hs n i gi Hrep Hi Hg) as (a & sn & Ha & Hl).
  destruct (stored_snap HS hs n a sn i Hrep Ha Hl Hi) as (S1 & S2).
  destruct hs as [|s0 hs _] using rev_ind; [destruct a; discriminate Ha|].
  destruct (stored_current HS hs s0 n Hrep) as (_ & G0).
  unfold abs_feed in R1. rewrite abs_adjust_snoc, <- subframe_of_eq in R1. rewrite app_length in Hl. cbn [length] in Hl.
  split.
  - intros E Hpos. assert (Es : s_gst s0 = subframe_of g) by congruence.
    rewrite Es, gst_eqb_refl, map_last_snoc in R1.
    rewrite nth_error_app1 in Ha by lia.
    destruct (stored_snap HS _ n' a sn i R1) as (T1 & T2); [rewrite nth_error_app1 by lia; exact Ha|rewrite app_length; cbn [length]; lia|exact Hi|].
    split; [intros k; now rewrite T1, S1|congruence].
  - intros E Hlt. destruct (gst_eqb (s_gst s0) (subframe_of g)) eqn:Es; [apply gst_eqb_eq in Es; congruence|].
    rewrite map_last_snoc in R1.
    assert (Hlen : (length (hs ++ [s0]) = length hs + 1)%nat) by (rewrite app_length; reflexivity).
    destruct (stored_snap HS _ n' a sn (i + 1) R1) as (T1 & T2);
      [rewrite nth_error_app1 by lia; exact Ha|rewrite app_length; cbn [length]; lia|exact Hlt|].
    split; [intros k; now rewrite T1, S1|congruence].
Qed.

Lemma stored_same_row k n n' i j svn e : stored_row k n' j = stored_row k n i -> stored k n i svn e -> stored k n' j svn e.
Proof. unfold stored. intros ->. auto. Qed.

Section Crypto.
Context {C : crypto} {B : build}.
Hypothesis HC : crypto_ok C.
Variables (root : option (list Z)) (user : option public_key) (slow : bool).
Notation new := (osnma_new root user slow).

(** Each row is at least a subframe older than the next. *)
Lemma rows_apart h o : Forall op_ok h -> in_subframe_order h -> run new h = Ok o ->
  forall j gj, (j < nav_depth)%nat -> stored_gst (o_nav o) j = Some gj ->
  exists g0, stored_gst (o_nav o) 0 = Some g0 /\ time_of gj + 30 * Z.of_nat j <= time_of g0.
Proof.
  intros Hok Hord Hr. induction j as [|j IH]; intros gj Hj Hg; [exists gj; split; [exact Hg|lia]|].
  assert (Hex : exists gi, stored_gst (o_nav o) j = Some gi).
  { rewrite (stored_recent HC HS root user slow h o (Datatypes.S j) Hok Hr Hj) in Hg.
    rewrite (stored_recent HC HS root user slow h o j Hok Hr) by lia.
    destruct (nth_error (rev (nav_stretches (inav_words h))) j) as [(gi, l)|] eqn:E; [now exists gi|].
    apply nth_error_None in E. destruct (nth_error (rev (nav_stretches (inav_words h))) (Datatypes.S j)) eqn:E'; [|discriminate].
    pose proof (proj1 (nth_error_Some (rev (nav_stretches (inav_words h))) (Datatypes.S j)) ltac:(congruence)). lia. }
  destruct Hex as (gi & Hgi). destruct (IH gi ltac:(lia) Hgi) as (g0 & H0 & Hle). exists g0. split; [exact H0|].
  pose proof (stored_order HC HS root user slow h o j (Datatypes.S j) gi gj Hok Hord Hr ltac:(lia) Hgi Hg) as Hlt.
  destruct (stored_gst_ok HS HC root user slow h o j gi Hok Hr ltac:(lia) Hgi) as (_ & A1).
  destruct (stored_gst_ok HS HC root user slow h o (Datatypes.S j) gj Hok Hr Hj Hg) as (_ & A2).
  unfold is_subframe, secs_per_subframe in A1, A2. clear - Hle Hlt A1 A2. unfold time_of in *. lia.
Qed.

Lemma row_call h o j g : Forall op_ok h -> run new h = Ok o -> (j < nav_depth)%nat -> stored_gst (o_nav o) j = Some g ->
  exists y, In y h /\ g = subframe_of (op_gst y).
Proof.
  intros Hok Hr Hj H. rewrite (stored_recent HC HS root user slow h o j Hok Hr Hj) in H.
  destruct (nth_error (rev (nav_stretches (inav_words h))) j) as [(g', l)|] eqn:E; [|discriminate].
  cbn in H. injection H as ->. apply nth_error_In in E. apply in_rev in E. apply In_nth_error in E. destruct E as (a & Ha).
  destruct (stretch_words _ _ _ _ Ha) as (Hne & Hw). destruct l as [|w l]; [now elim Hne|].
  destruct (Hw w (or_introl eq_refl)) as (Hw1 & <-). unfold inav_words in Hw1. apply in_flat_map in Hw1.
  destruct Hw1 as (y & Hy & Hw1). exists y. split; [exact Hy|]. destruct y as [word s gy b|]; [|contradiction].
  destruct Hw1 as [<-|[]]. reflexivity.
Qed.

(** The data of the subframe [gn] is in row [j]; the rows after it have the same data. *)
Definition kept (k : nav_kind) (svn : Z) (bits : list bool) (gn : gst) (n : nav) (j : nat) (e : entry) : Prop :=
  (j < nav_depth)%nat /\ stored_gst n j = Some gn /\ stored k n j svn e /\ data_of k e = bits /\ oldest_word e = 0.
Definition rows_same (k : nav_kind) (svn : Z) (bits : list bool) (n : nav) (j : nat) : Prop :=
  forall i, (i <= j)%nat -> exists e, stored k n i svn e /\ data_of k e = bits.

Lemma same_fields k e e' : entry_ok k e -> entry_ok k e' ->
  (forall i f, nth_error (icd_fields k) i = Some f -> field_bits k i (data_of k e') = field_bits k i (data_of k e)) ->
  data_of k e' = data_of k e.
Proof.
  intros He He' H. rewrite !data_of_bits, !message_bits_fields. f_equal. apply map_ext_in. intros i Hi. apply in_seq in Hi.
  destruct (nth_error (icd_fields k) i) as [f|] eqn:Ef.
  - rewrite <- !(field_of_data k i f) by exact Ef. now apply (H i f).
  - apply nth_error_None in Ef. destruct k; cbn in Ef, Hi; lia.
Qed.

Lemma stored_entry_ok h o k j svn e : Forall op_ok h -> run new h = Ok o -> (j < nav_depth)%nat -> stored k (o_nav o) j svn e -> entry_ok k e.
Proof.
  intros Hok Hr Hj (Hin & _). destruct (stored_row_ok HS (o_nav o) j k (reach_has HC HS root user slow _ _ Hok Hr) Hj) as (Hrow & _).
  exact (row_ok_in k _ e Hrow Hin).
Qed.

(** A word whose fields are those of the data leaves the data. *)
Lemma row0_same h o o' word s g b k svn bits : room_for (map op_svn (h ++ [FeedInav word s g b])) -> Forall op_ok (h ++ [FeedInav word s g b]) ->
  run new h = Ok o -> feed_inav o word s g b = Ok o' -> repeats k svn bits [mkNWord word s g b] ->
  (exists e, stored k (o_nav o) 0 svn e /\ data_of k e = bits) ->
  exists e, stored k (o_nav o') 0 svn e /\ data_of k e = bits.
Proof.
  intros Hroom Hokx Hr Hs Hrep (e & He & Hb). pose proof Hokx as Hok. apply Forall_app in Hok. destruct Hok as (Hok & Hx).
  apply Forall_cons_iff in Hx. destruct Hx as (Hx & _).
  assert (Hd : (0 < nav_depth)%nat) by apply (nv_sizes HS).
  assert (Hr' : run new (h ++ [FeedInav word s g b]) = Ok o').
  { rewrite run_app, Hr. unfold run. cbn [bind fold_outcome step]. now rewrite Hs. }
  destruct (Z.eq_dec svn s) as [->|Hne].
  - destruct (own_word HC HS root user slow h o o' word s g b k Hok Hr Hx Hs) as (e' & He' & F1 & F2 & _).
    destruct (F2 e He) as (F3 & _). exists e'. split; [exact He'|]. rewrite <- Hb.
    apply same_fields; [eapply stored_entry_ok; eauto|eapply (stored_entry_ok _ _ k 0 s e' Hokx Hr'); eauto|].
    intros i f Hf. destruct (carries k f (mkNWord word s g b)) eqn:Ec; [|now apply (F3 i f)].
    rewrite (F1 i f Hf Ec), Hb. apply (Hrep _ i f); auto. now left.
  - destruct (other_word_room HC HS root user slow h o o' word s g b k svn e Hok Hr Hx Hs Hne He (room_words _ Hroom)) as (e1 & Hco & He1).
    destruct (carried_cases _ _ _ _ Hco) as (D1 & _). exists e1. split; [exact He1|]. rewrite <- Hb. unfold data_of. now rewrite D1.
Qed.

Lemma grown_kept k svn bits gn n n' j e : nav_grown n n' -> kept k svn bits gn n j e -> e_authbits e <= 65535 ->
  exists e', kept k svn bits gn n' j e' /\ e_authbits e <= e_authbits e'.
Proof.
  intros G (Hj & Hg & Hst & Hb & Ho) Hle. destruct (grown_stored _ _ k j svn e G Hst) as (e' & He' & G1 & G2 & G3 & G4).
  exists e'. split.
  - split; [exact Hj|]. split; [now rewrite (grown_gst _ _ j G)|]. split; [exact He'|].
    split; [unfold data_of; now rewrite G1|unfold oldest_word in *; now rewrite G2].
  - lia.
Qed.

Theorem kept_step h o x o' k svn bits gn j e : room_for (map op_svn (h ++ [x])) -> Forall op_ok (h ++ [x]) -> in_subframe_order (h ++ [x]) ->
  run new h = Ok o -> step o x = Ok o' -> kept k svn bits gn (o_nav o) j e ->
  time_of gn < time_of (subframe_of (op_gst x)) < time_of gn + 30 * Z.of_nat nav_depth ->
  exists j' e', kept k svn bits gn (o_nav o') j' e' /\ e_authbits e <= e_authbits e' /\
    (rows_same k svn bits (o_nav o) j -> repeats k svn bits (inav_words [x]) -> rows_same k svn bits (o_nav o') j').
Proof.
  intros Hroom Hokx Hord Hr Hs Hk Ht. pose proof Hokx as Hok. apply Forall_app in Hok. destruct Hok as (Hok & Hx).
  apply Forall_cons_iff in Hx. destruct Hx as (Hx & _). pose proof Hk as (Hj & Hg & Hst & Hb & Ho).
  pose proof (reach_has HC HS root user slow _ _ Hok Hr) as Hn.
  assert (Ha : e_authbits e <= 65535) by (pose proof (stored_entry_ok h o k j svn e Hok Hr Hj Hst) as [_ _ _ Ha _ _]; lia).
  destruct x as [word s g b|data s g]; cbn [step op_gst] in *.
  - pose proof Hs as Hf. unfold feed_inav in Hf. bind_inv Hf. injection Hf as <-.
    destruct (older_row (o_nav o) word s g b x j gn Hn E Hj Hg) as (O1 & O2).
    assert (Hord0 : in_subframe_order h) by (apply (in_subframe_order_app _ _ Hord)).
    destruct (rows_apart h o Hok Hord0 Hr j gn Hj Hg) as (g0 & H0 & Hap).
    assert (Hd : (0 < nav_depth)%nat) by lia.
    set (nw := mkNWord word s g b) in *.
    assert (Hrow0 : repeats k svn bits [nw] -> (exists e0, stored k (o_nav o) 0 svn e0 /\ data_of k e0 = bits) ->
      exists e0, stored k x 0 svn e0 /\ data_of k e0 = bits).
    { intros Hrep He0. exact (row0_same h o _ word s g b k svn bits Hroom Hokx Hr Hs Hrep He0). }
    cbn [set_nav o_nav inav_words flat_map app]. fold nw.
    assert (Hdec : g0 = subframe_of g \/ g0 <> subframe_of g).
    { destruct (gst_eqb g0 (subframe_of g)) eqn:Eq; [left; now apply gst_eqb_eq|]. right. intros ->. rewrite gst_eqb_refl in Eq. discriminate. }
    destruct Hdec as [->|Hne].
    + assert (Hpos : (0 < j)%nat).
      { destruct j as [|j]; [|lia]. assert (gn = subframe_of g) by congruence. subst gn. lia. }
      destruct (O1 H0 Hpos) as (R1 & R2). exists j, e. split; [|split; [lia|]].
      * split; [exact Hj|]. split; [exact R2|]. split; [eapply stored_same_row; eauto|auto].
      * intros Hsame Hrep i Hi. destruct i as [|i].
        -- apply Hrow0; [exact Hrep|]. apply Hsame. lia.
        -- destruct (Hsame (Datatypes.S i) Hi) as (ei & Hei & Hbi). exists ei. split; [|exact Hbi].
           assert (Hgi : exists gi, stored_gst (o_nav o) (Datatypes.S i) = Some gi).
           { pose proof (stored_started HS _ k (Datatypes.S i) svn ei Hn ltac:(lia) Hei) as Hnn.
             destruct (stored_gst (o_nav o) (Datatypes.S i)) as [gi|]; [now exists gi|now elim Hnn]. }
           destruct Hgi as (gi & Hgi).
           destruct (older_row (o_nav o) word s g b x (Datatypes.S i) gi Hn E ltac:(lia) Hgi) as (P1 & _).
           destruct (P1 H0 ltac:(lia)) as (Q1 & _). eapply stored_same_row; eauto.
    + assert (Hlt : (j + 1 < nav_depth)%nat).
      { destruct (row_call h o 0 g0 Hok Hr Hd H0) as (y & Hy & Ey).
        pose proof (last_time h _ Hord y ltac:(apply in_or_app; now left)) as Hly. rewrite <- Ey in Hly. cbn [op_gst] in Hly.
        destruct (stored_gst_ok HS HC root user slow h o 0 g0 Hok Hr Hd H0) as (A0 & A1).
        destruct (subframe_of_ok g (op_gst_ok _ Hx)) as (B0 & B1).
        assert (time_of g0 <> time_of (subframe_of g)) by (intros Eq; apply Hne; now apply time_of_inj).
        unfold is_subframe, secs_per_subframe in A1, B1. clear - Hap Hly A1 B1 H Ht. unfold time_of in *. lia. }
      destruct (O2 ltac:(congruence) Hlt) as (R1 & R2). exists (j + 1)%nat, e. split; [|split; [lia|]].
      * split; [exact Hlt|]. split; [exact R2|]. split; [eapply stored_same_row; eauto|auto].
      * intros Hsame Hrep i Hi. destruct i as [|i].
        -- apply Hrow0; [exact Hrep|]. apply Hsame. lia.
        -- destruct (Hsame i ltac:(lia)) as (ei & Hei & Hbi). exists ei. split; [|exact Hbi].
           assert (Hgi : exists gi, stored_gst (o_nav o) i = Some gi).
           { pose proof (stored_started HS _ k i svn ei Hn ltac:(lia) Hei) as Hnn.
             destruct (stored_gst (o_nav o) i) as [gi|]; [now exists gi|now elim Hnn]. }
           destruct Hgi as (gi & Hgi).
           destruct (older_row (o_nav o) word s g b x i gi Hn E ltac:(lia) Hgi) as (_ & P1).
           destruct (P1 ltac:(congruence) ltac:(lia)) as (Q1 & _). rewrite Nat.add_1_r in Q1. eapply stored_same_row; eauto.
  - apply feed_osnma_grown in Hs. destruct (grown_kept k svn bits gn _ _ j e Hs Hk Ha) as (e' & Hk' & Hle).
    exists j, e'. split; [exact Hk'|]. split; [exact Hle|]. intros Hsame _ i Hi. destruct (Hsame i Hi) as (ei & Hei & Hbi).
    destruct (grown_stored _ _ k i svn ei Hs Hei) as (ei' & Hei' & G1 & _). exists ei'. split; [exact Hei'|].
    rewrite <- Hbi. unfold data_of. now rewrite G1.
Qed.

(** What the getter then returns. *)
Theorem kept_getter h o k svn bits gn j e : Forall op_ok h -> (forall w, In w (inav_words h) -> 1 <= g_wn (nw_gst w)) ->
  run new h = Ok o -> kept k svn bits gn (o_nav o) j e -> 40 <= e_authbits e ->
  exists d, getter k o svn = Ok (Some d) /\ (rows_same k svn bits (o_nav o) j -> nd_data d = bits).
Proof.
  intros Hok Hwn Hr (Hj & Hg & Hst & Hb & Ho) Ha.
  destruct (getter_total HC HS root user slow h o k svn Hok Hwn Hr) as ([d|] & Hget).
  - exists d. split; [exact Hget|]. intros Hsame.
    destruct (getter_some HC HS root user slow h o k svn d Hok Hr Hget) as (i & ei & gi & Hi & Hsti & Hai & Hd & _ & Hfirst & _).
    destruct (Nat.le_gt_cases i j) as [Hle|Hgt].
    + destruct (Hsame i Hle) as (ei' & Hsti' & Hbi). rewrite Hd, <- Hbi.
      pose proof (reach_has HC HS root user slow _ _ Hok Hr) as Hn.
      apply (nav_has_stored HS _ _ _ _ _ Hn Hi) in Hsti, Hsti'. congruence.
    + specialize (Hfirst j e Hgt Hst). lia.
  - pose proof (getter_none HC HS root user slow h o k svn Hok Hr Hget j e Hj Hst). lia.
Qed.

End Crypto.
End Storage.

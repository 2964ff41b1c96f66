(** Lemmas about Model/TestVectors.v. *)
From Coq Require Import ZArith List Bool Lia Permutation.
From Verif Require Import Model.Prelude Model.Params Model.Gst Model.Svn Model.Nav Model.Osnma Model.Transport Model.Apps
  Model.Serial Model.TestVectors
  Spec.TimeSpec Spec.CollectSpec Spec.SystemSpec Spec.TransportSpec Spec.AppsSpec Spec.VectorsSpec
  Proofs.Base Proofs.GstProofs Proofs.TransportProofs Proofs.AppsProofs.
Import ListNotations.
Open Scope list_scope.
Open Scope Z_scope.
Ltac Zify.zify_post_hook ::= Z.div_mod_to_equations.

(** ** Hexadecimal text *)

Lemma hex_value_char c d : hex_value c = Some d <-> hex_char c d.
Proof.
  unfold hex_value, hex_char. split.
  - intros H. destruct ((48 <=? c) && (c <=? 57)) eqn:E1; [assert (c - 48 = d) by congruence; lia|].
    destruct ((97 <=? c) && (c <=? 102)) eqn:E2; [assert (c - 87 = d) by congruence; lia|].
    destruct ((65 <=? c) && (c <=? 70)) eqn:E3; [assert (c - 55 = d) by congruence; lia|discriminate].
  - intros H. destruct ((48 <=? c) && (c <=? 57)) eqn:E1; [f_equal; lia|].
    destruct ((97 <=? c) && (c <=? 102)) eqn:E2; [f_equal; lia|].
    destruct ((65 <=? c) && (c <=? 70)) eqn:E3; [f_equal; lia|lia].
Qed.

Lemma list_by_2 {A} (P : list A -> Prop) : P [] -> (forall x, P [x]) -> (forall x y l, P l -> P (x :: y :: l)) -> forall l, P l.
Proof.
  intros H0 H1 H2. assert (H : forall l, P l /\ forall x, P (x :: l)).
  { induction l as [|y l [IH1 IH2]]; auto. }
  intros l. apply H.
Qed.

Lemma hex_decode_text s : forall l, hex_decode s = Some l <-> hex_text s l.
Proof.
  induction s as [|x|x y s IH] using list_by_2; intros l.
  - split; intros H; [assert (l = []) by (cbn [hex_decode] in H; congruence); subst; constructor|]. now inversion H.
  - split; intros H; [discriminate|]. inversion H.
  - cbn [hex_decode]. split.
    + destruct (hex_value x) as [a|] eqn:Ea; [|discriminate]. destruct (hex_value y) as [b|] eqn:Eb; [|discriminate].
      destruct (hex_decode s) as [l'|] eqn:El; [|discriminate]. intros H.
      assert (l = 16 * a + b :: l') by congruence. subst l. constructor; [now apply hex_value_char..|now apply IH].
    + intros H. inversion H as [|c1 c2 d1 d2 s' l' H1 H2 H3]; subst. apply hex_value_char in H1, H2. apply IH in H3.
      now rewrite H1, H2, H3.
Qed.

Lemma hex_text_bytes s l : hex_text s l -> Forall is_byte l.
Proof.
  induction 1 as [|c1 c2 d1 d2 s l H1 H2 _ IH]; constructor; [|exact IH]. unfold is_byte. unfold hex_char in *. lia.
Qed.

(** ** Numbers *)

Lemma fold_digits_grow ds : forall acc, 0 <= acc -> Forall (fun c => 48 <= c <= 57) ds ->
  acc <= fold_left (fun v c => 10 * v + (c - 48)) ds acc.
Proof.
  induction ds as [|c ds IH]; intros acc Ha H; cbn [fold_left]; [lia|]. apply Forall_cons_iff in H. destruct H as [Hc H].
  specialize (IH (10 * acc + (c - 48)) ltac:(lia) H). lia.
Qed.

Lemma parse_digits_iff max ds : forall acc n, 0 <= acc ->
  (parse_digits max acc ds = Some n /\ acc <= max) <->
  (Forall (fun c => 48 <= c <= 57) ds /\ n = fold_left (fun v c => 10 * v + (c - 48)) ds acc /\ n <= max).
Proof.
  induction ds as [|c ds IH]; intros acc n Ha; cbn [parse_digits fold_left].
  - split; [intros [H Hm]; assert (n = acc) by congruence; subst; auto|intros (_ & -> & Hm); auto].
  - destruct ((48 <=? c) && (c <=? 57)) eqn:Ec.
    + destruct (10 * acc + (c - 48) <=? max) eqn:Em.
      * specialize (IH (10 * acc + (c - 48)) n ltac:(lia)). split.
        -- intros [H Hm]. apply Z.leb_le in Em. destruct (proj1 IH (conj H Em)) as (H1 & H2 & H3). split; [constructor; [lia|exact H1]|auto].
        -- intros (H1 & H2 & H3). apply Forall_cons_iff in H1. destruct H1 as [_ H1].
           destruct (proj2 IH (conj H1 (conj H2 H3))) as [H Hm]. split; [exact H|lia].
      * split; [intros [H _]; discriminate|]. intros (H1 & H2 & H3). apply Forall_cons_iff in H1. destruct H1 as [_ H1].
        pose proof (fold_digits_grow ds (10 * acc + (c - 48)) ltac:(lia) H1). lia.
    + split; [intros [H _]; discriminate|]. intros (H1 & _). apply Forall_cons_iff in H1. destruct H1 as [H1 _]. lia.
Qed.

Lemma parse_number s n : parse 4294967295 s = Some n <-> number_text s n.
Proof.
  assert (H0 : forall ds, parse_digits 4294967295 0 ds = Some n <->
    (Forall (fun c => 48 <= c <= 57) ds /\ n = fold_left (fun v c => 10 * v + (c - 48)) ds 0 /\ n < 2 ^ 32)).
  { intros ds. pose proof (parse_digits_iff 4294967295 ds 0 n (Z.le_refl 0)) as H. change (2 ^ 32) with 4294967296. split.
    - intros E. assert (H0 : 0 <= 4294967295) by lia. destruct (proj1 H (conj E H0)) as (H1 & H2 & H3). split; [exact H1|]. split; [exact H2|lia].
    - intros (H1 & H2 & H3). apply H. split; [exact H1|]. split; [exact H2|lia]. }
  unfold number_text, parse. destruct s as [|c r].
  { split; [discriminate|]. intros (ds & [<-|E] & Hn & _); [now elim Hn|discriminate]. }
  destruct (c =? 43) eqn:Ec.
  - apply Z.eqb_eq in Ec. subst c. destruct r as [|c r].
    + split; [discriminate|]. intros (ds & [<-|E] & Hn & Hd & _).
      * apply Forall_cons_iff in Hd. lia.
      * assert (ds = []) by congruence. now elim Hn.
    + rewrite H0. split.
      * intros H. exists (c :: r). split; [now right|]. split; [discriminate|]. exact H.
      * intros (ds & [<-|E] & Hn & Hd & H).
        -- apply Forall_cons_iff in Hd. lia.
        -- assert (ds = c :: r) by congruence. subst ds. auto.
  - rewrite H0. split.
    + intros H. exists (c :: r). split; [now left|]. split; [discriminate|]. exact H.
    + intros (ds & [<-|E] & Hn & H); [exact H|]. assert (c = 43) by congruence. lia.
Qed.

(** ** Lines and fields *)

Lemma not_in_snoc {A} (x : A) l c : ~ In x l -> c <> x -> ~ In x (l ++ [c]).
Proof. intros H1 H2 H. apply in_app_or in H. destruct H as [H|[H|[]]]; auto. Qed.

Lemma strip_cr_cases l : (exists l', l = l' ++ [13] /\ strip_cr l = l') \/ ((forall l', l <> l' ++ [13]) /\ strip_cr l = l).
Proof.
  unfold strip_cr. destruct (rev l) as [|c r] eqn:E.
  - right. assert (l = []) by (rewrite <- (rev_involutive l), E; reflexivity). subst l. split; [|reflexivity].
    intros l' H. now apply app_cons_not_nil in H.
  - assert (l = rev r ++ [c]) by (rewrite <- (rev_involutive l), E; reflexivity). subst l. destruct (c =? cr) eqn:Ec.
    + left. apply Z.eqb_eq in Ec. subst c. exists (rev r). auto.
    + right. split; [|reflexivity]. intros l' H. apply app_inj_tail in H. destruct H as [_ ->]. discriminate.
Qed.

Lemma str_lines_sound s : forall l, ~ In 10 l -> lines_of (l ++ s) (str_lines l s).
Proof.
  induction s as [|c s IH]; intros l Hl; cbn [str_lines].
  - rewrite app_nil_r. destruct l as [|c l]; constructor; [discriminate|exact Hl].
  - destruct (c =? lf) eqn:Ec.
    + apply Z.eqb_eq in Ec. subst c. specialize (IH [] (@in_nil _ _)). cbn [app] in IH.
      destruct (strip_cr_cases l) as [(l' & -> & ->)|(H & ->)].
      * rewrite <- app_assoc. apply lines_crlf; [|exact IH]. intros K. apply Hl, in_or_app. now left.
      * now apply lines_lf.
    + apply Z.eqb_neq in Ec. specialize (IH (l ++ [c]) (not_in_snoc _ _ _ Hl Ec)). now rewrite <- app_assoc in IH.
Qed.

Lemma str_lines_app a : forall l s, ~ In 10 a -> str_lines l (a ++ s) = str_lines (l ++ a) s.
Proof.
  induction a as [|c a IH]; intros l s H; cbn [str_lines app]; [now rewrite app_nil_r|].
  assert (Hc : c =? lf = false) by (apply Z.eqb_neq; intros ->; apply H; now left). rewrite Hc, IH.
  - now rewrite <- app_assoc.
  - intros K. apply H. now right.
Qed.

Lemma str_lines_complete s ls : lines_of s ls -> str_lines [] s = ls.
Proof.
  induction 1 as [|l Hn H|l s ls H Hcr _ IH|l s ls H _ IH].
  - reflexivity.
  - rewrite <- (app_nil_r l) at 1. rewrite str_lines_app by exact H. cbn [app str_lines]. destruct l; [now elim Hn|reflexivity].
  - rewrite str_lines_app by exact H. cbn [app str_lines]. change (10 =? lf) with true. cbn iota. rewrite IH. f_equal.
    destruct (strip_cr_cases l) as [(l' & -> & _)|(_ & ->)]; [|reflexivity]. now elim (Hcr l').
  - rewrite str_lines_app by exact H. cbn [app]. change (13 :: 10 :: s) with ([13] ++ 10 :: s). rewrite str_lines_app.
    2: { intros [K|[]]; discriminate. }
    cbn [str_lines]. change (10 =? lf) with true. cbn iota. rewrite IH. f_equal.
    destruct (strip_cr_cases (l ++ [13])) as [(l' & E & ->)|(K & _)]; [|now elim (K l)].
    apply app_inj_tail in E. destruct E as [-> _]. reflexivity.
Qed.

Lemma lines_of_iff s ls : str_lines [] s = ls <-> lines_of s ls.
Proof.
  split; [|apply str_lines_complete]. intros <-. exact (str_lines_sound s [] (@in_nil _ _)).
Qed.

Lemma split_plain_field sep a : forall f s, ~ In sep a -> split_char sep f (a ++ s) = split_char sep (f ++ a) s.
Proof.
  induction a as [|c a IH]; intros f s H; cbn [split_char app]; [now rewrite app_nil_r|].
  assert (Hc : c =? sep = false) by (apply Z.eqb_neq; intros ->; apply H; now left). rewrite Hc, IH.
  - now rewrite <- app_assoc.
  - intros K. apply H. now right.
Qed.

(** The first field is up to the first separator. *)
Lemma split_cases sep s : forall f, ~ In sep f ->
  (split_char sep f s = [f ++ s] /\ ~ In sep s) \/
  (exists a r, s = a ++ sep :: r /\ ~ In sep a /\ split_char sep f s = (f ++ a) :: split_char sep [] r).
Proof.
  induction s as [|c s IH]; intros f Hf; cbn [split_char].
  - left. rewrite app_nil_r. auto.
  - destruct (c =? sep) eqn:Ec.
    + apply Z.eqb_eq in Ec. subst c. right. exists [], s. rewrite app_nil_r. auto.
    + apply Z.eqb_neq in Ec. destruct (IH (f ++ [c]) (not_in_snoc _ _ _ Hf Ec)) as [(E & H)|(a & r & E & H & E')].
      * left. rewrite E, <- app_assoc. split; [reflexivity|]. intros [K|K]; auto.
      * right. exists (c :: a), r. rewrite E'. split; [now rewrite E|]. split.
        -- intros [K|K]; auto.
        -- now rewrite <- app_assoc.
Qed.

Lemma split_nonempty sep s : forall f, split_char sep f s <> [].
Proof. induction s as [|c s IH]; intros f; cbn [split_char]; [discriminate|]. destruct (c =? sep); [discriminate|apply IH]. Qed.

Lemma split_three line a b c more :
  split_char 44 [] line = a :: b :: c :: more ->
  exists rest, line = a ++ [44] ++ b ++ [44] ++ c ++ rest /\
    ~ In 44 a /\ ~ In 44 b /\ ~ In 44 c /\ (rest = [] \/ exists more, rest = 44 :: more).
Proof.
  intros H. destruct (split_cases 44 line [] (@in_nil _ _)) as [(E & Hn)|(x & r & E & Hx & E')]; [congruence|].
  rewrite E' in H. cbn [app] in H.
  destruct (split_cases 44 r [] (@in_nil _ _)) as [(E2 & Hn)|(y & r2 & E2 & Hy & E2')]; [rewrite E2 in H; congruence|].
  rewrite E2' in H. cbn [app] in H.
  destruct (split_cases 44 r2 [] (@in_nil _ _)) as [(E3 & Hn)|(z & r3 & E3 & Hz & E3')].
  - rewrite E3 in H. cbn [app] in H. assert (x = a /\ y = b /\ r2 = c) as (-> & -> & ->) by (repeat split; congruence).
    exists []. rewrite app_nil_r. subst. auto 10.
  - rewrite E3' in H. cbn [app] in H. assert (x = a /\ y = b /\ z = c) as (-> & -> & ->) by (repeat split; congruence).
    exists (44 :: r3). subst. split; [reflexivity|]. eauto 10.
Qed.

Lemma split_three_back a b c rest : ~ In 44 a -> ~ In 44 b -> ~ In 44 c -> (rest = [] \/ exists more, rest = 44 :: more) ->
  exists more, split_char 44 [] (a ++ [44] ++ b ++ [44] ++ c ++ rest) = a :: b :: c :: more.
Proof.
  intros Ha Hb Hc Hr. rewrite split_plain_field by exact Ha. cbn [app split_char]. change (44 =? 44) with true. cbn iota.
  rewrite split_plain_field by exact Hb. cbn [app split_char]. change (44 =? 44) with true. cbn iota.
  rewrite split_plain_field by exact Hc. cbn [app]. destruct Hr as [->|[more ->]]; cbn [split_char].
  - now exists [].
  - change (44 =? 44) with true. cbn iota. eauto.
Qed.

(** ** Pages *)

Lemma sub_at {A} i j (a b c : list A) : length a = i -> length b = (j - i)%nat -> sub i j (a ++ b ++ c) = b.
Proof.
  intros Ha Hb. unfold sub. rewrite skipn_app, skipn_all2 by lia. rewrite Ha, Nat.sub_diag. cbn [skipn app].
  rewrite firstn_app, <- Hb, Nat.sub_diag, firstn_all. cbn [firstn]. apply app_nil_r.
Qed.

Lemma page_bits_length p : page_ok p -> length (page_bits p) = 240%nat.
Proof.
  intros (_ & H1 & _ & H2 & H3 & H4 & _ & H5 & _ & H6 & H7 & H8 & H9). unfold page_bits.
  rewrite !app_length, firstn_length, skipn_length, !length_bits_of_bytes. cbn [length]. lia.
Qed.

Lemma page_bytes_length p : page_ok p -> length (page_bytes p) = 30%nat.
Proof. intros H. apply length_bytes_of_bits. now rewrite page_bits_length. Qed.
Lemma page_bytes_bits p : page_ok p -> bits_of_bytes (page_bytes p) = page_bits p.
Proof. intros H. apply (bits_of_bytes_bits 30). now rewrite page_bits_length. Qed.
Lemma page_bytes_bytes p : page_ok p -> Forall is_byte (page_bytes p).
Proof. intros H. apply (bytes_of_bits_are_bytes 30). now rewrite page_bits_length. Qed.

Ltac field_at A C :=
  match goal with |- sub ?i ?j ?l = ?f => replace l with (A ++ f ++ C); [apply sub_at|] end.

Lemma page_message_packet svn g p start n : page_ok p -> 0 <= start -> g = gst_at (start + 2 * Z.of_nat n) ->
  page_message svn g (page_bytes p) = page_packet start (n, svn, p).
Proof.
  intros Hp Hs ->. unfold page_message. rewrite page_bytes_bits by exact Hp.
  destruct Hp as (Bw & Lw & Bo & Lo & Ls & Lp & Bc & Lc & Bs & Le & Let & Lod & Lot). unfold page_packet. cbn [g_wn g_tow gst_at].
  set (W1 := firstn 112 (bits_of_bytes (pg_word p))). set (W2 := skipn 112 (bits_of_bytes (pg_word p))).
  assert (LW1 : length W1 = 112%nat) by (unfold W1; rewrite firstn_length, length_bits_of_bytes; lia).
  assert (LW2 : length W2 = 16%nat) by (unfold W2; rewrite skipn_length, length_bits_of_bytes; lia).
  set (O := bits_of_bytes (pg_osnma p)). assert (LO : length O = 40%nat) by (unfold O; rewrite length_bits_of_bytes; lia).
  set (CR := bits_of_bytes (pg_crc p)). assert (LC : length CR = 24%nat) by (unfold CR; rewrite length_bits_of_bytes; lia).
  set (SS := bits_of_bytes [pg_ssp p]). assert (LS : length SS = 8%nat) by reflexivity.
  assert (EP : page_bits p = pg_even p ++ W1 ++ pg_even_tail p ++ pg_odd p ++ W2 ++ O ++ pg_sar p ++ pg_spare p ++ CR ++ SS ++ pg_odd_tail p).
  { unfold page_bits. now rewrite <- !app_assoc. }
  rewrite EP. clear EP.
  assert (F1 : forall X, sub 2 (2 + 112) (pg_even p ++ W1 ++ X) = W1) by (intros X; apply sub_at; lia).
  assert (F2 : forall X, sub 122 (122 + 16) (pg_even p ++ W1 ++ pg_even_tail p ++ pg_odd p ++ W2 ++ X) = W2).
  { intros X. rewrite !(app_assoc _ _ (W2 ++ X)). apply sub_at; [|lia]. rewrite !app_length. lia. }
  assert (F3 : forall X, sub (120 + 2 + 16) (120 + 2 + 16 + 40) (pg_even p ++ W1 ++ pg_even_tail p ++ pg_odd p ++ W2 ++ O ++ X) = O).
  { intros X. rewrite !(app_assoc _ _ (O ++ X)). apply sub_at; [|lia]. rewrite !app_length. lia. }
  assert (F4 : forall X, sub (120 + 2 + 16 + 40) (120 + 2 + 16 + 40 + 24)
      (pg_even p ++ W1 ++ pg_even_tail p ++ pg_odd p ++ W2 ++ O ++ pg_sar p ++ pg_spare p ++ X) = pg_sar p ++ pg_spare p).
  { intros X. rewrite (app_assoc (pg_sar p)). rewrite !(app_assoc _ _ ((pg_sar p ++ pg_spare p) ++ X)). apply sub_at; rewrite !app_length; lia. }
  assert (F5 : forall X, sub (120 + 2 + 16 + 40 + 22) (120 + 2 + 16 + 40 + 22 + 2)
      (pg_even p ++ W1 ++ pg_even_tail p ++ pg_odd p ++ W2 ++ O ++ pg_sar p ++ pg_spare p ++ X) = pg_spare p).
  { intros X. rewrite !(app_assoc _ _ (pg_spare p ++ X)). apply sub_at; [|lia]. rewrite !app_length. lia. }
  assert (F6 : forall X, sub (240 - 8 - 6 - 24) (240 - 8 - 6)
      (pg_even p ++ W1 ++ pg_even_tail p ++ pg_odd p ++ W2 ++ O ++ pg_sar p ++ pg_spare p ++ CR ++ X) = CR).
  { intros X. rewrite !(app_assoc _ _ (CR ++ X)). apply sub_at; [|lia]. rewrite !app_length. lia. }
  assert (F7 : forall X, sub (240 - 8 - 6) (240 - 6)
      (pg_even p ++ W1 ++ pg_even_tail p ++ pg_odd p ++ W2 ++ O ++ pg_sar p ++ pg_spare p ++ CR ++ SS ++ X) = SS).
  { intros X. rewrite !(app_assoc _ _ (SS ++ X)). apply sub_at; [|lia]. rewrite !app_length. lia. }
  cbv zeta. rewrite F1, F2, F3, F4, F5, F6, F7. clear F1 F2 F3 F4 F5 F6 F7.
  unfold W1, W2. rewrite firstn_skipn. unfold O, CR, SS. rewrite !bytes_of_bits_bytes; auto.
Qed.

Lemma skipn_skipn {A} a b : forall l : list A, skipn a (skipn b l) = skipn (a + b) l.
Proof.
  induction b as [|b IH]; intros l; [now rewrite Nat.add_0_r|]. destruct l as [|x l]; [now rewrite !skipn_nil|].
  rewrite Nat.add_succ_r. cbn [skipn]. apply IH.
Qed.

Lemma sub_split {A} (a b : nat) (l : list A) : (a <= b)%nat -> skipn a l = sub a b l ++ skipn b l.
Proof.
  intros H. unfold sub. rewrite <- (firstn_skipn (b - a) (skipn a l)) at 1. f_equal.
  rewrite skipn_skipn. f_equal. lia.
Qed.

(** All blocks of 30 bytes are pages. *)
Lemma every_page l : length l = 30%nat -> Forall is_byte l -> exists p, page_ok p /\ page_bytes p = l.
Proof.
  intros Hl Hb. set (L := bits_of_bytes l). assert (HL : length L = 240%nat) by (unfold L; rewrite length_bits_of_bytes; lia).
  exists (mkPage (bytes_of_bits (sub 2 114 L ++ sub 122 138 L)) (bytes_of_bits (sub 138 178 L)) (sub 178 200 L) (sub 200 202 L)
            (bytes_of_bits (sub 202 226 L)) (load_be (sub 226 234 L)) (sub 0 2 L) (sub 114 120 L) (sub 120 122 L) (sub 234 240 L)).
  assert (L1 : length (sub 2 114 L ++ sub 122 138 L) = (8 * 16)%nat) by (rewrite app_length, !length_sub by lia; lia).
  assert (L2 : length (sub 138 178 L) = (8 * 5)%nat) by (rewrite length_sub by lia; lia).
  assert (L3 : length (sub 202 226 L) = (8 * 3)%nat) by (rewrite length_sub by lia; lia).
  assert (L4 : length (sub 226 234 L) = 8%nat) by (rewrite length_sub by lia; lia).
  assert (Hok : page_ok (mkPage (bytes_of_bits (sub 2 114 L ++ sub 122 138 L)) (bytes_of_bits (sub 138 178 L)) (sub 178 200 L) (sub 200 202 L)
            (bytes_of_bits (sub 202 226 L)) (load_be (sub 226 234 L)) (sub 0 2 L) (sub 114 120 L) (sub 120 122 L) (sub 234 240 L))).
  { unfold page_ok. cbn [pg_word pg_osnma pg_sar pg_spare pg_crc pg_ssp pg_even pg_even_tail pg_odd pg_odd_tail].
    pose proof (load_be_range (sub 226 234 L)) as Hr. rewrite L4 in Hr. change (2 ^ Z.of_nat 8) with 256 in Hr.
    split; [exact (bytes_of_bits_are_bytes 16 _ L1)|]. split; [exact (length_bytes_of_bits 16 _ L1)|].
    split; [exact (bytes_of_bits_are_bytes 5 _ L2)|]. split; [exact (length_bytes_of_bits 5 _ L2)|].
    split; [rewrite length_sub by lia; lia|]. split; [rewrite length_sub by lia; lia|].
    split; [exact (bytes_of_bits_are_bytes 3 _ L3)|]. split; [exact (length_bytes_of_bits 3 _ L3)|].
    split; [exact Hr|]. rewrite !length_sub by lia. lia. }
  split; [exact Hok|]. unfold page_bytes. rewrite <- (bytes_of_bits_bytes l Hb). f_equal. fold L.
  unfold page_bits. cbn [pg_word pg_osnma pg_sar pg_spare pg_crc pg_ssp pg_even pg_even_tail pg_odd pg_odd_tail].
  rewrite (bits_of_bytes_bits 16 _ L1), (bits_of_bytes_bits 5 _ L2), (bits_of_bytes_bits 3 _ L3).
  assert (LW : length (sub 2 114 L) = 112%nat) by (rewrite length_sub by lia; lia).
  rewrite firstn_app, skipn_app, LW, Nat.sub_diag, firstn_O, skipn_O, app_nil_r.
  rewrite (firstn_all2 (sub 2 114 L)) by lia. rewrite (skipn_all2 (sub 2 114 L)) by lia. cbn [app].
  assert (ES : bits_of_bytes [load_be (sub 226 234 L)] = sub 226 234 L).
  { unfold bits_of_bytes. cbn [flat_map]. rewrite app_nil_r, bits_of_byte_store.
    pose proof (store_load_be (sub 226 234 L)) as E. now rewrite L4 in E. }
  rewrite ES. rewrite <- !app_assoc.
  transitivity (skipn 0 L); [|reflexivity]. clearbody L.
  rewrite (sub_split 0 2), (sub_split 2 114), (sub_split 114 120), (sub_split 120 122), (sub_split 122 138), (sub_split 138 178),
    (sub_split 178 200), (sub_split 200 202), (sub_split 202 226), (sub_split 226 234), (sub_split 234 240) by lia.
  rewrite (skipn_all2 (n := 240) L) by lia. now rewrite app_nil_r.
Qed.

Lemma every_pages n : forall l, length l = (30 * n)%nat -> Forall is_byte l ->
  exists ps, Forall page_ok ps /\ concat (map page_bytes ps) = l.
Proof.
  induction n as [|n IH]; intros l Hl Hb.
  - exists []. destruct l; [auto|cbn [length] in Hl; lia].
  - rewrite <- (firstn_skipn 30 l) in Hb. apply Forall_app in Hb. destruct Hb as [H1 H2].
    destruct (every_page (firstn 30 l)) as (p & Hp & E); [rewrite firstn_length; lia|exact H1|].
    destruct (IH (skipn 30 l)) as (ps & Hps & Es); [rewrite skipn_length; lia|exact H2|].
    exists (p :: ps). split; [now constructor|]. cbn [map concat]. rewrite E, Es. apply firstn_skipn.
Qed.

Lemma pages_length ps : Forall page_ok ps -> length (concat (map page_bytes ps)) = (30 * length ps)%nat.
Proof.
  induction 1 as [|p ps Hp _ IH]; [reflexivity|]. cbn [map concat length]. rewrite app_length, page_bytes_length, IH by exact Hp. lia.
Qed.

(** ** Lines *)

Section Build.
Context {B : build}.

Definition row_messages (start : Z) (n : nat) (r : row) : list message :=
  map (fun x => page_packet start (fst x, fst r, snd x)) (combine (seq n (length (snd r))) (snd r)).

Lemma gst_at_next t : 0 <= t -> t + 2 < 65536 * 604800 -> add_seconds (gst_at t) 2 = Ok (gst_at (t + 2)).
Proof.
  intros H1 H2. destruct (gst_at_ok t) as [Hg Ht]; [lia|]. destruct (gst_at_ok (t + 2)) as [Hg' Ht']; [lia|].
  destruct (add_seconds_in (gst_at t) 2) as (g & E & Hg2 & Et); [exact Hg|lia|unfold representable; lia|].
  rewrite E. f_equal. apply time_of_inj; auto. lia.
Qed.

Lemma pages_messages_eq start svn ps : forall fuel n, Forall page_ok ps -> (length ps <= fuel)%nat -> 0 <= start ->
  start + 2 * Z.of_nat (n + length ps) < 65536 * 604800 ->
  pages_messages fuel svn (gst_at (start + 2 * Z.of_nat n)) (concat (map page_bytes ps)) = Ok (row_messages start n (svn, ps)).
Proof.
  unfold row_messages. cbn [fst snd].
  induction ps as [|p ps IH]; intros fuel n Hps Hf Hs Ht; cbn [map concat length seq combine].
  - destruct fuel; reflexivity.
  - apply Forall_cons_iff in Hps. destruct Hps as [Hp Hps]. cbn [length] in *. destruct fuel as [|fuel]; [lia|].
    cbn [pages_messages]. pose proof (page_bytes_length p Hp) as Lp.
    destruct (length (page_bytes p ++ concat (map page_bytes ps)) <? 30)%nat eqn:E.
    { apply Nat.ltb_lt in E. rewrite app_length in E. lia. }
    rewrite gst_at_next by lia. cbn [bind].
    replace (start + 2 * Z.of_nat n + 2) with (start + 2 * Z.of_nat (S n)) by lia.
    rewrite skipn_app, (skipn_all2 (page_bytes p)), Lp, Nat.sub_diag, skipn_O by lia. cbn [app].
    rewrite IH; [|assumption|lia|lia|lia]. cbn [bind].
    rewrite firstn_app, (firstn_all2 (page_bytes p)), Lp, Nat.sub_diag, firstn_O, app_nil_r by lia.
    rewrite (page_message_packet svn _ p start n Hp Hs eq_refl). reflexivity.
Qed.

Lemma csv_line_says line r start : line_says line r -> 0 <= start -> start + 2 * Z.of_nat (length (snd r)) < 65536 * 604800 ->
  csv_line_to_pages line (gst_at start) = Ok (ROk (row_messages start 0 r)).
Proof.
  intros (a & b & c & rest & -> & Ha & Hb & Hc & Hr & Hn & Hp & Hx) Hs Ht.
  destruct (split_three_back a b c rest Ha Hb Hc Hr) as [more E]. unfold csv_line_to_pages. rewrite E.
  rewrite (proj2 (parse_number _ _) Hn), (proj2 (hex_decode_text _ _) Hx), pages_length by exact Hp.
  replace (30 * length (snd r))%nat with (0 + length (snd r) * 30)%nat by lia. rewrite Nat.mod_add by lia.
  change (negb (0 mod 30 =? 0)%nat) with false. cbn iota.
  pose proof (pages_messages_eq start (fst r) (snd r) (0 + length (snd r) * 30) 0 Hp ltac:(lia) Hs Ht) as H.
  replace (start + 2 * Z.of_nat 0) with start in H by lia. rewrite H. cbn [bind]. now destruct r.
Qed.

Lemma csv_line_cases line g : (exists r, line_says line r) \/ csv_line_to_pages line g = Ok (RErr tt).
Proof.
  unfold csv_line_to_pages. destruct (split_char 44 [] line) as [|a [|b [|c more]]] eqn:E; auto.
  - right. destruct (parse 4294967295 a); reflexivity.
  - right. destruct (parse 4294967295 a); reflexivity.
  - destruct (parse 4294967295 a) as [svn|] eqn:Ea; [|auto]. destruct (hex_decode c) as [l|] eqn:Ec; [|auto].
    destruct (length l mod 30 =? 0)%nat eqn:El; [|auto]. left. apply Nat.eqb_eq in El.
    apply parse_number in Ea. apply hex_decode_text in Ec.
    destruct (every_pages (length l / 30) l) as (ps & Hps & Es).
    { pose proof (Nat.div_mod (length l) 30). lia. }
    { exact (hex_text_bytes _ _ Ec). }
    destruct (split_three line a b c more E) as (rest & -> & H1 & H2 & H3 & H4).
    exists (svn, ps), a, b, c, rest. cbn [fst snd]. rewrite Es. auto 10.
Qed.

Lemma longest_cons r rows : longest (r :: rows) = Nat.max (length (snd r)) (longest rows).
Proof. reflexivity. Qed.

Lemma csv_pages_says start lines rows : Forall2 line_says lines rows -> 0 <= start ->
  start + 2 * Z.of_nat (longest rows) < 65536 * 604800 ->
  csv_pages lines (gst_at start) = Ok (ROk (map (row_messages start 0) rows)).
Proof.
  intros H Hs. induction H as [|line r lines rows Hl _ IH]; intros Ht; cbn [csv_pages map]; [reflexivity|].
  rewrite longest_cons in Ht.
  rewrite (csv_line_says line r start Hl Hs) by lia. cbn [bind]. rewrite IH by lia. reflexivity.
Qed.

(** A page takes at least 60 characters. *)
Lemma hex_text_length s l : hex_text s l -> length s = (2 * length l)%nat.
Proof. induction 1 as [|c1 c2 d1 d2 s l _ _ _ IH]; cbn [length]; lia. Qed.
Lemma line_length line r : line_says line r -> (60 * length (snd r) <= length line)%nat.
Proof.
  intros (a & b & c & rest & -> & _ & _ & _ & _ & _ & Hp & Hx). apply hex_text_length in Hx. rewrite pages_length in Hx by exact Hp.
  rewrite !app_length. lia.
Qed.

Lemma csv_pages_cases start lines : 0 <= start ->
  (forall l, In l lines -> start + Z.of_nat (length l) < 65536 * 604800) ->
  (exists rows, Forall2 line_says lines rows) \/ csv_pages lines (gst_at start) = Ok (RErr tt).
Proof.
  intros Hs. induction lines as [|line lines IH]; intros Ht; cbn [csv_pages].
  - left. exists []. constructor.
  - destruct (csv_line_cases line (gst_at start)) as [[r Hr]|E]; [|right; now rewrite E].
    pose proof (line_length line r Hr) as Hl. pose proof (Ht line (or_introl eq_refl)) as Hl2.
    rewrite (csv_line_says line r start Hr Hs) by lia. cbn [bind].
    destruct IH as [[rows Hrows]|E]; [intros l H; apply Ht; now right| |right; now rewrite E].
    left. exists (r :: rows). now constructor.
Qed.

Lemma lines_of_length s ls : lines_of s ls -> forall l, In l ls -> (length l <= length s)%nat.
Proof.
  induction 1 as [|l Hn H|l s ls H Hcr _ IH|l s ls H _ IH]; intros l' Hl.
  - destruct Hl.
  - destruct Hl as [<-|[]]. lia.
  - rewrite !app_length. destruct Hl as [<-|Hl]; [lia|]. specialize (IH l' Hl). lia.
  - rewrite !app_length. destruct Hl as [<-|Hl]; [lia|]. specialize (IH l' Hl). lia.
Qed.

(** ** Writing *)

Lemma row_nth start r : forall m n, nth_error (row_messages start m r) n
  = option_map (fun p => page_packet start ((m + n)%nat, fst r, p)) (nth_error (snd r) n).
Proof.
  destruct r as [svn ps]. unfold row_messages. cbn [fst snd]. induction ps as [|p ps IH]; intros m n; cbn [length seq combine map].
  - destruct n; reflexivity.
  - destruct n as [|n]; cbn [nth_error]; [cbn [option_map]; now rewrite Nat.add_0_r|].
    rewrite IH. destruct (nth_error ps n); [|reflexivity]. cbn [option_map]. do 3 f_equal. f_equal. lia.
Qed.

Lemma row_messages_length start n r : length (row_messages start n r) = length (snd r).
Proof. unfold row_messages. rewrite map_length, combine_length, seq_length. lia. Qed.

Lemma longest_eq start rows : list_max (map (length (A := message)) (map (row_messages start 0) rows)) = longest rows.
Proof.
  unfold longest. rewrite map_map. f_equal. apply map_ext. intros r. apply row_messages_length.
Qed.

Context {K : codec message}.

Lemma write_pages_eq start n rows : forall b out,
  Forall fits (map (page_packet start) (flat_map (nth_page n) rows)) ->
  write_pages n (map (row_messages start 0) rows) b (mkSink out None)
  = Ok (ROk (b || match flat_map (nth_page n) rows with [] => false | _ => true end),
        mkSink (out ++ concat (map frame (map (page_packet start) (flat_map (nth_page n) rows)))) None).
Proof.
  induction rows as [|r rows IH]; intros b out Hf; cbn [flat_map map write_pages].
  - cbn [concat]. now rewrite app_nil_r, orb_false_r.
  - cbn [flat_map] in Hf. rewrite row_nth. cbn [plus]. unfold nth_page at 1 in Hf. unfold nth_page at 1 3.
    destruct (nth_error (snd r) n) as [p|]; cbn [option_map app map] in *.
    + apply Forall_cons_iff in Hf. destruct Hf as [Hp Hf]. rewrite write_packet_fits by exact Hp. cbn [bind].
      rewrite IH by exact Hf. cbn [orb concat]. rewrite orb_true_r, app_assoc. reflexivity.
    + apply IH. exact Hf.
Qed.

Lemma round_empty n rows : (longest rows <= n)%nat -> flat_map (nth_page n) rows = [].
Proof.
  induction rows as [|r rows IH]; [reflexivity|]. rewrite longest_cons. cbn [flat_map]. intros H. rewrite IH by lia. unfold nth_page.
  rewrite (proj2 (nth_error_None (snd r) n)) by lia. reflexivity.
Qed.

Lemma round_nonempty n rows : (n < longest rows)%nat -> flat_map (nth_page n) rows <> [].
Proof.
  induction rows as [|r rows IH]; [intros H; inversion H|]. rewrite longest_cons. cbn [flat_map]. intros H. unfold nth_page at 1.
  destruct (nth_error (snd r) n) eqn:E; [discriminate|]. apply nth_error_None in E. apply IH. lia.
Qed.

Lemma write_rounds_eq start rows : forall d n out, (n + d = longest rows)%nat ->
  Forall fits (map (page_packet start) (flat_map (fun n => flat_map (nth_page n) rows) (seq n d))) ->
  write_rounds (S d) n (map (row_messages start 0) rows) (mkSink out None)
  = Ok (ROk tt, mkSink (out ++ concat (map frame (map (page_packet start) (flat_map (fun n => flat_map (nth_page n) rows) (seq n d))))) None).
Proof.
  induction d as [|d IH]; intros n out Hn Hf; cbn [seq flat_map] in *; cbn [write_rounds].
  - pose proof (round_empty n rows ltac:(lia)) as E. rewrite write_pages_eq by (rewrite E; constructor). rewrite E. cbn [bind orb map concat]. reflexivity.
  - rewrite map_app in Hf. apply Forall_app in Hf. destruct Hf as [Hf1 Hf2]. rewrite write_pages_eq by exact Hf1. cbn [bind orb].
    pose proof (round_nonempty n rows ltac:(lia)) as Hne. destruct (flat_map (nth_page n) rows) as [|x l] eqn:E; [now elim Hne|].
    rewrite <- E in *. change (write_rounds (S d) (S n) (map (row_messages start 0) rows)
       (mkSink (out ++ concat (map frame (map (page_packet start) (flat_map (nth_page n) rows)))) None) = Ok
  (ROk tt,
   mkSink (out ++ concat (map frame (map (page_packet start) (flat_map (nth_page n) rows ++
     flat_map (fun n => flat_map (nth_page n) rows) (seq (S n) d))))) None)).
    rewrite IH; [|lia|exact Hf2]. do 2 f_equal. f_equal. rewrite !map_app, concat_app. now rewrite app_assoc.
Qed.

(** A sink with room for [r] bytes. *)
Lemma write_pages_room start n rows : forall b out r,
  Forall fits (map (page_packet start) (flat_map (nth_page n) rows)) ->
  write_pages n (map (row_messages start 0) rows) b (mkSink out (Some r))
  = let bytes := concat (map frame (map (page_packet start) (flat_map (nth_page n) rows))) in
    if (length bytes <=? r)%nat
    then Ok (ROk (b || match flat_map (nth_page n) rows with [] => false | _ => true end),
             mkSink (out ++ bytes) (Some (r - length bytes)%nat))
    else Ok (RErr tt, mkSink (out ++ firstn r bytes) (Some 0%nat)).
Proof.
  induction rows as [|w rows IH]; intros b out r Hf; cbn [flat_map map write_pages]; cbn zeta.
  - cbn [concat length Nat.leb]. now rewrite app_nil_r, orb_false_r, Nat.sub_0_r.
  - cbn [flat_map] in Hf. rewrite row_nth. cbn [plus]. unfold nth_page at 1 in Hf. unfold nth_page at 1 3 5 7 9.
    destruct (nth_error (snd w) n) as [p|]; cbn [option_map app map] in *.
    + apply Forall_cons_iff in Hf. destruct Hf as [Hp Hf]. rewrite write_packet_room by exact Hp. cbn [bind concat].
      set (f := frame (page_packet start (n, fst w, p))) in *.
      rewrite app_length, firstn_app. destruct (Nat.leb_spec (length f) r) as [Hle|Hgt]; cbn [bind].
      * rewrite IH by exact Hf. cbn zeta. rewrite (firstn_all2 f) by lia.
        set (rest := concat _) in *. rewrite !app_assoc.
        destruct (Nat.leb_spec (length rest) (r - length f)), (Nat.leb_spec (length f + length rest) r); try lia.
        -- cbn [orb]. rewrite orb_true_r. replace (r - (length f + length rest))%nat with (r - length f - length rest)%nat by lia. reflexivity.
        -- reflexivity.
      * match goal with |- context[(length f + ?x <=? r)%nat] => destruct (Nat.leb_spec (length f + x) r); [lia|] end.
        replace (r - length f)%nat with 0%nat by lia. rewrite firstn_O, app_nil_r. reflexivity.
    + apply IH. exact Hf.
Qed.

Lemma write_rounds_room start rows : forall d n out r, (n + d = longest rows)%nat ->
  let bytes := concat (map frame (map (page_packet start) (flat_map (fun n => flat_map (nth_page n) rows) (seq n d)))) in
  Forall fits (map (page_packet start) (flat_map (fun n => flat_map (nth_page n) rows) (seq n d))) ->
  (r < length bytes)%nat ->
  write_rounds (S d) n (map (row_messages start 0) rows) (mkSink out (Some r))
  = Ok (RErr tt, mkSink (out ++ firstn r bytes) (Some 0%nat)).
Proof.
  induction d as [|d IH]; intros n out r Hn bytes Hf Hr; subst bytes; cbn [seq flat_map] in *.
  - cbn [map concat length] in Hr. lia.
  - rewrite !map_app, concat_app in *. apply Forall_app in Hf. destruct Hf as [Hf1 Hf2].
    pose proof (round_nonempty n rows ltac:(lia)) as Hne.
    remember (S d) as d1 eqn:Ed1. cbn [write_rounds]. subst d1. rewrite write_pages_room by exact Hf1. cbn zeta. cbn [orb].
    rewrite app_length in Hr. rewrite firstn_app.
    set (b1 := concat (map frame (map (page_packet start) (flat_map (nth_page n) rows)))) in *.
    destruct (Nat.leb_spec (length b1) r) as [Hle|Hgt]; cbn [bind].
    + destruct (flat_map (nth_page n) rows) as [|x l] eqn:E; [now elim Hne|].
      rewrite IH; [|lia|exact Hf2|lia]. rewrite (firstn_all2 b1) by lia. now rewrite app_assoc.
    + replace (r - length b1)%nat with 0%nat by lia. rewrite firstn_O, app_nil_r. reflexivity.
Qed.

(** ** The program *)

Lemma vectors_start_eq t : 0 <= t - 935280000 < 65536 * 604800 -> vectors_start t = Ok (gst_at (t - 935280000)).
Proof.
  intros H. unfold vectors_start, gst_at, gst_new, assert_, secs_in_week. rewrite quot_week by lia.
  destruct (t - 935280000 <? 0) eqn:E; [lia|].
  replace (t - 935280000 - (t - 935280000) / 604800 * 604800) with ((t - 935280000) mod 604800) by lia.
  destruct ((0 <=? (t - 935280000) / 604800) && ((t - 935280000) / 604800 <? 65536)) eqn:E1; [|lia]. cbn [bind].
  destruct ((0 <=? (t - 935280000) mod 604800) && ((t - 935280000) mod 604800 <? 4294967296)) eqn:E2; [|lia]. cbn [bind].
  destruct ((t - 935280000) mod 604800 <? 604800) eqn:E3; [|lia]. reflexivity.
Qed.

Lemma vectors_start_panics t : ~ 0 <= t - 935280000 < 65536 * 604800 -> vectors_start t = Panic.
Proof.
  intros H. unfold vectors_start, assert_.
  destruct ((0 <=? Z.quot (t - 935280000) 604800) && (Z.quot (t - 935280000) 604800 <? 65536)) eqn:E1; [|reflexivity]. cbn [bind].
  destruct ((0 <=? t - 935280000 - Z.quot (t - 935280000) 604800 * 604800) &&
     (t - 935280000 - Z.quot (t - 935280000) 604800 * 604800 <? 4294967296)) eqn:E2; [|reflexivity]. exfalso. apply H.
  pose proof (Z.quot_rem' (t - 935280000) 604800) as Hq.
  pose proof (Z.rem_bound_abs (t - 935280000) 604800 ltac:(lia)) as Hr.
  generalize dependent (Z.rem (t - 935280000) 604800). generalize dependent (Z.quot (t - 935280000) 604800). intros q E1 E2 r Hq Hr. lia.
Qed.

Lemma main_says t file rows out : 0 <= t - 935280000 -> file_says file rows ->
  t - 935280000 + 2 * Z.of_nat (longest rows) < 65536 * 604800 ->
  Forall fits (map (page_packet (t - 935280000)) (schedule rows)) ->
  vectors_main (Some t) (Some file) (mkSink out None)
  = Ok (ROk tt, mkSink (out ++ concat (map frame (map (page_packet (t - 935280000)) (schedule rows)))) None).
Proof.
  intros Hs (header & lines & Hl & Hrows) Ht Hf. unfold vectors_main. rewrite vectors_start_eq by lia. cbn [bind].
  rewrite (str_lines_complete _ _ Hl), (csv_pages_says _ _ _ Hrows Hs Ht). cbn [bind]. rewrite longest_eq.
  apply write_rounds_eq; [reflexivity|exact Hf].
Qed.

Lemma main_room t file rows n : 0 <= t - 935280000 -> file_says file rows ->
  t - 935280000 + 2 * Z.of_nat (longest rows) < 65536 * 604800 ->
  let bytes := concat (map frame (map (page_packet (t - 935280000)) (schedule rows))) in
  Forall fits (map (page_packet (t - 935280000)) (schedule rows)) -> (n < length bytes)%nat ->
  vectors_main (Some t) (Some file) (mkSink [] (Some n)) = Ok (RErr tt, mkSink (firstn n bytes) (Some 0%nat)).
Proof.
  intros Hs (header & lines & Hl & Hrows) Ht bytes Hf Hn. unfold vectors_main. rewrite vectors_start_eq by lia. cbn [bind].
  rewrite (str_lines_complete _ _ Hl), (csv_pages_says _ _ _ Hrows Hs Ht). cbn [bind]. rewrite longest_eq.
  exact (write_rounds_room _ rows (longest rows) 0 [] n eq_refl Hf Hn).
Qed.

Lemma main_cases t file k : 0 <= t - 935280000 -> t - 935280000 + Z.of_nat (length file) < 65536 * 604800 ->
  (exists rows, file_says file rows) \/ vectors_main (Some t) (Some file) k = Ok (RErr tt, k).
Proof.
  intros Hs Ht. unfold vectors_main. rewrite vectors_start_eq by lia. cbn [bind].
  destruct (str_lines [] file) as [|header lines] eqn:E; [auto|]. apply lines_of_iff in E.
  destruct (csv_pages_cases (t - 935280000) lines Hs) as [[rows Hr]|Ec].
  - intros l Hl. pose proof (lines_of_length _ _ E l (or_intror Hl)). lia.
  - left. exists rows, header, lines. auto.
  - right. rewrite Ec. reflexivity.
Qed.

Lemma file_says_length file rows : file_says file rows -> (60 * longest rows <= length file)%nat.
Proof.
  intros (header & lines & Hl & Hr). pose proof (lines_of_length _ _ Hl) as H.
  assert (H' : forall l, In l lines -> (length l <= length file)%nat) by (intros l Y; apply H; now right). clear H Hl header.
  induction Hr as [|line r lines rows Hr _ IH]; [cbn; lia|]. rewrite longest_cons.
  pose proof (line_length _ _ Hr). pose proof (H' line (or_introl eq_refl)).
  specialize (IH (fun l Y => H' l (or_intror Y))). lia.
Qed.

(** The rows are determined by the file. *)
Lemma number_text_fun s n n' : number_text s n -> number_text s n' -> n = n'.
Proof. intros H H'. apply parse_number in H, H'. congruence. Qed.
Lemma hex_text_fun s l l' : hex_text s l -> hex_text s l' -> l = l'.
Proof. intros H H'. apply hex_decode_text in H, H'. congruence. Qed.

(** ** galmon-osnma on what is written *)

(** The variables of galmon-osnma before a page of time [t]. *)
Definition near (t : Z) (a : app_vars) : Prop :=
  a = app_new \/ exists t0, 0 <= t0 /\ (t0 = t \/ t0 = t - 2) /\ a = mkApp (Some (gst_at (t0 / 30 * 30))) (t0 mod 30).

Lemma galmon_page a start n svn p : let t := start + 2 * Z.of_nat n in
  0 <= start -> t < 65536 * 604800 -> page_ok p -> 1 <= svn <= 36 -> near t a ->
  galmon_calls a (page_packet start (n, svn, p)) = Ok (mkApp (Some (gst_at (t / 30 * 30))) (t mod 30), page_calls start (n, svn, p)).
Proof.
  intros t Hs Ht (Bw & Lw & Bo & Lo & _) Hv Hn. unfold galmon_calls, page_packet, page_calls. fold t.
  cbn [m_gi p_sigid p_sv p_contents p_reserved1].
  assert (Ht0 : 0 <= t) by (unfold t; lia).
  assert (Ea : accept a (mkInav (t / 604800) (t mod 604800) 2 svn (pg_word p) (Some 1) (Some (pg_osnma p)) (Some [pg_ssp p])
       (Some (bytes_of_bits (pg_sar p ++ pg_spare p))) (Some [load_be (pg_spare p)]) (Some (pg_crc p)) (Some (pg_ssp p)))
     = Ok (mkApp (Some (gst_at (t / 30 * 30))) (t mod 30), Some (gst_at t))).
  { unfold accept. cbn [p_wn p_tow]. unfold to_u16.
    destruct (t / 604800 <? 65536) eqn:E1; [|lia]. cbn [bind].
    destruct (t mod 604800 / 604800 <? 65536) eqn:E2; [|lia]. cbn [bind].
    unfold u16_arith. destruct ((0 <=? t / 604800 + t mod 604800 / 604800) && (t / 604800 + t mod 604800 / 604800 <? 65536)) eqn:E3; [|lia].
    cbn [bind].
    assert (E4 : (t mod 604800 mod 604800 mod 30 =? 15) && (19 <=? a_last a) = false).
    { destruct Hn as [->|(t0 & H0 & H1 & ->)]; cbn [a_last app_new]; [apply andb_false_r|]. lia. }
    rewrite E4. unfold gst_new, assert_, secs_in_week. destruct (t mod 604800 mod 604800 <? 604800) eqn:E5; [|lia]. cbn [bind].
    assert (Eg : mkGst (t / 604800 + t mod 604800 / 604800) (t mod 604800 mod 604800) = gst_at t) by (unfold gst_at; f_equal; lia).
    rewrite Eg, subframe_gst_at by exact Ht0.
    assert (E6 : match a_current a with Some current => gst_ltb (gst_at (t / 30 * 30)) current | None => false end = false).
    { destruct Hn as [->|(t0 & H0 & H1 & ->)]; cbn [a_current app_new]; [reflexivity|].
      destruct (gst_at_ok (t / 30 * 30)) as [K1 K2]; [lia|]. destruct (gst_at_ok (t0 / 30 * 30)) as [K3 K4]; [lia|].
      pose proof (gst_ltb_time _ _ K1 K3) as Hlt. rewrite K2, K4 in Hlt.
      destruct (gst_ltb _ _); [|reflexivity]. assert (t / 30 * 30 < t0 / 30 * 30) by now apply Hlt. lia. }
    rewrite E6. replace (t mod 604800 mod 604800 mod 30) with (t mod 30) by lia. reflexivity. }
  rewrite Ea. cbn [bind].
  assert (Ev : svn_try_from svn = Some svn) by (apply svn_try_from_iff; auto). rewrite Ev. cbn [unwrap bind].
  change (band_of_sigid 1) with (Some E1B). cbn iota.
  unfold index. destruct (pg_word p) as [|w0 w] eqn:Ew; [discriminate Lw|]. cbn [nth_error unwrap bind nth].
  destruct (w0 / 4 =? 63); [reflexivity|]. unfold to_array. rewrite Lw, Lo. reflexivity.
Qed.

Lemma near_same t a : near t a -> near (t + 2) (mkApp (Some (gst_at (t / 30 * 30))) (t mod 30)) \/ t < 0.
Proof. intros _. destruct (Z_lt_le_dec t 0); [now right|]. left. right. exists t. split; [assumption|]. split; [lia|reflexivity]. Qed.

Lemma all_calls_app ms1 : forall a ms2, galmon_all_calls a (ms1 ++ ms2) =
  ('(a, l) <- galmon_all_calls a ms1 ;; '(a, l') <- galmon_all_calls a ms2 ;; Ok (a, l ++ l')).
Proof.
  induction ms1 as [|m ms IH]; intros a ms2; cbn [app galmon_all_calls bind].
  - destruct (galmon_all_calls a ms2) as [[a' l]|]; reflexivity.
  - destruct (galmon_calls a m) as [[a1 l1]|]; cbn [bind]; [|reflexivity]. rewrite IH.
    destruct (galmon_all_calls a1 ms) as [[a2 l2]|]; cbn [bind]; [|reflexivity].
    destruct (galmon_all_calls a2 ms2) as [[a3 l3]|]; cbn [bind]; [|reflexivity]. now rewrite app_assoc.
Qed.

Definition row_ok (r : row) : Prop := 1 <= fst r <= 36 /\ Forall page_ok (snd r).

Lemma galmon_round start n rows : let t := start + 2 * Z.of_nat n in
  0 <= start -> t < 65536 * 604800 -> Forall row_ok rows -> forall a, near t a ->
  galmon_all_calls a (map (page_packet start) (flat_map (nth_page n) rows))
  = Ok (match flat_map (nth_page n) rows with [] => a | _ => mkApp (Some (gst_at (t / 30 * 30))) (t mod 30) end,
        flat_map (page_calls start) (flat_map (nth_page n) rows)).
Proof.
  intros t Hs Ht Hr. induction Hr as [|r rows [Hv Hp] _ IH]; intros a Ha; cbn [flat_map map]; [reflexivity|].
  unfold nth_page at 1 3 5. destruct (nth_error (snd r) n) as [p|] eqn:E; cbn [app map galmon_all_calls flat_map].
  - assert (Hpp : page_ok p) by (apply nth_error_In in E; now apply (proj1 (Forall_forall _ _) Hp)).
    rewrite (galmon_page a start n (fst r) p Hs Ht Hpp Hv Ha). fold t. cbn [bind].
    rewrite IH; [cbn [bind]; destruct (flat_map (nth_page n) rows); reflexivity|].
    right. exists t. unfold t. split; [lia|]. split; [now left|reflexivity].
  - apply IH, Ha.
Qed.

Lemma galmon_rounds start rows : Forall row_ok rows -> 0 <= start -> forall d n a, (n + d <= longest rows)%nat ->
  start + 2 * Z.of_nat (longest rows) < 65536 * 604800 -> near (start + 2 * Z.of_nat n) a ->
  exists a', galmon_all_calls a (map (page_packet start) (flat_map (fun n => flat_map (nth_page n) rows) (seq n d)))
  = Ok (a', flat_map (page_calls start) (flat_map (fun n => flat_map (nth_page n) rows) (seq n d))).
Proof.
  intros Hr Hs. induction d as [|d IH]; intros n a Hn Ht Ha; cbn [seq flat_map map galmon_all_calls]; [eauto|].
  rewrite map_app, all_calls_app, galmon_round; [|assumption|lia|assumption|assumption]. cbn [bind].
  pose proof (round_nonempty n rows ltac:(lia)) as Hne. destruct (flat_map (nth_page n) rows) as [|x l] eqn:E; [now elim Hne|].
  rewrite <- E. clear x l E Hne.
  destruct (IH (S n) (mkApp (Some (gst_at ((start + 2 * Z.of_nat n) / 30 * 30))) ((start + 2 * Z.of_nat n) mod 30))) as [a' E]; [lia|lia| |].
  { right. exists (start + 2 * Z.of_nat n). split; [lia|]. split; [right; lia|reflexivity]. }
  rewrite E. cbn [bind]. exists a'. now rewrite flat_map_app.
Qed.

End Build.

(** ** The order *)

Lemma flat_map_plus {A C} (a b : A -> list C) ns : Permutation (flat_map (fun n => a n ++ b n) ns) (flat_map a ns ++ flat_map b ns).
Proof.
  induction ns as [|n ns IH]; [constructor|]. cbn [flat_map]. rewrite IH, <- !app_assoc. apply Permutation_app_head.
  rewrite !app_assoc. apply Permutation_app_tail. apply Permutation_app_comm.
Qed.

Lemma flat_map_swap {A D C} (f : A -> D -> list C) ns rows :
  Permutation (flat_map (fun n => flat_map (f n) rows) ns) (flat_map (fun r => flat_map (fun n => f n r) ns) rows).
Proof.
  induction rows as [|r rows IH]; cbn [flat_map].
  - induction ns as [|n ns IH]; [constructor|exact IH].
  - rewrite flat_map_plus. apply Permutation_app_head. exact IH.
Qed.

Lemma row_pages (svn : Z) (ps : list page) : forall m d, (length ps <= d)%nat ->
  flat_map (fun n => match nth_error ps (n - m) with Some p => [(n, svn, p)] | None => [] end) (seq m d)
  = map (fun x => (fst x, svn, snd x)) (combine (seq m (length ps)) ps).
Proof.
  induction ps as [|p ps IH]; intros m d Hd; cbn [length seq combine map].
  - induction (seq m d) as [|x l IHl]; [reflexivity|]. cbn [flat_map]. rewrite IHl. now destruct (x - m)%nat.
  - destruct d as [|d]; [cbn [length] in Hd; lia|]. cbn [seq flat_map]. rewrite Nat.sub_diag. cbn [nth_error app].
    f_equal. rewrite <- (IH (Datatypes.S m) d) by (cbn [length] in Hd; lia).
    rewrite !flat_map_concat_map. f_equal. apply map_ext_in. intros n Hn. apply in_seq in Hn.
    replace (n - m)%nat with (Datatypes.S (n - Datatypes.S m)) by lia. reflexivity.
Qed.

Lemma schedule_all rows : Permutation (schedule rows) (all_pages rows).
Proof.
  unfold schedule. rewrite flat_map_swap. unfold all_pages.
  assert (H : forall r, In r rows -> (length (snd r) <= longest rows)%nat).
  { induction rows as [|r rows IH]; [intros r []|]. intros r' [<-|Hr]; rewrite longest_cons; [lia|]. specialize (IH r' Hr). lia. }
  rewrite !flat_map_concat_map. match goal with |- Permutation ?a ?b => replace b with a; [apply Permutation_refl|] end. f_equal. apply map_ext_in. intros r Hr.
  rewrite <- (row_pages (fst r) (snd r) 0 (longest rows)) by (apply H, Hr).
  rewrite !flat_map_concat_map. f_equal. apply map_ext. intros n. unfold nth_page. now rewrite Nat.sub_0_r.
Qed.

Lemma round_index n rows x : In x (flat_map (nth_page n) rows) -> fst (fst x) = n.
Proof.
  intros H. apply in_flat_map in H. destruct H as (r & _ & H). unfold nth_page in H.
  destruct (nth_error (snd r) n); [|destruct H]. destruct H as [<-|[]]. reflexivity.
Qed.

(** Proofs about the encoding of messages. *)
From Coq Require Import ZArith List Bool Lia ZifyBool ZifyNat.
From Verif Require Import Model.Prelude Model.Params Model.Transport Model.Apps Model.Protobuf Spec.ProtobufSpec Proofs.Base.
Import ListNotations.
Open Scope Z_scope.
Ltac Zify.zify_post_hook ::= Z.div_mod_to_equations.

(** ** Varints *)

Lemma some_inj {A} (x y : A) : Some x = Some y -> x = y.
Proof. congruence. Qed.

Definition vbound (n : nat) : Z := 2 * 128 ^ (Z.of_nat n - 1).
Lemma vbound_S n : (1 <= n)%nat -> vbound (S n) = 128 * vbound n.
Proof.
  intros H. unfold vbound. replace (Z.of_nat (S n) - 1) with (Z.succ (Z.of_nat n - 1)) by lia.
  rewrite Z.pow_succ_r by lia. lia.
Qed.
Lemma vbound_1 : vbound 1 = 2. Proof. reflexivity. Qed.
Lemma vbound_2 n : (2 <= n)%nat -> 256 <= vbound n.
Proof.
  induction n as [|n IH]; [lia|]. intros H. rewrite vbound_S by lia.
  destruct (Nat.eq_dec n 1) as [->|Hn]; [rewrite vbound_1; lia|]. specialize (IH ltac:(lia)). lia.
Qed.
Lemma vbound_10 : vbound 10 = 2 ^ 64. Proof. reflexivity. Qed.

Lemma varint_nonneg l v : varint_text l v -> 0 <= v.
Proof. induction 1; lia. Qed.
Lemma varint_nonempty l v : varint_text l v -> (1 <= length l)%nat.
Proof. destruct 1; cbn [length]; lia. Qed.
Lemma varint_bytes l v : varint_text l v -> Forall is_byte l.
Proof. induction 1; repeat constructor; unfold is_byte; try lia; assumption. Qed.

Lemma get_varint_n_sound n : forall s v r, Forall is_byte s -> get_varint_n n s = Some (v, r) ->
  exists l, s = l ++ r /\ varint_text l v /\ (length l <= n)%nat /\ v < vbound n.
Proof.
  induction n as [|n IH]; intros s v r Hs H; [destruct s; discriminate|].
  destruct s as [|b s]; [discriminate|]. cbn [get_varint_n] in H. inversion Hs as [|? ? Hb Hs']. subst. unfold is_byte in Hb.
  destruct (b <? 128) eqn:E.
  - destruct ((n =? 0)%nat && (2 <=? b)) eqn:E2; [discriminate|]. apply some_inj in H. apply pair_equal_spec in H. destruct H; subst.
    exists [v]. split; [reflexivity|]. split; [constructor; lia|]. cbn [length]. split; [lia|].
    destruct n as [|n]; [rewrite vbound_1; lia|]. pose proof (vbound_2 (S (S n)) ltac:(lia)). lia.
  - destruct (get_varint_n n s) as [[w s']|] eqn:G; [|discriminate]. apply some_inj in H. apply pair_equal_spec in H. destruct H as (H1 & H2). subst s' v.
    destruct (IH s w r Hs' G) as (l & -> & Hl & Hlen & Hb').
    exists (b :: l). split; [reflexivity|]. split.
    + replace b with (128 + (b - 128)) at 1 by lia. replace (b mod 128) with (b - 128) by lia. constructor; [lia|exact Hl].
    + cbn [length]. split; [lia|]. pose proof (varint_nonempty _ _ Hl). rewrite vbound_S by lia. lia.
Qed.
Lemma get_varint_n_complete l v : varint_text l v -> forall n r, (length l <= n)%nat -> v < vbound n -> get_varint_n n (l ++ r) = Some (v, r).
Proof.
  induction 1 as [b Hb|b l v Hb H IH]; intros n r Hn Hv; cbn [length] in Hn.
  - destruct n as [|n]; [lia|]. cbn [app get_varint_n]. replace (b <? 128) with true by lia.
    destruct ((n =? 0)%nat && (2 <=? b)) eqn:E; [|reflexivity]. destruct n; [|discriminate]. rewrite vbound_1 in Hv. lia.
  - destruct n as [|n]; [lia|]. cbn [app get_varint_n]. replace (128 + b <? 128) with false by lia.
    pose proof (varint_nonempty _ _ H). rewrite vbound_S in Hv by lia. rewrite IH by lia.
    replace ((128 + b) mod 128) with b by lia. reflexivity.
Qed.
Lemma get_varint_sound s v r : Forall is_byte s -> get_varint s = Some (v, r) -> exists l, s = l ++ r /\ is_varint l v.
Proof.
  intros Hs H. destruct (get_varint_n_sound 10 s v r Hs H) as (l & E & H1 & H2 & H3). exists l. split; [exact E|].
  rewrite vbound_10 in H3. now split.
Qed.
Lemma get_varint_complete l v r : is_varint l v -> get_varint (l ++ r) = Some (v, r).
Proof. intros (H1 & H2 & H3). apply get_varint_n_complete; [exact H1|exact H2|now rewrite vbound_10]. Qed.
Lemma put_varint_n_ok n : forall v, (1 <= n)%nat -> 0 <= v < vbound n -> varint_text (put_varint_n n v) v /\ (length (put_varint_n n v) <= n)%nat.
Proof.
  induction n as [|n IH]; intros v Hn Hv; [lia|]. cbn [put_varint_n]. destruct (v <? 128) eqn:E.
  - split; [constructor; lia|cbn [length]; lia].
  - destruct (Nat.eq_dec n 0) as [->|Hn0]; [rewrite vbound_1 in Hv; lia|]. rewrite vbound_S in Hv by lia.
    destruct (IH (v / 128)) as (H1 & H2); [lia|lia|]. split; [|cbn [length]; lia].
    replace v with (v mod 128 + 128 * (v / 128)) at 3 by lia. constructor; [lia|exact H1].
Qed.
Lemma put_varint_ok v : 0 <= v < 2 ^ 64 -> is_varint (put_varint v) v.
Proof.
  intros Hv. rewrite <- vbound_10 in Hv. destruct (put_varint_n_ok 10 v ltac:(lia) Hv) as (H1 & H2).
  split; [exact H1|]. split; [exact H2|]. rewrite <- vbound_10. lia.
Qed.

(** ** Keys and lengths *)

Lemma get_key_sound s tag wt r : Forall is_byte s -> get_key s = Some (tag, wt, r) ->
  exists k, s = k ++ r /\ is_key k tag wt /\ 0 <= wt <= 5.
Proof.
  intros Hs H. unfold get_key in H. destruct (get_varint s) as [[v s']|] eqn:E; [|discriminate].
  destruct (_ || _) eqn:C; [discriminate|]. apply some_inj in H. apply pair_equal_spec in H. destruct H as (H & H3). apply pair_equal_spec in H. destruct H as (H1 & H2).
  subst tag wt s'. destruct (get_varint_sound _ _ _ Hs E) as (l & -> & Hl). exists l. split; [reflexivity|].
  pose proof (varint_nonneg _ _ (proj1 Hl)). split; [|lia]. split; [|lia]. replace (8 * (v / 8) + v mod 8) with v by lia. exact Hl.
Qed.
Lemma get_key_complete k tag wt r : is_key k tag wt -> 0 <= wt <= 5 -> get_key (k ++ r) = Some (tag, wt, r).
Proof.
  intros (H & Ht) Hw. unfold get_key. rewrite (get_varint_complete _ _ _ H).
  replace ((8 * tag + wt) / 8) with tag by lia. replace ((8 * tag + wt) mod 8) with wt by lia.
  replace ((2 ^ 32 <=? 8 * tag + wt) || (5 <? wt) || (tag <? 1)) with false by lia. reflexivity.
Qed.
Lemma put_key_ok tag wt : 1 <= tag < 2 ^ 29 -> 0 <= wt <= 5 -> is_key (put_key tag wt) tag wt.
Proof. intros H1 H2. split; [|exact H1]. apply put_varint_ok. lia. Qed.
Lemma key_length k tag wt : is_key k tag wt -> (1 <= length k)%nat.
Proof. intros ((H & _) & _). exact (varint_nonempty _ _ H). Qed.
Lemma payload_type_range p : 0 <= payload_type p <= 5.
Proof. destruct p; cbn [payload_type]; lia. Qed.

Lemma get_bytes_spec n s b r : 0 <= n -> get_bytes n s = Some (b, r) <-> s = b ++ r /\ Z.of_nat (length b) = n.
Proof.
  intros Hn. unfold get_bytes. destruct (_ <? _) eqn:E.
  - split; [discriminate|]. intros (-> & Hl). rewrite app_length in E. lia.
  - split.
    + intros H. apply some_inj in H. apply pair_equal_spec in H. destruct H as (<- & <-). split; [now rewrite firstn_skipn|].
      rewrite firstn_length. lia.
    + intros (-> & Hl). rewrite firstn_app, skipn_app, firstn_all2, skipn_all2 by lia.
      replace (Z.to_nat n - length b)%nat with 0%nat by lia. rewrite firstn_O, skipn_O, app_nil_r. reflexivity.
Qed.
Lemma get_delimited_sound s b r : Forall is_byte s -> get_delimited s = Some (b, r) -> exists l, s = l ++ r /\ delimited_text l b.
Proof.
  intros Hs H. unfold get_delimited in H. destruct (get_varint s) as [[n s']|] eqn:E; [|discriminate].
  destruct (get_varint_sound _ _ _ Hs E) as (l & -> & Hl). apply get_bytes_spec in H; [|exact (varint_nonneg _ _ (proj1 Hl))].
  destruct H as (-> & <-). exists (l ++ b). split; [now rewrite app_assoc|]. now exists l.
Qed.
Lemma get_delimited_complete l b r : delimited_text l b -> get_delimited (l ++ r) = Some (b, r).
Proof.
  intros (n & -> & Hn). unfold get_delimited. rewrite <- app_assoc, (get_varint_complete _ _ _ Hn).
  apply get_bytes_spec; [lia|]. auto.
Qed.
Lemma put_delimited l : Z.of_nat (length l) < 2 ^ 64 -> delimited_text (put_varint (Z.of_nat (length l)) ++ l) l.
Proof. intros H. eexists. split; [reflexivity|]. apply put_varint_ok. lia. Qed.
Lemma delimited_length l b : delimited_text l b -> (length b < length l)%nat.
Proof. intros (n & -> & (H & _)). rewrite app_length. pose proof (varint_nonempty _ _ H). lia. Qed.

(** ** UTF-8 *)

Lemma utf8_sound : forall fuel l, Forall is_byte l -> utf8 fuel l = true -> utf8_text l.
Proof.
  induction fuel as [|fuel IH]; intros l Hl H.
  - destruct l; [|discriminate]. exists []. split; [constructor|reflexivity].
  - destruct l as [|b l]; [exists []; split; [constructor|reflexivity]|]. cbn [utf8] in H. unfold continues in H.
    assert (Hcons : forall c l', code_point c -> Forall is_byte l' -> utf8 fuel l' = true -> utf8_text (utf8_bytes c ++ l')).
    { intros c l' Hc Hl' H'. destruct (IH l' Hl' H') as (cs & H1 & ->). exists (c :: cs). split; [now constructor|reflexivity]. }
    inversion Hl as [|? ? Hb Hl1]. subst. unfold is_byte in Hb.
    destruct (b <? 128) eqn:E1.
    { replace (b :: l) with (utf8_bytes b ++ l) by (unfold utf8_bytes; rewrite E1; reflexivity). apply Hcons; [unfold code_point; lia|assumption..]. }
    destruct ((194 <=? b) && (b <=? 223)) eqn:E2.
    { destruct l as [|c l]; [discriminate|]. apply andb_prop in H. destruct H as (H & H'). inversion Hl1 as [|? ? Hc Hl2]. subst.
      replace (b :: c :: l) with (utf8_bytes (64 * (b - 192) + (c - 128)) ++ l).
      - apply Hcons; [unfold code_point; lia|assumption..].
      - unfold utf8_bytes. replace (_ <? 128) with false by lia. replace (_ <? 2048) with true by lia. cbn [app].
        replace (192 + _) with b by lia. replace (128 + _) with c by lia. reflexivity. }
    destruct ((224 <=? b) && (b <=? 239)) eqn:E3.
    { destruct l as [|c [|d l]]; try discriminate. repeat (apply andb_prop in H; destruct H as (H & ?)).
      inversion Hl1 as [|? ? Hc Hl2]. subst. inversion Hl2 as [|? ? Hd Hl3]. subst.
      set (x := 4096 * (b - 224) + 64 * (c - 128) + (d - 128)).
      assert (Hx : 2048 <= x < 65536 /\ code_point x).
      { unfold code_point, x. destruct (b =? 224) eqn:B1, (b =? 237) eqn:B2; lia. }
      replace (b :: c :: d :: l) with (utf8_bytes x ++ l).
      - apply Hcons; [apply Hx|assumption..].
      - unfold utf8_bytes. replace (x <? 128) with false by lia. replace (x <? 2048) with false by lia. replace (x <? 65536) with true by lia.
        clear Hx. cbn [app]. subst x.
        replace (224 + _) with b by lia. replace (128 + _ mod 64) with c at 1 by lia. replace (128 + _) with d by lia. reflexivity. }
    destruct ((240 <=? b) && (b <=? 244)) eqn:E4; [|discriminate].
    destruct l as [|c [|d [|e l]]]; try discriminate. repeat (apply andb_prop in H; destruct H as (H & ?)).
    inversion Hl1 as [|? ? Hc Hl2]. subst. inversion Hl2 as [|? ? Hd Hl3]. subst. inversion Hl3 as [|? ? He Hl4]. subst.
    set (x := 262144 * (b - 240) + 4096 * (c - 128) + 64 * (d - 128) + (e - 128)).
    assert (Hx : 65536 <= x /\ code_point x).
    { unfold code_point, x. destruct (b =? 240) eqn:B1, (b =? 244) eqn:B2; lia. }
    replace (b :: c :: d :: e :: l) with (utf8_bytes x ++ l).
    + apply Hcons; [apply Hx|assumption..].
    + unfold utf8_bytes. replace (x <? 128) with false by lia. replace (x <? 2048) with false by lia. replace (x <? 65536) with false by lia.
      clear Hx. cbn [app].
      assert (X1 : 240 + x / 262144 = b) by (subst x; lia). assert (X2 : 128 + x / 4096 mod 64 = c) by (subst x; lia).
      assert (X3 : 128 + x / 64 mod 64 = d) by (subst x; lia). assert (X4 : 128 + x mod 64 = e) by (subst x; lia).
      rewrite X1, X2, X3, X4. reflexivity.
Qed.
Lemma utf8_bytes_length c : (1 <= length (utf8_bytes c))%nat.
Proof. unfold utf8_bytes. destruct (_ <? _); [cbn; lia|]. destruct (_ <? _); [cbn; lia|]. destruct (_ <? _); cbn; lia. Qed.
Lemma utf8_bytes_byte c : code_point c -> Forall is_byte (utf8_bytes c).
Proof.
  unfold code_point, utf8_bytes. intros H. destruct (c <? 128) eqn:E1; [repeat constructor; unfold is_byte; lia|].
  destruct (c <? 2048) eqn:E2; [repeat constructor; unfold is_byte; lia|].
  destruct (c <? 65536) eqn:E3; repeat constructor; unfold is_byte; lia.
Qed.
Lemma utf8_text_bytes l : utf8_text l -> Forall is_byte l.
Proof.
  intros (cs & H & ->). induction H as [|c cs Hc _ IH]; [constructor|]. cbn [flat_map]. apply Forall_app. split; [now apply utf8_bytes_byte|exact IH].
Qed.
Lemma utf8_complete : forall cs fuel, Forall code_point cs -> (length (flat_map utf8_bytes cs) <= fuel)%nat -> utf8 fuel (flat_map utf8_bytes cs) = true.
Proof.
  induction cs as [|c cs IH]; intros fuel Hcs Hf; [destruct fuel; reflexivity|]. inversion Hcs as [|? ? Hc Hcs']. subst.
  cbn [flat_map] in *. rewrite app_length in Hf. pose proof (utf8_bytes_length c). destruct fuel as [|fuel]; [lia|].
  specialize (IH fuel Hcs' ltac:(lia)). clear Hf Hcs Hcs' H. revert IH. generalize (flat_map utf8_bytes cs). intros l IH.
  unfold code_point in Hc. unfold utf8_bytes.
  destruct (c <? 128) eqn:E1.
  { cbn [app utf8]. rewrite E1. exact IH. }
  destruct (c <? 2048) eqn:E2.
  { cbn [app utf8]. replace (192 + c / 64 <? 128) with false by lia. replace ((194 <=? 192 + c / 64) && (192 + c / 64 <=? 223)) with true by lia.
    rewrite IH. unfold continues. lia. }
  destruct (c <? 65536) eqn:E3.
  { cbn [app utf8]. set (b := 224 + c / 4096). set (x := 128 + c / 64 mod 64). set (y := 128 + c mod 64).
    assert (Hb : 224 <= b <= 239 /\ 128 <= x <= 191 /\ 128 <= y <= 191 /\ (b = 224 -> 160 <= x) /\ (b = 237 -> x <= 159)) by (subst b x y; lia).
    clearbody b x y. replace (b <? 128) with false by lia. replace ((194 <=? b) && (b <=? 223)) with false by lia.
    replace ((224 <=? b) && (b <=? 239)) with true by lia. rewrite IH. unfold continues.
    destruct (b =? 224) eqn:B1, (b =? 237) eqn:B2; lia. }
  cbn [app utf8]. set (b := 240 + c / 262144). set (x := 128 + c / 4096 mod 64). set (y := 128 + c / 64 mod 64). set (z := 128 + c mod 64).
  assert (Hb : 240 <= b <= 244 /\ 128 <= x <= 191 /\ 128 <= y <= 191 /\ 128 <= z <= 191) by (subst b x y z; lia).
  assert (Hb2 : (b = 240 -> 144 <= x) /\ (b = 244 -> x <= 143)) by (subst b x; lia).
  clearbody b x y z. replace (b <? 128) with false by lia. replace ((194 <=? b) && (b <=? 223)) with false by lia.
  replace ((224 <=? b) && (b <=? 239)) with false by lia. replace ((240 <=? b) && (b <=? 244)) with true by lia. rewrite IH. unfold continues.
  destruct (b =? 240) eqn:B1, (b =? 244) eqn:B2; lia.
Qed.
Lemma utf8_spec l : Forall is_byte l -> utf8 (length l) l = true <-> utf8_text l.
Proof.
  intros Hl. split; [now apply utf8_sound|]. intros (cs & H & ->). now apply utf8_complete.
Qed.

(** Proofs about the encoding of messages: the decoder does what the specification says. *)
From Coq Require Import ZArith List Bool Lia ZifyBool ZifyNat.
From Verif Require Import Model.Prelude Model.Params Model.Transport Model.Apps Model.Protobuf Spec.ProtobufSpec Proofs.Base
  Proofs.ProtobufProofs.
Import ListNotations.
Open Scope Z_scope.
Ltac Zify.zify_post_hook ::= Z.div_mod_to_equations.

Scheme wire_ind2 := Induction for wire Sort Prop
  with payload_ind2 := Induction for payload_text Sort Prop.
Combined Scheme wire_payload_ind from wire_ind2, payload_ind2.

(** ** Fields on the wire *)

Lemma varint_length l v : is_varint l v -> (1 <= length l)%nat.
Proof. intros (H & _). exact (varint_nonempty _ _ H). Qed.

Lemma skip_sound : forall fuel,
  (forall d wt tag s r, Forall is_byte s -> 0 <= wt <= 5 -> skip_field fuel (Datatypes.S d) wt tag s = Some r ->
     exists p l, s = l ++ r /\ payload_type p = wt /\ payload_text d tag p l) /\
  (forall d tag s r, Forall is_byte s -> skip_group fuel d tag s = Some r ->
     exists l rs e, s = l ++ e ++ r /\ wire d l rs /\ is_key e tag 4).
Proof.
  induction fuel as [|fuel (IHf & IHg)]; [split; intros; discriminate|]. split.
  - intros d wt tag s r Hs Hw H. cbn [skip_field] in H.
    destruct (wt =? 0) eqn:W0.
    { destruct (get_varint s) as [[v s']|] eqn:E; [|discriminate]. apply some_inj in H. subst s'.
      destruct (get_varint_sound _ _ _ Hs E) as (l & -> & Hl). exists (PVarint v), l. split; [reflexivity|]. split; [cbn; lia|now constructor]. }
    destruct (wt =? 1) eqn:W1.
    { destruct (get_bytes 8 s) as [[v s']|] eqn:E; [|discriminate]. apply some_inj in H. subst s'.
      apply get_bytes_spec in E; [|lia]. destruct E as (-> & E). exists (P64 v), v. split; [reflexivity|]. split; [cbn; lia|constructor; lia]. }
    destruct (wt =? 5) eqn:W5.
    { destruct (get_bytes 4 s) as [[v s']|] eqn:E; [|discriminate]. apply some_inj in H. subst s'.
      apply get_bytes_spec in E; [|lia]. destruct E as (-> & E). exists (P32 v), v. split; [reflexivity|]. split; [cbn; lia|constructor; lia]. }
    destruct (wt =? 2) eqn:W2.
    { destruct (get_delimited s) as [[v s']|] eqn:E; [|discriminate]. apply some_inj in H. subst s'.
      destruct (get_delimited_sound _ _ _ Hs E) as (l & -> & Hl). exists (PLen v), l. split; [reflexivity|]. split; [cbn; lia|now constructor]. }
    destruct (wt =? 3) eqn:W3; [|discriminate].
    destruct (IHg d tag s r Hs H) as (l & rs & e & -> & H1 & H2).
    exists PGroup, (l ++ e). split; [now rewrite app_assoc|]. split; [cbn; lia|]. now apply text_group with rs.
  - intros d tag s r Hs H. cbn [skip_group] in H. destruct (get_key s) as [[[tag' wt'] s']|] eqn:E; [|discriminate].
    destruct (get_key_sound _ _ _ _ Hs E) as (k & -> & Hk & Hw). apply Forall_app in Hs. destruct Hs as (_ & Hs).
    destruct (wt' =? 4) eqn:W4.
    + destruct (tag' =? tag) eqn:Et; [|discriminate]. apply some_inj in H. subst s'. assert (wt' = 4) by lia. assert (tag' = tag) by lia. subst.
      exists [], [], k. split; [reflexivity|]. split; [constructor|exact Hk].
    + destruct (skip_field fuel d wt' tag' s') as [s''|] eqn:F; [|discriminate]. destruct d as [|d]; [destruct fuel; discriminate|].
      destruct (IHf d wt' tag' s' s'' Hs Hw F) as (p & l & -> & Hp & Hl). apply Forall_app in Hs. destruct Hs as (_ & Hs).
      destruct (IHg (Datatypes.S d) tag s'' r Hs H) as (l2 & rs & e & -> & H1 & H2).
      exists (k ++ l ++ l2), ((tag', p) :: rs), e. split; [now rewrite <- !app_assoc|]. split; [|exact H2].
      constructor; [|exact Hl|exact H1]. subst wt'. exact Hk.
Qed.

Lemma skip_complete :
  (forall d s rs, wire d s rs -> forall fuel tag e r, is_key e tag 4 -> (2 * length (s ++ e ++ r) + 1 <= fuel)%nat ->
     skip_group fuel d tag (s ++ e ++ r) = Some r) /\
  (forall d tag p l, payload_text d tag p l -> forall fuel r, (2 * length (l ++ r) + 2 <= fuel)%nat ->
     skip_field fuel (Datatypes.S d) (payload_type p) tag (l ++ r) = Some r).
Proof.
  apply wire_payload_ind.
  - intros d fuel tag e r He Hf. destruct fuel as [|fuel]; [lia|]. cbn [app skip_group].
    rewrite (get_key_complete _ _ _ _ He) by lia. rewrite !Z.eqb_refl. reflexivity.
  - intros d k tag p l s rs Hk Hp IHp Hs IHs fuel tag' e r He Hf. destruct fuel as [|fuel]; [lia|]. cbn [skip_group].
    pose proof (payload_type_range p). pose proof (key_length _ _ _ Hk).
    rewrite <- !app_assoc, (get_key_complete _ _ _ _ Hk) by lia.
    rewrite !app_length in Hf.
    replace (payload_type p =? 4) with false by (destruct p; reflexivity).
    rewrite IHp by (rewrite !app_length; lia). apply IHs; [exact He|rewrite !app_length; lia].
  - intros d tag l v Hl fuel r Hf. destruct fuel as [|fuel]; [lia|]. cbn [skip_field payload_type Z.eqb].
    rewrite (get_varint_complete _ _ _ Hl). reflexivity.
  - intros d tag l Hl fuel r Hf. destruct fuel as [|fuel]; [lia|]. cbn [skip_field payload_type Z.eqb Pos.eqb].
    rewrite (proj2 (get_bytes_spec 8 (l ++ r) l r ltac:(lia))); [reflexivity|]. split; [reflexivity|lia].
  - intros d tag l Hl fuel r Hf. destruct fuel as [|fuel]; [lia|]. cbn [skip_field payload_type Z.eqb Pos.eqb].
    rewrite (proj2 (get_bytes_spec 4 (l ++ r) l r ltac:(lia))); [reflexivity|]. split; [reflexivity|lia].
  - intros d tag l body Hl fuel r Hf. destruct fuel as [|fuel]; [lia|]. cbn [skip_field payload_type Z.eqb Pos.eqb].
    rewrite (get_delimited_complete _ _ _ Hl). reflexivity.
  - intros d tag s rs e Hs IHs He fuel r Hf. destruct fuel as [|fuel]; [lia|]. cbn [skip_field payload_type Z.eqb Pos.eqb].
    rewrite <- app_assoc in *. apply IHs; [exact He|lia].
Qed.

Lemma payload_fun d tag p1 p2 l1 l2 r1 r2 : payload_text d tag p1 l1 -> payload_text d tag p2 l2 -> payload_type p1 = payload_type p2 ->
  l1 ++ r1 = l2 ++ r2 -> p1 = p2 /\ l1 = l2 /\ r1 = r2.
Proof.
  intros H1 H2 Ht E.
  pose proof (proj2 skip_complete _ _ _ _ H1 (2 * length (l1 ++ r1) + 2)%nat r1 (le_n _)) as S1.
  pose proof (proj2 skip_complete _ _ _ _ H2 (2 * length (l2 ++ r2) + 2)%nat r2 (le_n _)) as S2.
  rewrite E, Ht, S2 in S1. apply some_inj in S1. subst r2. apply app_inv_tail in E. subst l2.
  split; [|auto]. destruct H1; inversion H2; subst; try discriminate Ht; try reflexivity; try congruence.
  - match goal with A : is_varint ?l _, B : is_varint ?l _ |- _ => pose proof (get_varint_complete _ _ [] A); pose proof (get_varint_complete _ _ [] B) end. congruence.
  - match goal with A : delimited_text ?l _, B : delimited_text ?l _ |- _ => pose proof (get_delimited_complete _ _ [] A); pose proof (get_delimited_complete _ _ [] B) end. congruence.
Qed.

Lemma wire_fun d s rs : wire d s rs -> forall rs', wire d s rs' -> rs = rs'.
Proof.
  induction 1 as [d|d k tag p l s rs Hk Hp Hs IH]; intros rs' H'.
  - remember ([] : list Z) as s eqn:Es. destruct H' as [|d k tag p l s rs Hk Hp Hs]; [reflexivity|].
    pose proof (key_length _ _ _ Hk). destruct k; [cbn in *; lia|discriminate].
  - remember (k ++ l ++ s) as s0 eqn:Es. remember (Datatypes.S d) as d0 eqn:Ed.
    destruct H' as [d0|d0 k' tag' p' l' s' rs' Hk' Hp' Hs'].
    + pose proof (key_length _ _ _ Hk). destruct k; [cbn in *; lia|discriminate].
    + assert (d0 = d) by congruence. subst d0. clear Ed.
      pose proof (get_key_complete _ _ _ (l ++ s) Hk (payload_type_range p)) as K1.
      pose proof (get_key_complete _ _ _ (l' ++ s') Hk' (payload_type_range p')) as K2.
      rewrite Es, K1 in K2. apply some_inj in K2. apply pair_equal_spec in K2. destruct K2 as (K2 & K3). apply pair_equal_spec in K2. destruct K2 as (-> & K2).
      destruct (payload_fun _ _ _ _ _ _ _ _ Hp Hp' K2 K3) as (-> & -> & ->). f_equal. now apply IH.
Qed.
Lemma wire_fun2 d bodies rss rss' : Forall2 (wire d) bodies rss -> Forall2 (wire d) bodies rss' -> rss = rss'.
Proof.
  intros H. revert rss'. induction H as [|b rs bodies rss H _ IH]; intros rss' H'; inversion H'; subst; [reflexivity|].
  f_equal; [now apply (wire_fun d b)|now apply IH].
Qed.

(** ** Scalars *)

Lemma as_i32_low v : low_i32 v (as_i32 v).
Proof. unfold low_i32, as_i32. destruct (_ <? _) eqn:E; split; try lia. Qed.
Lemma low_i32_fun v a b : low_i32 v a -> low_i32 v b -> a = b.
Proof. unfold low_i32. lia. Qed.

Lemma get_scalar_sound d tag t wt s v r : Forall is_byte s -> get_scalar t wt s = Some (v, r) ->
  exists p l, s = l ++ r /\ payload_type p = wt /\ payload_text d tag p l /\ scalar_says t p v.
Proof.
  intros Hs H. unfold get_scalar in H. destruct (negb _) eqn:W; [discriminate|]. apply negb_false_iff, Z.eqb_eq in W. subst wt.
  destruct t; cbn [wire_type].
  1-5: destruct (get_varint s) as [[z s']|] eqn:E; [|discriminate]; apply some_inj in H; apply pair_equal_spec in H; destruct H as (<- & ->);
    destruct (get_varint_sound _ _ _ Hs E) as (l & -> & Hl); exists (PVarint z), l; (split; [reflexivity|]); (split; [reflexivity|]);
    (split; [now constructor|]); cbn [scalar_says]; try reflexivity; exists (as_i32 z); (split; [apply as_i32_low|reflexivity]).
  - destruct (get_bytes 8 s) as [[z s']|] eqn:E; [|discriminate]; apply some_inj in H; apply pair_equal_spec in H; destruct H as (<- & ->).
    apply get_bytes_spec in E; [|lia]. destruct E as (-> & E). exists (P64 z), z. split; [reflexivity|]. split; [reflexivity|]. split; [constructor; lia|reflexivity].
  - destruct (get_delimited s) as [[z s']|] eqn:E; [|discriminate]. destruct (utf8 (length z) z) eqn:U; [|discriminate].
    apply some_inj in H; apply pair_equal_spec in H; destruct H as (<- & ->).
    destruct (get_delimited_sound _ _ _ Hs E) as (l & -> & Hl). exists (PLen z), l. split; [reflexivity|]. split; [reflexivity|].
    split; [now constructor|]. split; [|reflexivity]. apply utf8_spec; [|exact U]. apply Forall_app in Hs. destruct Hs as (Hs & _).
    destruct Hl as (n & -> & _). apply Forall_app in Hs. apply Hs.
  - destruct (get_delimited s) as [[z s']|] eqn:E; [|discriminate].
    apply some_inj in H; apply pair_equal_spec in H; destruct H as (<- & ->).
    destruct (get_delimited_sound _ _ _ Hs E) as (l & -> & Hl). exists (PLen z), l. split; [reflexivity|]. split; [reflexivity|].
    split; [now constructor|reflexivity].
Qed.
Lemma scalar_type t p v : scalar_says t p v -> payload_type p = wire_type (Scalar t).
Proof. destruct t, p; cbn [scalar_says]; try contradiction; reflexivity. Qed.
Lemma get_scalar_complete d tag t p l v r : payload_text d tag p l -> scalar_says t p v ->
  get_scalar t (payload_type p) (l ++ r) = Some (v, r).
Proof.
  intros Hp Hv. unfold get_scalar. rewrite (scalar_type _ _ _ Hv), Z.eqb_refl. cbn [negb].
  destruct t, p; cbn [scalar_says] in Hv; try contradiction; inversion Hp; subst.
  all: try match goal with H : is_varint _ _ |- _ => rewrite (get_varint_complete _ _ _ H) end; try reflexivity.
  - destruct Hv as (x & Hx & ->). rewrite (low_i32_fun _ _ _ Hx (as_i32_low v0)). reflexivity.
  - destruct Hv as (x & Hx & ->). rewrite (low_i32_fun _ _ _ Hx (as_i32_low v0)). reflexivity.
  - match goal with |- context [get_bytes 8 (?x ++ r)] => rewrite (proj2 (get_bytes_spec 8 (x ++ r) x r ltac:(lia))); [reflexivity|] end. split; [reflexivity|lia].
  - destruct Hv as (Hu & ->). match goal with H : delimited_text _ _ |- _ => rewrite (get_delimited_complete _ _ _ H) end.
    rewrite (proj2 (utf8_spec _ (utf8_text_bytes _ Hu)) Hu). reflexivity.
  - match goal with H : delimited_text _ _ |- _ => rewrite (get_delimited_complete _ _ _ H) end. reflexivity.
Qed.
Lemma scalar_fun t p v v' : scalar_says t p v -> scalar_says t p v' -> v = v'.
Proof.
  destruct t, p; cbn [scalar_says]; try contradiction; try congruence.
  - intros (a & Ha & ->) (b & Hb & ->). now rewrite (low_i32_fun _ _ _ Ha Hb).
  - intros (a & Ha & ->) (b & Hb & ->). now rewrite (low_i32_fun _ _ _ Ha Hb).
  - intros (_ & ->) (_ & ->). reflexivity.
Qed.

(** ** What fields say *)

Lemma value_says_message d fs ps v : value_says d (Message fs) ps v <->
  exists bodies rss slots, ps = map PLen bodies /\ Forall2 (wire (d - 1)) bodies rss /\ v = Msg slots /\ message_says (d - 1) fs (concat rss) slots.
Proof.
  cbn [value_says]. split; intros (bodies & rss & slots & H1 & H2 & H3 & H4); exists bodies, rss, slots; (split; [exact H1|]); (split; [exact H2|]); (split; [exact H3|]); clear -H4.
  - revert slots H4. induction fs as [|[[tag lab] t] fs IH]; intros [|slot slots] H; try contradiction; [constructor|].
    destruct H as (H1 & H2). constructor; [exact H1|now apply IH].
  - induction H4 as [|[[tag lab] t] slot fs slots H _ IH]; [exact I|]. split; [exact H|exact IH].
Qed.
Lemma value_says_scalar d s ps v : value_says d (Scalar s) ps v <->
  (forall p, In p ps -> exists v, scalar_says s p v) /\ exists before p, ps = before ++ [p] /\ scalar_says s p v.
Proof. reflexivity. Qed.

(** Induction over types. *)
Lemma ftype_ind2 (P : ftype -> Prop) : (forall s, P (Scalar s)) -> (forall fs, Forall (fun f : field => P (snd f)) fs -> P (Message fs)) -> forall t, P t.
Proof.
  intros HS HM. fix IH 1. intros [s|fs]; [apply HS|]. apply HM. induction fs as [|[[tag lab] t] fs IHfs]; constructor; [exact (IH t)|exact IHfs].
Qed.

Lemma payloads_app tag a b : payloads tag (a ++ b) = payloads tag a ++ payloads tag b.
Proof. unfold payloads. now rewrite filter_app, map_app. Qed.
Lemma payloads_one tag tag' p : payloads tag [(tag', p)] = if tag' =? tag then [p] else [].
Proof. unfold payloads. cbn [filter fst]. destruct (_ =? _); reflexivity. Qed.

Lemma value_fun : forall t d ps v v', value_says d t ps v -> value_says d t ps v' -> v = v'.
Proof.
  apply (ftype_ind2 (fun t => forall d ps v v', value_says d t ps v -> value_says d t ps v' -> v = v')).
  - intros s d ps v v' (_ & b & p & E & H) (_ & b' & p' & E' & H'). rewrite E in E'. apply app_inj_tail in E'. destruct E' as (_ & <-).
    exact (scalar_fun _ _ _ _ H H').
  - intros fs IH d ps v v' H H'. apply value_says_message in H, H'.
    destruct H as (bodies & rss & slots & E & Hw & -> & Hm), H' as (bodies' & rss' & slots' & E' & Hw' & -> & Hm').
    assert (bodies = bodies').
    { clear -E E'. rewrite E in E'. clear E. revert bodies' E'. induction bodies as [|b bodies IH]; intros [|b' bodies'] E; cbn in E; try discriminate; [reflexivity|].
      assert (b = b') by congruence. subst. f_equal. apply IH. congruence. }
    subst bodies'. rewrite <- (wire_fun2 _ _ _ _ Hw Hw') in Hm'. f_equal. clear -IH Hm Hm'. revert slots' Hm'.
    induction Hm as [|[[tag lab] t] slot fs slots H _ IHm]; intros slots' Hm'; inversion Hm' as [|? slot' ? slots1 H1 H2]; subst; [reflexivity|].
    inversion IH as [|? ? IHt IHfs]. subst. f_equal; [|now apply IHm]. cbn [snd] in IHt. clear IHfs IHm Hm' H2.
    unfold field_says in *. destruct lab.
    + destruct H as [(P & ->)|(P & w & -> & H)], H1 as [(P1 & ->)|(P1 & w1 & -> & H1)]; try congruence; try contradiction. f_equal. exact (IHt _ _ _ _ H H1).
    + destruct H as [(P & ->)|(P & w & -> & H)], H1 as [(P1 & ->)|(P1 & w1 & -> & H1)]; try congruence; try contradiction. f_equal. exact (IHt _ _ _ _ H H1).
    + revert slot' H1. induction H as [|p v ps slot H _ IHs]; intros slot' H1; inversion H1; subst; [reflexivity|]. f_equal; [eapply IHt; eassumption|now apply IHs].
Qed.
Lemma message_fun d fs rs slots slots' : message_says d fs rs slots -> message_says d fs rs slots' -> slots = slots'.
Proof.
  intros Hm. revert slots'. induction Hm as [|[[tag lab] t] slot fs slots H _ IHm]; intros slots' Hm'; inversion Hm' as [|? slot' ? slots1 H1 H2]; subst; [reflexivity|].
  f_equal; [|now apply IHm]. unfold field_says in *. destruct lab.
  + destruct H as [(P & ->)|(P & w & -> & H)], H1 as [(P1 & ->)|(P1 & w1 & -> & H1)]; try congruence; try contradiction. f_equal. exact (value_fun _ _ _ _ _ H H1).
  + destruct H as [(P & ->)|(P & w & -> & H)], H1 as [(P1 & ->)|(P1 & w1 & -> & H1)]; try congruence; try contradiction. f_equal. exact (value_fun _ _ _ _ _ H H1).
  + clear -H H1. revert slot' H1. induction H as [|p v ps slot H _ IHs]; intros slot' H1; inversion H1; subst; [reflexivity|]. f_equal; [eapply value_fun; eassumption|now apply IHs].
Qed.

(** What is said by the first of the fields. *)
Lemma map_PLen_app bodies ps ps' : ps ++ ps' = map PLen bodies -> exists b1 b2, bodies = b1 ++ b2 /\ ps = map PLen b1 /\ ps' = map PLen b2.
Proof.
  revert bodies. induction ps as [|p ps IH]; intros bodies E; [exists [], bodies; auto|]. destruct bodies as [|b bodies]; [discriminate|].
  cbn in E. assert (p = PLen b) by congruence. assert (ps ++ ps' = map PLen bodies) by congruence.
  destruct (IH bodies H0) as (b1 & b2 & -> & -> & ->). exists (b :: b1), b2. subst p. auto.
Qed.
Lemma value_prefix : forall t d ps ps' v, ps <> [] -> value_says d t (ps ++ ps') v -> exists v', value_says d t ps v'.
Proof.
  apply (ftype_ind2 (fun t => forall d ps ps' v, ps <> [] -> value_says d t (ps ++ ps') v -> exists v', value_says d t ps v')).
  - intros s d ps ps' v Hn (Hall & _). destruct (exists_last Hn) as (b & p & E). 
    destruct (Hall p) as (v' & Hv'). { rewrite E, !in_app_iff. left. right. now left. }
    exists v'. split; [intros q Hq; apply Hall, in_app_iff; now left|]. exists b, p. auto.
  - intros fs IH d ps ps' v Hn H. apply value_says_message in H. destruct H as (bodies & rss & slots & E & Hw & -> & Hm).
    destruct (map_PLen_app _ _ _ E) as (b1 & b2 & -> & -> & ->). apply Forall2_app_inv_l in Hw. destruct Hw as (r1 & r2 & Hw1 & Hw2 & ->).
    rewrite concat_app in Hm.
    assert (X : exists slots', message_says (d - 1) fs (concat r1) slots').
    { clear -IH Hm. induction Hm as [|[[tag lab] t] slot fs slots H _ IHm]; [exists []; constructor|].
      inversion IH as [|? ? IHt IHfs]. subst. destruct (IHm IHfs) as (slots' & Hs'). cbn [snd] in IHt.
      assert (Y : exists slot', field_says (d - 1) (tag, lab, t) (concat r1) slot').
      { unfold field_says in *. rewrite payloads_app in H. destruct lab.
        - destruct (payloads tag (concat r1)) as [|p l] eqn:E; [exists [default_value t]; now left|]. destruct H as [(P & ->)|(P & w & -> & H)]; [discriminate|].
          destruct (IHt (d - 1)%nat (p :: l) (payloads tag (concat r2)) w ltac:(discriminate) H) as (v' & Hv'). exists [v']. right. split; [discriminate|]. now exists v'.
        - destruct (payloads tag (concat r1)) as [|p l] eqn:E; [exists []; now left|]. destruct H as [(P & ->)|(P & w & -> & H)]; [discriminate|].
          destruct (IHt (d - 1)%nat (p :: l) (payloads tag (concat r2)) w ltac:(discriminate) H) as (v' & Hv'). exists [v']. right. split; [discriminate|]. now exists v'.
        - apply Forall2_app_inv_l in H. destruct H as (s1 & s2 & H & _). now exists s1. }
      destruct Y as (slot' & Hs). exists (slot' :: slots'). now constructor. }
    destruct X as (slots' & Hs'). exists (Msg slots'). apply value_says_message. exists b1, r1, slots'. auto.
Qed.

(** ** Where a field is *)

Lemma position_sound {A} (f : A -> bool) l i : position f l = Some i -> exists x, nth_error l i = Some x /\ f x = true.
Proof.
  revert i. induction l as [|x l IH]; intros i H; [discriminate|]. cbn [position] in H. destruct (f x) eqn:E.
  - apply some_inj in H. subst i. now exists x.
  - destruct (position f l) as [j|]; [|discriminate]. apply some_inj in H. subst i. exact (IH j eq_refl).
Qed.
Lemma position_none {A} (f : A -> bool) l : position f l = None -> forall x, In x l -> f x = false.
Proof.
  induction l as [|x l IH]; intros H y Hy; [contradiction|]. cbn [position] in H. destruct (f x) eqn:E; [discriminate|].
  destruct (position f l); [discriminate|]. destruct Hy as [<-|Hy]; [exact E|now apply IH].
Qed.
Definition tags (fs : list field) : list Z := map (fun f => fst (fst f)) fs.

Lemma says_other d fs rs tag p slots : (forall f, In f fs -> (fst (fst f) =? tag) = false) -> message_says d fs rs slots ->
  message_says d fs (rs ++ [(tag, p)]) slots.
Proof.
  intros Hn Hm. induction Hm as [|[[tg lab] t] slot fs slots H _ IH]; [constructor|]. constructor; [|apply IH; intros f Hf; apply Hn; now right].
  unfold field_says in *. rewrite payloads_app, payloads_one. specialize (Hn _ (or_introl eq_refl)). cbn [fst] in Hn.
  rewrite Z.eqb_sym, Hn, app_nil_r. exact H.
Qed.
Lemma put_S {A} i (x y : A) l : put (Datatypes.S i) [x] (y :: l) = y :: put i [x] l.
Proof. reflexivity. Qed.
Lemma says_update d fs rs tag lab t p slots slot' i : NoDup (tags fs) -> message_says d fs rs slots -> nth_error fs i = Some (tag, lab, t) ->
  field_says d (tag, lab, t) (rs ++ [(tag, p)]) slot' -> message_says d fs (rs ++ [(tag, p)]) (put i [slot'] slots).
Proof.
  intros Hnd Hm Hi Hf. revert i Hi Hnd. induction Hm as [|[[tg lab'] t'] slot fs slots H Hm IH]; intros i Hi Hnd; [destruct i; discriminate|].
  inversion Hnd as [|? ? Hnin Hnd']. subst. destruct i as [|i].
  - cbn [nth_error] in Hi. apply some_inj in Hi. assert (E1 : tg = tag) by congruence. assert (E2 : lab' = lab) by congruence. assert (E3 : t' = t) by congruence. subst. unfold put. rewrite firstn_O. cbn [app length skipn Nat.add]. constructor; [exact Hf|].
    apply says_other; [|exact Hm]. intros f Hin. apply Z.eqb_neq. intros E. apply Hnin. cbn [fst]. rewrite <- E. exact (in_map (fun f : field => fst (fst f)) _ _ Hin).
  - cbn [nth_error] in Hi. rewrite put_S. constructor; [|now apply IH]. unfold field_says in *. rewrite payloads_app, payloads_one.
    replace (tag =? tg) with false; [rewrite app_nil_r; exact H|]. symmetry. apply Z.eqb_neq. intros <-. apply Hnin. cbn [fst].
    apply nth_error_In in Hi. exact (in_map (fun f : field => fst (fst f)) _ _ Hi).
Qed.
Lemma says_nth d fs rs slots i f : message_says d fs rs slots -> nth_error fs i = Some f -> field_says d f rs (nth i slots []).
Proof.
  intros Hm. revert i. induction Hm as [|g slot fs slots H _ IH]; intros [|i] Hi; try discriminate Hi; cbn [nth_error nth] in *; [apply some_inj in Hi; now subst|now apply IH].
Qed.
Lemma says_default d fs : message_says d fs [] (default_slots fs).
Proof.
  unfold default_slots. induction fs as [|[[tag lab] t] fs IH]; [constructor|]. cbn [map]. constructor; [|exact IH].
  unfold field_says. cbn [payloads filter map]. destruct lab; [now left|now left|constructor].
Qed.

Scheme type_ind2 := Induction for type_ok Sort Prop
  with fields_ind2 := Induction for fields_ok Sort Prop.
Lemma fields_ok_nodup d fs : fields_ok d fs -> NoDup (tags fs).
Proof.
  induction fs as [|f fs IH]; intros H; inversion H; subst; constructor; [assumption|now apply IH].
Qed.
Lemma fields_ok_nth d fs i tag lab t : fields_ok d fs -> nth_error fs i = Some (tag, lab, t) ->
  1 <= tag < 2 ^ 29 /\ (lab = Repeated -> exists fs, t = Message fs) /\ type_ok d t.
Proof.
  revert i. induction fs as [|f fs IH]; intros [|i] H Hi; try discriminate; inversion H; subst; cbn [nth_error] in Hi.
  - apply some_inj in Hi. apply pair_equal_spec in Hi. destruct Hi as (Hi & ->). apply pair_equal_spec in Hi. destruct Hi as (-> & ->). auto.
  - exact (IH i ltac:(assumption) Hi).
Qed.

(** ** The decoder *)

Lemma type_message_inv d fs : type_ok d (Message fs) -> exists d', d = Datatypes.S d' /\ fields_ok d' fs.
Proof. intros H. inversion H. subst. eauto. Qed.

Lemma says_scalar_next D fs rs slots i tag lab t p v : NoDup (tags fs) -> message_says D fs rs slots ->
  nth_error fs i = Some (tag, lab, Scalar t) -> (lab <> Repeated) -> scalar_says t p v ->
  message_says D fs (rs ++ [(tag, p)]) (put i [[v]] slots).
Proof.
  intros Hnd Hm Hi Hlab Hv. pose proof (says_nth _ _ _ _ _ _ Hm Hi) as Hf.
  apply (says_update D fs rs tag lab (Scalar t)); [exact Hnd|exact Hm|exact Hi|].
  unfold field_says in *. rewrite payloads_app, payloads_one, Z.eqb_refl.
  assert (X : (payloads tag rs ++ [p] <> [] /\ exists v0, [v] = [v0] /\ value_says D (Scalar t) (payloads tag rs ++ [p]) v0)).
  { split; [destruct (payloads tag rs); discriminate|]. exists v. split; [reflexivity|]. split; [|now exists (payloads tag rs), p].
    intros q Hq. apply in_app_iff in Hq. destruct Hq as [Hq|[<-|[]]]; [|now exists v].
    destruct lab; [| |congruence].
    - destruct Hf as [(P & _)|(_ & w & _ & (H & _))]; [rewrite P in Hq; contradiction|now apply H].
    - destruct Hf as [(P & _)|(_ & w & _ & (H & _))]; [rewrite P in Hq; contradiction|now apply H]. }
  destruct lab; [now right|now right|congruence].
Qed.

(** What the fields of a message inside say before and after one more part of it. *)
Definition merge_start (lab : label) (slot : list value) (fs' : list field) : list value * list (list value) :=
  match lab, slot with
  | Repeated, _ => (slot, default_slots fs')
  | _, [Msg slots'] => ([], slots')
  | _, _ => ([], default_slots fs')
  end.
Lemma says_message_start D fs rs slots i tag lab fs' : message_says D fs rs slots -> nth_error fs i = Some (tag, lab, Message fs') ->
  exists rs0, message_says (D - 1) fs' rs0 (snd (merge_start lab (nth i slots []) fs')) /\
    (forall body rb slots', NoDup (tags fs) -> wire (D - 1) body rb -> message_says (D - 1) fs' (rs0 ++ rb) slots' ->
       message_says D fs (rs ++ [(tag, PLen body)]) (put i [fst (merge_start lab (nth i slots []) fs') ++ [Msg slots']] slots)) /\
    (forall body rs' final, message_says D fs (rs ++ (tag, PLen body) :: rs') final ->
       exists rb slots', wire (D - 1) body rb /\ message_says (D - 1) fs' (rs0 ++ rb) slots').
Proof.
  intros Hm Hi. pose proof (says_nth _ _ _ _ _ _ Hm Hi) as Hf. unfold field_says in Hf.
  (* from nothing *)
  assert (Y0 : forall body, value_says D (Message fs') [PLen body] = value_says D (Message fs') (map PLen [body])) by reflexivity.
  assert (Z0 : forall body rs' final, message_says D fs (rs ++ (tag, PLen body) :: rs') final ->
     (lab = Repeated \/ payloads tag rs = []) -> exists v, value_says D (Message fs') [PLen body] v).
  { intros body rs' final Hfin Hl. pose proof (says_nth _ _ _ _ _ _ Hfin Hi) as Hg. unfold field_says in Hg.
    change ((tag, PLen body) :: rs') with ([(tag, PLen body)] ++ rs') in Hg. rewrite !payloads_app, payloads_one, Z.eqb_refl in Hg.
    destruct lab.
    - destruct Hl as [Hl|Hl]; [discriminate|]. rewrite Hl in Hg. destruct Hg as [(P & _)|(_ & w & _ & Hg)]; [discriminate|].
      apply (value_prefix _ _ [PLen body] _ _ ltac:(discriminate) Hg).
    - destruct Hl as [Hl|Hl]; [discriminate|]. rewrite Hl in Hg. destruct Hg as [(P & _)|(_ & w & _ & Hg)]; [discriminate|].
      apply (value_prefix _ _ [PLen body] _ _ ltac:(discriminate) Hg).
    - apply Forall2_app_inv_l in Hg. destruct Hg as (s1 & s2 & _ & Hg & _). inversion Hg. subst. eauto. }
  assert (Z1 : forall body v, value_says D (Message fs') [PLen body] v -> exists rb slots', wire (D - 1) body rb /\ message_says (D - 1) fs' rb slots').
  { intros body v Hv. apply value_says_message in Hv. destruct Hv as (bodies & rss & slots' & E & Hw & -> & Hm').
    destruct bodies as [|b [|b2 bodies]]; try discriminate E. cbn [map] in E. assert (b = body) by congruence. subst b.
    inversion Hw as [|? rb ? rss' Hw1 Hw2]. subst. inversion Hw2. subst. cbn [concat] in Hm'. rewrite app_nil_r in Hm'. eauto. }
  assert (Z2 : forall body rb slots', wire (D - 1) body rb -> message_says (D - 1) fs' rb slots' -> value_says D (Message fs') [PLen body] (Msg slots')).
  { intros body rb slots' Hw Hs. apply value_says_message. exists [body], [rb], slots'. split; [reflexivity|]. split; [now repeat constructor|].
    split; [reflexivity|]. cbn [concat]. now rewrite app_nil_r. }
  assert (N0 : lab <> Repeated -> payloads tag rs = [] -> merge_start lab (nth i slots []) fs' = ([], default_slots fs') ->
    exists rs0, message_says (D - 1) fs' rs0 (snd (merge_start lab (nth i slots []) fs')) /\
    (forall body rb slots', NoDup (tags fs) -> wire (D - 1) body rb -> message_says (D - 1) fs' (rs0 ++ rb) slots' ->
       message_says D fs (rs ++ [(tag, PLen body)]) (put i [fst (merge_start lab (nth i slots []) fs') ++ [Msg slots']] slots)) /\
    (forall body rs' final, message_says D fs (rs ++ (tag, PLen body) :: rs') final ->
       exists rb slots', wire (D - 1) body rb /\ message_says (D - 1) fs' (rs0 ++ rb) slots')).
  { intros Hlab Hp ->. exists []. cbn [fst snd app]. split; [apply says_default|]. split.
    - intros body rb slots' Hnd Hw Hs. apply (says_update D fs rs tag lab (Message fs')); [exact Hnd|exact Hm|exact Hi|].
      unfold field_says. rewrite payloads_app, payloads_one, Z.eqb_refl, Hp. cbn [app].
      pose proof (Z2 _ _ _ Hw Hs) as HV. destruct lab; [| |congruence]; right; (split; [discriminate|]); exists (Msg slots'); (split; [reflexivity|exact HV]).
    - intros body rs' final Hfin. destruct (Z0 _ _ _ Hfin (or_intror Hp)) as (v & Hv). exact (Z1 _ _ Hv). }
  assert (N1 : forall w, lab <> Repeated -> payloads tag rs <> [] -> nth i slots [] = [w] -> value_says D (Message fs') (payloads tag rs) w ->
    exists rs0, message_says (D - 1) fs' rs0 (snd (merge_start lab (nth i slots []) fs')) /\
    (forall body rb slots', NoDup (tags fs) -> wire (D - 1) body rb -> message_says (D - 1) fs' (rs0 ++ rb) slots' ->
       message_says D fs (rs ++ [(tag, PLen body)]) (put i [fst (merge_start lab (nth i slots []) fs') ++ [Msg slots']] slots)) /\
    (forall body rs' final, message_says D fs (rs ++ (tag, PLen body) :: rs') final ->
       exists rb slots', wire (D - 1) body rb /\ message_says (D - 1) fs' (rs0 ++ rb) slots')).
  { intros w Hlab Hp Hslot Hw. apply value_says_message in Hw. destruct Hw as (bodies & rss & slots0 & Eb & Hw & -> & Hm0).
    rewrite Hslot. replace (merge_start lab [Msg slots0] fs') with (([], slots0) : list value * list (list value)) by (destruct lab; [reflexivity|reflexivity|congruence]).
    exists (concat rss). cbn [fst snd app]. split; [exact Hm0|]. split.
    - intros body rb slots' Hnd Hwb Hs. apply (says_update D fs rs tag lab (Message fs')); [exact Hnd|exact Hm|exact Hi|].
      assert (X : value_says D (Message fs') (payloads tag rs ++ [PLen body]) (Msg slots')).
      { apply value_says_message. exists (bodies ++ [body]), (rss ++ [rb]), slots'. rewrite map_app, Eb. split; [reflexivity|].
        split; [apply Forall2_app; [exact Hw|now repeat constructor]|]. split; [reflexivity|]. rewrite concat_app. cbn [concat]. now rewrite app_nil_r. }
      unfold field_says. rewrite payloads_app, payloads_one, Z.eqb_refl.
      destruct lab; [| |congruence]; right; (split; [destruct (payloads tag rs); discriminate|]); exists (Msg slots'); (split; [reflexivity|exact X]).
    - intros body rs' final Hfin. pose proof (says_nth _ _ _ _ _ _ Hfin Hi) as Hg. unfold field_says in Hg.
      change ((tag, PLen body) :: rs') with ([(tag, PLen body)] ++ rs') in Hg. rewrite app_assoc, payloads_app, payloads_app, payloads_one, Z.eqb_refl in Hg.
      assert (X : exists v, value_says D (Message fs') (payloads tag rs ++ [PLen body]) v).
      { destruct lab; [| |congruence].
        - destruct Hg as [(P & _)|(_ & w & _ & Hg)]; [destruct (payloads tag rs); discriminate|]. eapply value_prefix; [|exact Hg]. destruct (payloads tag rs); discriminate.
        - destruct Hg as [(P & _)|(_ & w & _ & Hg)]; [destruct (payloads tag rs); discriminate|]. eapply value_prefix; [|exact Hg]. destruct (payloads tag rs); discriminate. }
      destruct X as (v & Hv). apply value_says_message in Hv. destruct Hv as (bodies' & rss' & slots' & E' & Hw' & -> & Hm').
      destruct (map_PLen_app _ _ _ E') as (b1 & b2 & -> & E1 & E2). destruct b2 as [|b [|b3 b2]]; try discriminate E2. cbn [map] in E2. assert (b = body) by congruence. subst b.
      assert (b1 = bodies).
      { clear -E1 Eb. rewrite Eb in E1. clear Eb. revert b1 E1. induction bodies as [|b bodies IH]; intros [|b' b1] E; cbn in E; try discriminate; [reflexivity|].
        assert (b = b') by congruence. subst. f_equal. apply IH. congruence. }
      subst b1. apply Forall2_app_inv_l in Hw'. destruct Hw' as (r1 & r2 & Hw1 & Hw2 & ->).
      rewrite <- (wire_fun2 _ _ _ _ Hw Hw1) in Hm'. inversion Hw2 as [|? rb ? r3 Hb Hr]. subst. inversion Hr. subst.
      rewrite concat_app in Hm'. cbn [concat] in Hm'. rewrite app_nil_r in Hm'. eauto. }
  destruct lab.
  - destruct Hf as [(P & E)|(P & w & E & Hw)]; [|now apply (N1 w)]. rewrite E in *.
    exists []. cbn [merge_start default_value]. fold (default_slots fs'). cbn [fst snd app]. split; [apply says_default|]. split.
    + intros body rb slots' Hnd Hw Hs. apply (says_update D fs rs tag Required (Message fs')); [exact Hnd|exact Hm|exact Hi|].
      unfold field_says. rewrite payloads_app, payloads_one, Z.eqb_refl, P. cbn [app]. right. split; [discriminate|]. exists (Msg slots'). split; [reflexivity|]. now apply Z2 with rb.
    + intros body rs' final Hfin. destruct (Z0 _ _ _ Hfin (or_intror P)) as (v & Hv). exact (Z1 _ _ Hv).
  - destruct Hf as [(P & E)|(P & w & E & Hw)]; [|now apply (N1 w)]. apply N0; [discriminate|exact P|]. rewrite E. reflexivity.
  - exists []. cbn [merge_start fst snd app]. split; [apply says_default|]. split.
    + intros body rb slots' Hnd Hw Hs. apply (says_update D fs rs tag Repeated (Message fs')); [exact Hnd|exact Hm|exact Hi|].
      unfold field_says. rewrite payloads_app, payloads_one, Z.eqb_refl. apply Forall2_app; [exact Hf|]. constructor; [now apply Z2 with rb|constructor].
    + intros body rs' final Hfin. destruct (Z0 _ _ _ Hfin (or_introl eq_refl)) as (v & Hv). exact (Z1 _ _ Hv).
Qed.

Lemma merge_sound : forall fuel d D fs slots s slots' rs, Forall is_byte s -> fields_ok d fs -> (d < D)%nat -> message_says D fs rs slots ->
  merge_fields fuel D fs slots s = Some slots' -> exists rs', wire D s rs' /\ message_says D fs (rs ++ rs') slots'.
Proof.
  induction fuel as [|fuel IH]; intros d D fs slots s slots' rs Hs Hfs Hd Hm H.
  - destruct s; [|discriminate]. apply some_inj in H. subst. exists []. split; [constructor|now rewrite app_nil_r].
  - destruct s as [|b0 s0]; [apply some_inj in H; subst; exists []; split; [constructor|now rewrite app_nil_r]|].
    cbn [merge_fields] in H. set (s := b0 :: s0) in *. clearbody s. clear b0 s0.
    destruct (get_key s) as [[[tag wt] s1]|] eqn:Ek; [|discriminate].
    destruct (get_key_sound _ _ _ _ Hs Ek) as (k & -> & Hk & Hwt). apply Forall_app in Hs. destruct Hs as (_ & Hs). clear Ek.
    destruct D as [|D]; [lia|].
    assert (Next : forall p l s2 slots2, s1 = l ++ s2 -> payload_type p = wt -> payload_text D tag p l -> 
              message_says (Datatypes.S D) fs (rs ++ [(tag, p)]) slots2 -> merge_fields fuel (Datatypes.S D) fs slots2 s2 = Some slots' ->
              exists rs', wire (Datatypes.S D) (k ++ s1) rs' /\ message_says (Datatypes.S D) fs (rs ++ rs') slots').
    { intros p l s2 slots2 -> Hp Hl Hm2 H2. apply Forall_app in Hs. destruct Hs as (_ & Hs).
      destruct (IH d (Datatypes.S D) fs slots2 s2 slots' (rs ++ [(tag, p)]) Hs Hfs Hd Hm2 H2) as (rs' & W & M).
      exists ((tag, p) :: rs'). split; [constructor; [now rewrite Hp|exact Hl|exact W]|]. rewrite <- app_assoc in M. exact M. }
    destruct (position _ fs) as [i|] eqn:Ep.
    + destruct (position_sound _ _ _ Ep) as ([[tag' lab] t] & Hi & Et). cbn [fst] in Et. apply Z.eqb_eq in Et. subst tag'. rewrite Hi in H.
      destruct (fields_ok_nth _ _ _ _ _ _ Hfs Hi) as (_ & Hrep & Hty). destruct t as [t|fs'].
      * destruct (get_scalar t wt s1) as [[v s2]|] eqn:Eg; [|discriminate].
        destruct (get_scalar_sound D tag t wt s1 v s2 Hs Eg) as (p & l & E & Hp & Hl & Hv).
        apply (Next p l s2 (put i [[v]] slots) E Hp Hl); [|exact H]. apply (says_scalar_next (Datatypes.S D) fs rs slots i tag lab t); [exact (fields_ok_nodup _ _ Hfs)|exact Hm|exact Hi| |exact Hv].
        intros ->. destruct (Hrep eq_refl) as (x & X). discriminate X.
      * destruct (negb (wt =? 2) || _) eqn:Ew; [discriminate|]. apply orb_false_iff in Ew. destruct Ew as (Ew & _). apply negb_false_iff, Z.eqb_eq in Ew.
        destruct (get_delimited s1) as [[body s2]|] eqn:Eg; [|discriminate]. 
        destruct (get_delimited_sound _ _ _ Hs Eg) as (l & E & Hl).
        destruct (says_message_start _ _ _ _ _ _ _ _ Hm Hi) as (rs0 & Hm0 & Hput & _).
        fold (merge_start lab (nth i slots []) fs') in H.
        destruct (merge_start lab (nth i slots []) fs') as [before current]. cbn [fst snd] in *.
        destruct (merge_fields fuel _ fs' current body) as [slots2|] eqn:Em; [|discriminate].
        destruct (type_message_inv _ _ Hty) as (d' & -> & Hfs').
        assert (Hb : Forall is_byte body).
        { subst s1. apply Forall_app in Hs. destruct Hs as (Hs & _). destruct Hl as (n & -> & _). apply Forall_app in Hs. apply Hs. }
        destruct (IH d' (Datatypes.S D - 1)%nat fs' current body slots2 rs0 Hb Hfs' ltac:(lia) Hm0 Em) as (rb & Wb & Mb).
        apply (Next (PLen body) l s2 (put i [before ++ [Msg slots2]] slots) E); [now rewrite Ew|now constructor| |exact H].
        apply (Hput body rb slots2 (fields_ok_nodup _ _ Hfs) Wb Mb).
    + destruct (skip_field _ _ _ _ _) as [s2|] eqn:Esk; [|discriminate].
      destruct (proj1 (skip_sound _) D wt tag s1 s2 Hs Hwt Esk) as (p & l & E & Hp & Hl).
      apply (Next p l s2 slots E Hp Hl); [|exact H]. apply says_other; [|exact Hm]. exact (position_none _ _ Ep).
Qed.

Lemma merge_complete : forall fuel d D fs slots s rs rs' final, fields_ok d fs -> (d < D)%nat -> message_says D fs rs slots ->
  wire D s rs' -> message_says D fs (rs ++ rs') final -> (length s <= fuel)%nat -> Forall is_byte s ->
  exists slots', merge_fields fuel D fs slots s = Some slots'.
Proof.
  induction fuel as [|fuel IH]; intros d D fs slots s rs rs' final Hfs Hd Hm Hw Hfin Hf Hs.
  - destruct s; [|cbn in Hf; lia]. exists slots. reflexivity.
  - remember s as s' eqn:Es. destruct Hw as [D|D k tag p l s2 rs' Hk Hp Hw2]; [exists slots; reflexivity|].
    pose proof (key_length _ _ _ Hk) as Hkl. rewrite Es. cbn [merge_fields]. destruct s as [|b0 s0]; [destruct k; [cbn in Hkl; lia|discriminate]|].
    rewrite <- Es in *. clear b0 s0 Es. rewrite (get_key_complete _ _ _ _ Hk (payload_type_range p)). rewrite !app_length in Hf.
    rewrite !Forall_app in Hs. destruct Hs as (_ & Hsl & Hs2).
    assert (Next : forall slots2, message_says (Datatypes.S D) fs (rs ++ [(tag, p)]) slots2 -> exists slots', merge_fields fuel (Datatypes.S D) fs slots2 s2 = Some slots').
    { intros slots2 Hm2. apply (IH d (Datatypes.S D) fs slots2 s2 (rs ++ [(tag, p)]) rs' final Hfs Hd Hm2 Hw2); [rewrite <- app_assoc; exact Hfin|lia|exact Hs2]. }
    destruct (position _ fs) as [i|] eqn:Ep.
    + destruct (position_sound _ _ _ Ep) as ([[tag' lab] t] & Hi & Et). cbn [fst] in Et. apply Z.eqb_eq in Et. subst tag'. rewrite Hi.
      destruct (fields_ok_nth _ _ _ _ _ _ Hfs Hi) as (_ & Hrep & Hty). pose proof (says_nth _ _ _ _ _ _ Hfin Hi) as Hg. unfold field_says in Hg.
      change ((tag, p) :: rs') with ([(tag, p)] ++ rs') in Hg. rewrite !payloads_app, payloads_one, Z.eqb_refl in Hg.
      destruct t as [t|fs'].
      * assert (Hlab : lab <> Repeated). { intros ->. destruct (Hrep eq_refl) as (x & X). discriminate X. }
        assert (X : exists v, scalar_says t p v).
        { destruct lab; [| |congruence].
          - destruct Hg as [(P & _)|(_ & w & _ & (Hg & _))]; [destruct (payloads tag rs); discriminate|]. apply Hg. apply in_app_iff. right. now left.
          - destruct Hg as [(P & _)|(_ & w & _ & (Hg & _))]; [destruct (payloads tag rs); discriminate|]. apply Hg. apply in_app_iff. right. now left. }
        destruct X as (v & Hv). rewrite (get_scalar_complete _ _ _ _ _ _ _ Hp Hv). apply Next.
        now apply (says_scalar_next (Datatypes.S D) fs rs slots i tag lab t p v (fields_ok_nodup _ _ Hfs) Hm Hi).
      * assert (X : exists body, p = PLen body).
        { assert (Y : exists v q, value_says (Datatypes.S D) (Message fs') q v /\ In p q).
          { destruct lab.
            - destruct Hg as [(P & _)|(_ & w & _ & Hg)]; [destruct (payloads tag rs); discriminate|]. exists w. eexists. split; [exact Hg|]. apply in_app_iff. right. now left.
            - destruct Hg as [(P & _)|(_ & w & _ & Hg)]; [destruct (payloads tag rs); discriminate|]. exists w. eexists. split; [exact Hg|]. apply in_app_iff. right. now left.
            - apply Forall2_app_inv_l in Hg. destruct Hg as (x1 & x2 & _ & Hg & _). inversion Hg as [|? y ? ? Hy]. subst. exists y, [p]. split; [exact Hy|now left]. }
          destruct Y as (v & q & Hv & Hin). apply value_says_message in Hv. destruct Hv as (bodies & _ & _ & -> & _). apply in_map_iff in Hin. destruct Hin as (b & <- & _). now exists b. }
        destruct X as (body & ->). inversion Hp as [| | |? ? ? ? Hdl|]. subst.
        cbn [payload_type Z.eqb Pos.eqb negb orb Nat.eqb]. rewrite (get_delimited_complete _ _ _ Hdl).
        destruct (says_message_start _ _ _ _ _ _ _ _ Hm Hi) as (rs0 & Hm0 & Hput & Hget).
        fold (merge_start lab (nth i slots []) fs').
        destruct (merge_start lab (nth i slots []) fs') as [before current]. cbn [fst snd] in *.
        destruct (Hget body rs' final Hfin) as (rb & fin' & Wb & Mb).
        destruct (type_message_inv _ _ Hty) as (d' & -> & Hfs'). pose proof (delimited_length _ _ Hdl) as Hlen.
        assert (Hb : Forall is_byte body). { destruct Hdl as (n & -> & _). apply Forall_app in Hsl. apply Hsl. }
        destruct (IH d' (Datatypes.S D - 1)%nat fs' current body rs0 rb fin' Hfs' ltac:(lia) Hm0 Wb Mb ltac:(lia) Hb) as (slots2 & E2). rewrite E2.
        apply Next. destruct (merge_sound _ d' (Datatypes.S D - 1)%nat fs' current body slots2 rs0 Hb Hfs' ltac:(lia) Hm0 E2) as (rb' & Wb' & Mb').
        exact (Hput body rb' slots2 (fields_ok_nodup _ _ Hfs) Wb' Mb').
    + rewrite (proj2 skip_complete _ _ _ _ Hp _ s2 (le_n _)). apply Next. apply says_other; [|exact Hm]. exact (position_none _ _ Ep).
Qed.

(** The decoder: exactly what the specification says. *)
Theorem decode_fields_spec d fs s slots : fields_ok d fs -> (d < 100)%nat -> Forall is_byte s ->
  decode_fields fs s = Some slots <-> exists rs, wire 100 s rs /\ message_says 100 fs rs slots.
Proof.
  intros Hfs Hd Hs. unfold decode_fields. generalize dependent 100%nat. intros D Hd. split.
  - intros H. exact (merge_sound _ d D fs _ s slots [] Hs Hfs Hd (says_default D fs) H).
  - intros (rs & W & M). destruct (merge_complete (length s) d D fs (default_slots fs) s [] rs slots Hfs Hd (says_default D fs) W M (le_n _) Hs) as (slots' & E).
    rewrite E. destruct (merge_sound _ d D fs _ s slots' [] Hs Hfs Hd (says_default D fs) E) as (rs' & W' & M').
    rewrite (wire_fun _ _ _ W' _ W) in M'. f_equal. exact (message_fun _ _ _ _ _ M' M).
Qed.

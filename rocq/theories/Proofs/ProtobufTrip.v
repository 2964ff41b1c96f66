(** Proofs about the encoding of messages: what is encoded can be decoded. *)
From Coq Require Import ZArith List Bool Lia ZifyBool ZifyNat.
From Verif Require Import Model.Prelude Model.Params Model.Transport Model.Apps Model.Protobuf
  Spec.TransportSpec Spec.AppsSpec Spec.ProtobufSpec Proofs.Base Proofs.ProtobufProofs Proofs.ProtobufMain.
Import ListNotations.
Open Scope Z_scope.
Ltac Zify.zify_post_hook ::= Z.div_mod_to_equations.

Lemma put_value_message fs slots : put_value (Message fs) (Msg slots) =
  put_varint (Z.of_nat (length (put_fields fs slots))) ++ put_fields fs slots.
Proof.
  cbn [put_value]. assert (E : forall fs slots, (fix put_fields (fs : list field) (slots : list (list value)) {struct fs} : list Z :=
     match fs with
     | [] => []
     | (tag, _, t) :: fs0 => match slots with
       | [] => []
       | vs :: slots0 => flat_map (fun v => put_key tag (wire_type t) ++ put_value t v) vs ++ put_fields fs0 slots0
       end
     end) fs slots = put_fields fs slots).
  { clear. induction fs as [|[[tag lab] t] fs IH]; intros [|vs slots]; try reflexivity. }
  rewrite E. reflexivity.
Qed.
Lemma wire_type_range t : 0 <= wire_type t <= 5.
Proof. destruct t as [[]|]; cbn; lia. Qed.

Lemma put_scalar_ok s v d tag : scalar_conforms s v -> Z.of_nat (length (put_scalar s v)) < 2 ^ 64 ->
  exists p, payload_text d tag p (put_scalar s v) /\ payload_type p = wire_type (Scalar s) /\ scalar_says s p v.
Proof.
  intros Hc Hl. destruct s, v; cbn [scalar_conforms] in Hc; try contradiction; cbn [put_scalar wire_type] in *.
  - exists (PVarint z). split; [constructor; apply put_varint_ok; lia|]. split; [reflexivity|]. cbn [scalar_says]. rewrite Z.mod_small by lia. reflexivity.
  - exists (PVarint z). split; [constructor; apply put_varint_ok; lia|]. split; reflexivity.
  - exists (PVarint (z mod 2 ^ 64)). split; [constructor; apply put_varint_ok; lia|]. split; [reflexivity|]. exists z. split; [|reflexivity]. unfold low_i32. lia.
  - exists (PVarint z). split; [constructor; apply put_varint_ok; lia|]. split; [reflexivity|]. cbn [scalar_says]. destruct Hc; subst; reflexivity.
  - exists (PVarint (z mod 2 ^ 64)). split; [constructor; apply put_varint_ok; lia|]. split; [reflexivity|]. exists z. split; [|reflexivity]. unfold low_i32. lia.
  - exists (P64 l). split; [constructor; apply Hc|]. split; reflexivity.
  - exists (PLen l). split; [constructor; apply put_delimited; rewrite app_length in Hl; lia|]. split; [reflexivity|]. now split.
  - exists (PLen l). split; [constructor; apply put_delimited; rewrite app_length in Hl; lia|]. split; reflexivity.
Qed.

Lemma says_none d fs rs0 rs slots : (forall tag, In tag (tags fs) -> payloads tag rs0 = []) -> message_says d fs rs slots -> message_says d fs (rs0 ++ rs) slots.
Proof.
  intros Hn Hm. induction Hm as [|[[tg lab] t] slot fs slots H _ IH]; [constructor|]. constructor; [|apply IH; intros f Hf; apply Hn; now right].
  unfold field_says in *. rewrite payloads_app, (Hn tg (or_introl eq_refl)). exact H.
Qed.

(** The encoding of one value, of the values of a field, of the fields. *)
Definition value_put (t : ftype) : Prop := forall d D v e tag, type_ok d t -> (d < D)%nat -> conforms t v -> Z.of_nat (length (put_value t v)) < 2 ^ 64 ->
  exists p, payload_text e tag p (put_value t v) /\ payload_type p = wire_type t /\ value_says D t [p] v.
Lemma put_slot t tag d D vs : value_put t -> type_ok d t -> (d < D)%nat -> 1 <= tag < 2 ^ 29 -> Forall (conforms t) vs ->
  Z.of_nat (length (flat_map (fun v => put_key tag (wire_type t) ++ put_value t v) vs)) < 2 ^ 64 ->
  exists ps, Forall2 (fun p v => value_says D t [p] v) ps vs /\
    forall s rs, wire D s rs -> wire D (flat_map (fun v => put_key tag (wire_type t) ++ put_value t v) vs ++ s) (map (fun p => (tag, p)) ps ++ rs).
Proof.
  intros IH Ht Hd Htag Hvs. induction Hvs as [|v vs Hv _ IHvs]; intros Hl; [exists []; split; [constructor|auto]|].
  cbn [flat_map] in *. rewrite !app_length in Hl. destruct IHvs as (ps & H1 & H2); [lia|]. destruct D as [|D]; [lia|].
  destruct (IH d (Datatypes.S D) v D tag Ht Hd Hv ltac:(lia)) as (p & P1 & P2 & P3). exists (p :: ps). split; [now constructor|].
  intros s rs Hw. rewrite <- !app_assoc. cbn [map app]. constructor; [|exact P1|now apply H2]. rewrite P2. apply put_key_ok; [exact Htag|apply wire_type_range].
Qed.
Lemma payloads_map tag ps : payloads tag (map (fun p => (tag, p)) ps) = ps.
Proof. unfold payloads. induction ps as [|p ps IH]; [reflexivity|]. cbn [map filter fst]. rewrite Z.eqb_refl. cbn [map snd]. now rewrite IH. Qed.
Lemma payloads_map_other tag tag' ps : tag' <> tag -> payloads tag (map (fun p => (tag', p)) ps) = [].
Proof. intros H. unfold payloads. induction ps as [|p ps IH]; [reflexivity|]. cbn [map filter fst]. apply Z.eqb_neq in H. rewrite H. exact IH. Qed.

Lemma put_fields_ok d D : (d < D)%nat -> forall fs slots, Forall (fun f : field => value_put (snd f)) fs -> fields_ok d fs ->
  Forall2 (fun (f : field) slot => count_conforms (snd (fst f)) slot /\ Forall (conforms (snd f)) slot) fs slots ->
  Z.of_nat (length (put_fields fs slots)) < 2 ^ 64 ->
  exists rs, wire D (put_fields fs slots) rs /\ message_says D fs rs slots /\ forall tag, ~ In tag (tags fs) -> payloads tag rs = [].
Proof.
  intros Hd. induction fs as [|[[tag lab] t] fs IH]; intros slots HP Hfs Hc Hl; inversion Hc as [|? slot ? slots' (Hn & Hs) Hc']; subst.
  - exists []. split; [constructor|]. split; [constructor|reflexivity].
  - cbn [put_fields] in *. rewrite app_length in Hl. inversion HP as [|? ? HP1 HP2]. subst. inversion Hfs as [|? ? ? ? ? Ht1 Ht2 Ht3 Ht4 Ht5]. subst. cbn [fst snd] in *.
    destruct (IH slots' HP2 Ht5 Hc' ltac:(lia)) as (rs & W & M & N).
    destruct (put_slot t tag d D slot HP1 Ht4 Hd Ht1 Hs ltac:(lia)) as (ps & P1 & P2).
    exists (map (fun p => (tag, p)) ps ++ rs). split; [now apply P2|]. split.
    + constructor.
      * unfold field_says. rewrite payloads_app, payloads_map, (N tag Ht2), app_nil_r. unfold count_conforms in Hn. destruct lab.
        -- inversion P1 as [|p v ps' vs' Q1 Q2]; subst; [discriminate Hn|]. destruct vs'; [|discriminate Hn]. inversion Q2. subst. right. split; [discriminate|]. now exists v.
        -- inversion P1 as [|p v ps' vs' Q1 Q2]; subst; [now left|]. destruct vs'; [|cbn in Hn; lia]. inversion Q2. subst. right. split; [discriminate|]. now exists v.
        -- exact P1.
      * apply says_none; [|exact M]. intros tag' Hin. apply payloads_map_other. intros <-. exact (Ht2 Hin).
    + intros tag' Hnin. rewrite payloads_app, N, app_nil_r by (intros Hin; apply Hnin; now right). apply payloads_map_other. intros <-. apply Hnin. now left.
Qed.
Lemma value_put_all t : value_put t.
Proof.
  induction t as [s|fs IH] using ftype_ind2; intros d D v e tag Ht Hd Hc Hl.
  - inversion Hc as [? ? Hc'|]. subst. cbn [put_value] in *. destruct (put_scalar_ok s v e tag Hc') as (p & P1 & P2 & P3).
    { destruct v; exact Hl. }
    exists p. split; [destruct v; exact P1|]. split; [exact P2|]. split; [intros q [<-|[]]; eauto|]. exists [], p. auto.
  - inversion Hc as [|? slots Hc']. subst. rewrite put_value_message in *. rewrite app_length in Hl.
    destruct (type_message_inv _ _ Ht) as (d' & -> & Hfs).
    destruct (put_fields_ok d' (D - 1) ltac:(lia) fs slots IH Hfs Hc' ltac:(lia)) as (rs & W & M & _).
    exists (PLen (put_fields fs slots)). split; [constructor; apply put_delimited; lia|]. split; [reflexivity|].
    apply value_says_message. exists [put_fields fs slots], [rs], slots. split; [reflexivity|]. split; [now repeat constructor|]. split; [reflexivity|]. cbn [concat]. now rewrite app_nil_r.
Qed.

(** The same with exactly what is written. *)
Lemma put_scalar_written s v d tag : scalar_conforms s v -> Z.of_nat (length (put_scalar s v)) < 2 ^ 64 ->
  exists p, payload_text d tag p (put_scalar s v) /\ payload_type p = wire_type (Scalar s) /\ scalar_written s v p.
Proof.
  intros Hc Hl. destruct s, v; cbn [scalar_conforms] in Hc; try contradiction; cbn [put_scalar wire_type] in *.
  - exists (PVarint z). split; [constructor; apply put_varint_ok; lia|]. split; reflexivity.
  - exists (PVarint z). split; [constructor; apply put_varint_ok; lia|]. split; reflexivity.
  - exists (PVarint (z mod 2 ^ 64)). split; [constructor; apply put_varint_ok; lia|]. split; [reflexivity|]. cbn [scalar_written]. destruct (z <? 0) eqn:E; lia.
  - exists (PVarint z). split; [constructor; apply put_varint_ok; lia|]. split; reflexivity.
  - exists (PVarint (z mod 2 ^ 64)). split; [constructor; apply put_varint_ok; lia|]. split; [reflexivity|]. cbn [scalar_written]. destruct (z <? 0) eqn:E; lia.
  - exists (P64 l). split; [constructor; apply Hc|]. split; reflexivity.
  - exists (PLen l). split; [constructor; apply put_delimited; rewrite app_length in Hl; lia|]. split; reflexivity.
  - exists (PLen l). split; [constructor; apply put_delimited; rewrite app_length in Hl; lia|]. split; reflexivity.
Qed.
Definition value_out (t : ftype) : Prop := forall d v e tag, type_ok d t -> conforms t v -> Z.of_nat (length (put_value t v)) < 2 ^ 64 ->
  exists p, payload_text e tag p (put_value t v) /\ payload_type p = wire_type t /\ value_written t v p.
Lemma slot_written t tag d vs : value_out t -> type_ok d t -> 1 <= tag < 2 ^ 29 -> Forall (conforms t) vs ->
  Z.of_nat (length (flat_map (fun v => put_key tag (wire_type t) ++ put_value t v) vs)) < 2 ^ 64 ->
  exists ps, Forall2 (value_written t) vs ps /\
    forall D s rs, wire (Datatypes.S D) s rs -> wire (Datatypes.S D) (flat_map (fun v => put_key tag (wire_type t) ++ put_value t v) vs ++ s) (map (fun p => (tag, p)) ps ++ rs).
Proof.
  intros IH Ht Htag Hvs. induction Hvs as [|v vs Hv _ IHvs]; intros Hl; [exists []; split; [constructor|auto]|].
  cbn [flat_map] in *. rewrite !app_length in Hl. destruct IHvs as (ps & H1 & H2); [lia|].
  destruct (IH d v 0%nat tag Ht Hv ltac:(lia)) as (p & P1 & P2 & P3). exists (p :: ps). split; [now constructor|].
  intros D s rs Hw. rewrite <- !app_assoc. cbn [map app]. constructor; [rewrite P2; apply put_key_ok; [exact Htag|apply wire_type_range]| |now apply H2].
  destruct P1; try (constructor; assumption). destruct t as [[]|]; discriminate P2.
Qed.
Lemma put_fields_written d : forall fs slots, Forall (fun f : field => value_out (snd f)) fs -> fields_ok d fs ->
  Forall2 (fun (f : field) slot => count_conforms (snd (fst f)) slot /\ Forall (conforms (snd f)) slot) fs slots ->
  Z.of_nat (length (put_fields fs slots)) < 2 ^ 64 ->
  exists rs, (forall D, wire (Datatypes.S D) (put_fields fs slots) rs) /\ fields_written fs slots rs.
Proof.
  induction fs as [|[[tag lab] t] fs IH]; intros slots HP Hfs Hc Hl; inversion Hc as [|? slot ? slots' (Hn & Hs) Hc']; subst.
  - exists []. split; [intros D|]; constructor.
  - cbn [put_fields] in *. rewrite app_length in Hl. inversion HP as [|? ? HP1 HP2]. subst. inversion Hfs as [|? ? ? ? ? Ht1 Ht2 Ht3 Ht4 Ht5]. subst. cbn [fst snd] in *.
    destruct (IH slots' HP2 Ht5 Hc' ltac:(lia)) as (rs & W & M).
    destruct (slot_written t tag d slot HP1 Ht4 Ht1 Hs ltac:(lia)) as (ps & P1 & P2).
    exists (map (fun p => (tag, p)) ps ++ rs). split; [intros D; apply P2, W|]. now constructor.
Qed.
Lemma value_out_all t : value_out t.
Proof.
  induction t as [s|fs IH] using ftype_ind2; intros d v e tag Ht Hc Hl.
  - inversion Hc as [? ? Hc'|]. subst. cbn [put_value] in *. destruct (put_scalar_written s v e tag Hc') as (p & P1 & P2 & P3).
    { destruct v; exact Hl. }
    exists p. split; [destruct v; exact P1|]. split; [exact P2|]. now constructor.
  - inversion Hc as [|? slots Hc']. subst. rewrite put_value_message in *. rewrite app_length in Hl.
    destruct (type_message_inv _ _ Ht) as (d' & -> & Hfs).
    destruct (put_fields_written d' fs slots IH Hfs Hc' ltac:(lia)) as (rs & W & M).
    exists (PLen (put_fields fs slots)). split; [constructor; apply put_delimited; lia|]. split; [reflexivity|].
    exact (written_message fs slots _ rs (W 0%nat) M).
Qed.
Lemma encoder_spec d fs slots : fields_ok d fs -> conforms (Message fs) (Msg slots) -> Z.of_nat (length (put_fields fs slots)) < 2 ^ 64 ->
  exists rs, wire 1 (put_fields fs slots) rs /\ fields_written fs slots rs.
Proof.
  intros Hfs Hc Hl. inversion Hc as [|? ? Hc']. subst.
  destruct (put_fields_written d fs slots) as (rs & W & M); [apply Forall_forall; intros f _; apply value_out_all|exact Hfs|exact Hc'|exact Hl|].
  exists rs. split; [apply W|exact M].
Qed.

Lemma put_scalar_bytes s v : scalar_conforms s v -> Z.of_nat (length (put_scalar s v)) < 2 ^ 64 -> Forall is_byte (put_scalar s v).
Proof.
  intros Hc Hl. assert (V : forall z, 0 <= z < 2 ^ 64 -> Forall is_byte (put_varint z)).
  { intros z Hz. destruct (put_varint_ok z Hz) as (H & _). exact (varint_bytes _ _ H). }
  destruct s, v; cbn [scalar_conforms] in Hc; try contradiction; cbn [put_scalar] in *; try (apply V; lia).
  - apply Hc.
  - rewrite app_length in Hl. apply Forall_app. split; [apply V; lia|now apply utf8_text_bytes].
  - rewrite app_length in Hl. apply Forall_app. split; [apply V; lia|exact Hc].
Qed.
Lemma put_bytes t : forall d v, type_ok d t -> conforms t v -> Z.of_nat (length (put_value t v)) < 2 ^ 64 -> Forall is_byte (put_value t v).
Proof.
  induction t as [s|fs IH] using ftype_ind2; intros d v Ht Hc Hl.
  - inversion Hc as [? ? Hc'|]. subst. replace (put_value (Scalar s) v) with (put_scalar s v) in * by (destruct v; reflexivity). now apply put_scalar_bytes.
  - inversion Hc as [|? slots Hc']. subst. rewrite put_value_message in *. rewrite app_length in Hl. destruct (type_message_inv _ _ Ht) as (d' & -> & Hfs).
    assert (V : forall z, 0 <= z < 2 ^ 64 -> Forall is_byte (put_varint z)).
    { intros z Hz. destruct (put_varint_ok z Hz) as (H & _). exact (varint_bytes _ _ H). }
    apply Forall_app. split; [apply V; lia|]. assert (Hl' : Z.of_nat (length (put_fields fs slots)) < 2 ^ 64) by lia. clear -IH Hc' Hl' Hfs V.
    revert slots Hc' Hl'. induction fs as [|[[tag lab] t] fs IHfs]; intros slots Hc Hl; inversion Hc as [|? slot ? slots' (Hn & Hs) Hc']; subst; [constructor|].
    cbn [put_fields] in *. rewrite app_length in Hl. inversion IH as [|? ? IH1 IH2]. subst. inversion Hfs as [|? ? ? ? ? Ht1 Ht2 Ht3 Ht4 Ht5]. subst. cbn [fst snd] in *.
    apply Forall_app. split; [|apply IHfs; [exact IH2|exact Ht5|exact Hc'|lia]].
    assert (Hl1 : Z.of_nat (length (flat_map (fun v => put_key tag (wire_type t) ++ put_value t v) slot)) < 2 ^ 64) by lia. clear Hl Hn Hc. revert Hl1.
    induction Hs as [|v vs Hv _ IHs]; intros Hl; [constructor|]. cbn [flat_map] in *. rewrite !app_length in Hl. rewrite !Forall_app. split; [split|].
    + apply V. pose proof (wire_type_range t). lia.
    + apply (IH1 d' v Ht4 Hv). lia.
    + apply IHs. lia.
Qed.
Lemma put_fields_bytes d fs slots : fields_ok d fs -> conforms (Message fs) (Msg slots) -> Z.of_nat (length (put_fields fs slots)) + 10 < 2 ^ 64 ->
  Forall is_byte (put_fields fs slots).
Proof.
  intros Hfs Hc Hl. assert (H : Forall is_byte (put_value (Message fs) (Msg slots))).
  { apply (put_bytes _ (Datatypes.S d)); [now constructor|exact Hc|]. rewrite put_value_message, app_length.
    destruct (put_varint_ok (Z.of_nat (length (put_fields fs slots))) ltac:(lia)) as (_ & H & _). lia. }
  rewrite put_value_message in H. apply Forall_app in H. apply H.
Qed.

Theorem round_trip d fs slots : fields_ok d fs -> (d < 100)%nat -> conforms (Message fs) (Msg slots) -> Z.of_nat (length (put_fields fs slots)) + 10 < 2 ^ 64 ->
  decode_fields fs (put_fields fs slots) = Some slots.
Proof.
  intros Hfs Hd Hc Hl. apply (decode_fields_spec d); [exact Hfs|exact Hd|now apply (put_fields_bytes d)|].
  inversion Hc as [|? ? Hc']. subst. destruct (put_fields_ok d 100 Hd fs slots) as (rs & W & M & _); [|exact Hfs|exact Hc'|lia|].
  - apply Forall_forall. intros f _. apply value_put_all.
  - now exists rs.
Qed.

(** ** What is decoded has the types *)

Definition payload_ok (p : payload) : Prop :=
  match p with
  | PVarint v => 0 <= v < 2 ^ 64
  | P64 l => length l = 8%nat /\ Forall is_byte l
  | PLen l | P32 l => Forall is_byte l
  | PGroup => True
  end.
Lemma wire_payloads d s rs : wire d s rs -> Forall is_byte s -> forall tag, Forall payload_ok (payloads tag rs).
Proof.
  induction 1 as [d|d k tag p l s rs Hk Hp Hs IH]; intros Hb tag'; [constructor|].
  rewrite !Forall_app in Hb. destruct Hb as (_ & Hl & Hb). change ((tag, p) :: rs) with ([(tag, p)] ++ rs). rewrite payloads_app, payloads_one.
  apply Forall_app. split; [|now apply IH]. destruct (_ =? _); [|constructor]. constructor; [|constructor]. clear -Hp Hl.
  inversion Hp as [? ? ? ? Hv| | |? ? ? ? Hv|]; subst; cbn [payload_ok]; auto.
  - destruct Hv as (H1 & _ & H3). pose proof (varint_nonneg _ _ H1). lia.
  - destruct Hv as (n & -> & _). apply Forall_app in Hl. apply Hl.
Qed.
Lemma scalar_conforms_says s p v : payload_ok p -> scalar_says s p v -> scalar_conforms s v.
Proof.
  intros Hp Hv. destruct s, p; cbn [scalar_says] in Hv; try contradiction; cbn [payload_ok] in Hp.
  - subst v. cbn [scalar_conforms]. lia.
  - subst v. exact Hp.
  - destruct Hv as (r & H & ->). apply H.
  - subst v. cbn [scalar_conforms]. destruct (_ =? _); auto.
  - destruct Hv as (r & H & ->). apply H.
  - subst v. exact Hp.
  - destruct Hv as (H & ->). exact H.
  - subst v. exact Hp.
Qed.
Lemma default_conforms t : forall d, type_ok d t -> conforms t (default_value t).
Proof.
  induction t as [s|fs IH] using ftype_ind2; intros d Ht.
  - constructor. inversion Ht as [? ? He|]. subst. destruct s; cbn [default_value default_scalar scalar_conforms]; try (now apply He); try lia.
    + split; [reflexivity|]. apply Forall_forall. intros x Hx. apply repeat_spec in Hx. subst. unfold is_byte. lia.
    + exists []. split; [constructor|reflexivity].
    + constructor.
  - destruct (type_message_inv _ _ Ht) as (d' & -> & Hfs). clear Ht. cbn [default_value]. constructor.
    induction fs as [|[[tag lab] t] fs IHfs]; [constructor|]. inversion IH as [|? ? IH1 IH2]. subst. inversion Hfs as [|? ? ? ? ? Ht1 Ht2 Ht3 Ht4 Ht5]. subst.
    cbn [map]. constructor; [|now apply IHfs]. cbn [fst snd] in *. destruct lab; cbn [count_conforms length].
    + split; [reflexivity|]. constructor; [now apply (IH1 d')|constructor].
    + split; [lia|constructor].
    + split; [exact I|constructor].
Qed.
Lemma says_conforms t : forall d D ps v, type_ok d t -> Forall payload_ok ps -> value_says D t ps v -> conforms t v.
Proof.
  induction t as [s|fs IH] using ftype_ind2; intros d D ps v Ht Hp Hv.
  - destruct Hv as (_ & b & p & -> & Hv). constructor. apply (scalar_conforms_says s p); [|exact Hv]. apply Forall_app in Hp. destruct Hp as (_ & Hp). now inversion Hp.
  - apply value_says_message in Hv. destruct Hv as (bodies & rss & slots & -> & Hw & -> & Hm). destruct (type_message_inv _ _ Ht) as (d' & -> & Hfs). clear Ht. constructor.
    assert (Hpay : forall tag, Forall payload_ok (payloads tag (concat rss))).
    { intros tag. clear -Hw Hp. induction Hw as [|b r bodies rss H _ IH]; [constructor|]. cbn [map concat] in *. inversion Hp as [|? ? H1 H2]. subst.
      rewrite payloads_app. apply Forall_app. split; [exact (wire_payloads _ _ _ H H1 tag)|now apply IH]. }
    clear Hw Hp. induction Hm as [|[[tag lab] t] slot fs slots H _ IHm]; [constructor|]. inversion IH as [|? ? IH1 IH2]. subst. inversion Hfs as [|? ? ? ? ? Ht1 Ht2 Ht3 Ht4 Ht5]. subst.
    constructor; [|now apply IHm]. cbn [fst snd] in *. unfold field_says in H. destruct lab; cbn [count_conforms].
    + destruct H as [(_ & ->)|(_ & w & -> & H)]; (split; [reflexivity|]); (constructor; [|constructor]); [exact (default_conforms t d' Ht4)|exact (IH1 _ _ _ _ Ht4 (Hpay tag) H)].
    + destruct H as [(_ & ->)|(_ & w & -> & H)]; (split; [cbn; lia|]); [constructor|]. constructor; [exact (IH1 _ _ _ _ Ht4 (Hpay tag) H)|constructor].
    + split; [exact I|]. specialize (Hpay tag). clear -H Hpay IH1 Ht4. induction H as [|p v ps vs H _ IH]; [constructor|]. inversion Hpay as [|? ? P1 P2]. subst.
      constructor; [apply (IH1 d' (D - 1)%nat [p] v Ht4); [now constructor|exact H]|now apply IH].
Qed.
Theorem decoded_conforms d fs s slots : fields_ok d fs -> (d < 100)%nat -> Forall is_byte s -> decode_fields fs s = Some slots -> conforms (Message fs) (Msg slots).
Proof.
  intros Hfs Hd Hs H. destruct (proj1 (decode_fields_spec d fs s slots Hfs Hd Hs) H) as (rs & W & M).
  apply (says_conforms (Message fs) (Datatypes.S d) 101 [PLen s]); [now constructor|now repeat constructor|].
  apply value_says_message. exists [s], [rs], slots. split; [reflexivity|]. split; [now repeat constructor|]. split; [reflexivity|]. cbn [concat]. now rewrite app_nil_r.
Qed.

(** Only what is given for each known field matters. *)
Theorem decode_same d fs s s' rs rs' : fields_ok d fs -> (d < 100)%nat -> Forall is_byte s -> Forall is_byte s' -> wire 100 s rs -> wire 100 s' rs' ->
  (forall tag, In tag (map (fun f : field => fst (fst f)) fs) -> payloads tag rs = payloads tag rs') -> decode_fields fs s = decode_fields fs s'.
Proof.
  intros Hfs Hd Hs Hs' W W' Hp.
  assert (X : forall slots, message_says 100 fs rs slots <-> message_says 100 fs rs' slots).
  { intros slots. assert (Hp' : forall tag, In tag (tags fs) -> payloads tag rs = payloads tag rs') by exact Hp. clear -Hp'. generalize dependent 100%nat. intros D.
    split; intros H; induction H as [|[[tag lab] t] slot fs slots H _ IH]; constructor; try (apply IH; intros tag' Hin; apply Hp'; now right);
      unfold field_says in *; rewrite (Hp' tag (or_introl eq_refl)) in *; exact H. }
  destruct (decode_fields fs s) as [slots|] eqn:E.
  - symmetry. apply (decode_fields_spec d); [assumption..|]. exists rs'. split; [exact W'|]. apply X.
    destruct (proj1 (decode_fields_spec d fs s slots Hfs Hd Hs) E) as (rs1 & W1 & M1). now rewrite <- (wire_fun _ _ _ W1 _ W).
  - destruct (decode_fields fs s') as [slots|] eqn:E'; [|reflexivity]. exfalso.
    destruct (proj1 (decode_fields_spec d fs s' slots Hfs Hd Hs') E') as (rs1 & W1 & M1). rewrite (wire_fun _ _ _ W1 _ W') in M1. apply X in M1.
    assert (Y : decode_fields fs s = Some slots) by (apply (decode_fields_spec d); [assumption..|]; now exists rs). congruence.
Qed.

(** ** navmon.proto *)

Ltac type_ok_tac :=
  repeat first [ apply type_scalar; let n := fresh in let E := fresh in intros n E; first [discriminate E | (assert (n = 1) by congruence; subst n; lia)]
               | apply type_message | apply fields_none
               | apply fields_more; [lia | cbn; intuition lia | first [discriminate | intros _; eexists; reflexivity] | | ] ].
Lemma navmon_ok : fields_ok 2 navmon_fields.
Proof.
  unfold navmon_fields, req, opt, galileo_inav_fields, other_nav_fields, other_inav_fields, glonass_fields, reception_fields, rf_fields, position_fields, sar_fields,
    debugging_fields, observer_fields, jamming_fields, sbas_fields, rtcm_fields, time_offset_fields, gnss_offset_fields, req, opt.
  type_ok_tac.
Qed.

Lemma navmon_round_trip (m : navmon) : conforms (Message navmon_fields) (Msg m) -> Z.of_nat (length (put_fields navmon_fields m)) + 10 < 2 ^ 64 ->
  decode (codec := navmon_codec) (encode (codec := navmon_codec) m) = Some m.
Proof. intros Hc Hl. exact (round_trip 2 navmon_fields m navmon_ok ltac:(lia) Hc Hl). Qed.
Lemma navmon_decoded s m : Forall is_byte s -> decode (codec := navmon_codec) s = Some m -> conforms (Message navmon_fields) (Msg m).
Proof. intros Hs H. exact (decoded_conforms 2 navmon_fields s m navmon_ok ltac:(lia) Hs H). Qed.

Lemma nums_of o : opt_num (nums o) = o. Proof. destruct o; reflexivity. Qed.
Lemma strs_of o : opt_str (strs o) = o. Proof. destruct o; reflexivity. Qed.
Lemma message_of_of m : message_of (of_message m) = m.
Proof.
  destruct m as [a b c d [p|]]; [|reflexivity]. unfold message_of, of_message. cbn [m_source_id m_type m_utc_seconds m_utc_nanoseconds m_gi app nth num].
  unfold inav_of, of_inav. cbn [nth num str]. rewrite !nums_of, !strs_of. destruct p; reflexivity.
Qed.
Lemma nums_conforms o n : (forall z, o = Some z -> 0 <= z < 2 ^ 32) -> count_conforms (snd (fst (opt n Uint32))) (nums o) /\ Forall (conforms (snd (opt n Uint32))) (nums o).
Proof.
  intros H. cbn [opt fst snd count_conforms]. destruct o as [z|]; cbn [nums length]; (split; [lia|]); [|constructor]. constructor; [|constructor]. constructor. now apply H.
Qed.
Lemma strs_conforms o n : (forall z, o = Some z -> Forall is_byte z) -> count_conforms (snd (fst (opt n Bytes))) (strs o) /\ Forall (conforms (snd (opt n Bytes))) (strs o).
Proof.
  intros H. cbn [opt fst snd count_conforms]. destruct o as [z|]; cbn [strs length]; (split; [lia|]); [|constructor]. constructor; [|constructor]. constructor. now apply H.
Qed.
Lemma req_conforms n s v : scalar_conforms s v -> count_conforms (snd (fst (req n s))) [v] /\ Forall (conforms (snd (req n s))) [v].
Proof. intros H. split; [reflexivity|]. constructor; [now constructor|constructor]. Qed.
Lemma none_conforms (n : Z) (fs : list field) : count_conforms (snd (fst (n, Optional, Message fs))) ([] : list value) /\ Forall (conforms (snd (n, Optional, Message fs))) [].
Proof. split; [cbn; lia|constructor]. Qed.
Lemma of_message_conforms m : message_fits m -> conforms (Message navmon_fields) (Msg (of_message m)).
Proof.
  intros (H1 & H2 & H3 & H4 & H5). constructor. unfold navmon_fields, of_message. cbn [repeat app].
  constructor; [apply req_conforms; exact H1|]. constructor; [apply req_conforms; exact H2|]. constructor; [apply req_conforms; exact H3|]. constructor; [apply req_conforms; exact H4|].
  constructor; [|repeat (constructor; [apply none_conforms|]); constructor].
  destruct (m_gi m) as [p|]; [|apply none_conforms]. destruct (H5 p eq_refl) as (A1 & A2 & A3 & A4 & A5 & A6 & A7). split; [cbn; lia|].
  constructor; [|constructor]. cbn [snd]. constructor. unfold galileo_inav_fields, of_inav.
  repeat (constructor; [first [apply req_conforms; assumption | apply nums_conforms; intros z Hz; apply A5; auto
                              | apply strs_conforms; intros z Hz; apply A7; rewrite <- Hz; cbn; tauto]|]). constructor.
Qed.
Lemma message_round_trip m : message_fits m -> Z.of_nat (length (encode (codec := message_codec) m)) < 65536 ->
  decode (codec := message_codec) (encode (codec := message_codec) m) = Some m.
Proof.
  intros Hf Hl. unfold message_codec, decode, encode in *. rewrite (round_trip 2 navmon_fields (of_message m) navmon_ok ltac:(lia) (of_message_conforms m Hf)) by lia.
  cbn [option_map]. now rewrite message_of_of.
Qed.
Lemma num_conforms lab s l : count_conforms lab l -> Forall (conforms (Scalar s)) l -> lab = Required -> exists v, l = [v] /\ scalar_conforms s v.
Proof.
  intros Hc Hf ->. destruct l as [|v [|w l]]; try discriminate Hc. exists v. split; [reflexivity|]. inversion Hf as [|? ? H]. subst. inversion H. subst. assumption.
Qed.
Ltac next H := let f := fresh in let Hc := fresh "Hc" in let Hv := fresh "Hv" in
  inversion H as [|? ? ? ? (Hc & Hv) f]; clear H; subst; rename f into H; cbn [fst snd req opt] in Hc, Hv.
Lemma message_decoded s m : Forall is_byte s -> decode (codec := message_codec) s = Some m -> message_fits m.
Proof.
  intros Hs H. unfold message_codec, decode in H. destruct (decode_fields navmon_fields s) as [n|] eqn:E; [|discriminate].
  cbn [option_map] in H. apply some_inj in H. subst m. pose proof (navmon_decoded s n Hs E) as Hc. inversion Hc as [|? ? F]. subst. clear Hc E Hs s.
  unfold navmon_fields in F.
  assert (U : forall k (l : list value), count_conforms Required l -> Forall (conforms (Scalar k)) l -> exists v, l = [v] /\ scalar_conforms k v).
  { intros k l A B. now apply (num_conforms Required). }
  assert (N : forall l, Forall (conforms (Scalar Uint32)) l -> forall z, opt_num l = Some z -> 0 <= z < 2 ^ 32).
  { intros l Hl z Hz. destruct l as [|v l]; [discriminate|]. inversion Hl as [|? ? X]. subst. inversion X as [? ? Y|]. subst. destruct v; try contradiction. cbn in Hz. assert (z0 = z) by congruence. subst. exact Y. }
  assert (T : forall l, Forall (conforms (Scalar Bytes)) l -> forall z, opt_str l = Some z -> Forall is_byte z).
  { intros l Hl z Hz. destruct l as [|v l]; [discriminate|]. inversion Hl as [|? ? X]. subst. inversion X as [? ? Y|]. subst. destruct v; try contradiction. cbn in Hz. assert (l0 = z) by congruence. subst. exact Y. }
  inversion F as [|? s0 ? n1 (C0 & V0) F1]. subst. inversion F1 as [|? s1 ? n2 (C1 & V1) F2]. subst. inversion F2 as [|? s2 ? n3 (C2 & V2) F3]. subst.
  inversion F3 as [|? s3 ? n4 (C3 & V3) F4]. subst. inversion F4 as [|? s4 ? n5 (C4 & V4) F5]. subst. clear F F1 F2 F3 F4 F5.
  cbn [fst snd req] in *.
  destruct (U _ _ C0 V0) as ([z0| |] & -> & X0); try contradiction. destruct (U _ _ C1 V1) as ([z1| |] & -> & X1); try contradiction.
  destruct (U _ _ C2 V2) as ([z2| |] & -> & X2); try contradiction. destruct (U _ _ C3 V3) as ([z3| |] & -> & X3); try contradiction.
  unfold message_fits, message_of. cbn [nth num m_source_id m_type m_utc_seconds m_utc_nanoseconds m_gi].
  split; [exact X0|]. split; [exact X1|]. split; [exact X2|]. split; [exact X3|]. clear X0 X1 X2 X3 V0 V1 V2 V3 C0 C1 C2 C3.
  intros p Hp. destruct s4 as [|[z|l|sl] s4]; try discriminate Hp. apply some_inj in Hp. subst p.
  inversion V4 as [|? ? V _]. subst. clear V4. inversion V as [|? ? G]. subst. clear V. unfold galileo_inav_fields in G.
  inversion G as [|? t0 ? g1 (C0 & V0) G1]. subst. inversion G1 as [|? t1 ? g2 (C1 & V1) G2]. subst. inversion G2 as [|? t2 ? g3 (C2 & V2) G3]. subst.
  inversion G3 as [|? t3 ? g4 (C3 & V3) G4]. subst. inversion G4 as [|? t4 ? g5 (C5 & V5) G5]. subst. inversion G5 as [|? t5 ? g6 (_ & V6) G6]. subst.
  inversion G6 as [|? t6 ? g7 (_ & V7) G7]. subst. inversion G7 as [|? t7 ? g8 (_ & V8) G8]. subst. inversion G8 as [|? t8 ? g9 (_ & V9) G9]. subst.
  inversion G9 as [|? t9 ? g10 (_ & V10) G10]. subst. inversion G10 as [|? t10 ? g11 (_ & V11) G11]. subst. inversion G11 as [|? t11 ? g12 (_ & V12) G12]. subst.
  clear G G1 G2 G3 G4 G5 G6 G7 G8 G9 G10 G11 G12. cbn [fst snd req opt] in *.
  destruct (U _ _ C0 V0) as ([y0| |] & -> & X0); try contradiction. destruct (U _ _ C1 V1) as ([y1| |] & -> & X1); try contradiction.
  destruct (U _ _ C2 V2) as ([y2| |] & -> & X2); try contradiction. destruct (U _ _ C3 V3) as ([y3| |] & -> & X3); try contradiction.
  destruct (U _ _ C5 V5) as ([|l4|] & -> & X4); try contradiction.
  unfold inav_of. cbn [nth num str p_wn p_tow p_id p_sv p_contents p_sigid p_ssp p_reserved1 p_reserved2 p_sar p_spare p_crc].
  split; [exact X0|]. split; [exact X1|]. split; [exact X2|]. split; [exact X3|]. split.
  { intros z [Hz|Hz]; [exact (N _ V6 z Hz)|exact (N _ V12 z Hz)]. }
  split; [exact X4|]. intros l Hl. cbn [In] in Hl.
  destruct Hl as [Hl|[Hl|[Hl|[Hl|[Hl|[]]]]]]; [exact (T _ V7 l Hl)|exact (T _ V8 l Hl)|exact (T _ V9 l Hl)|exact (T _ V10 l Hl)|exact (T _ V11 l Hl)].
Qed.
Lemma message_fits_ok m : message_fits m -> message_ok m.
Proof.
  intros (_ & _ & _ & _ & H) p Hp. destruct (H p Hp) as (A1 & A2 & A3 & A4 & A5 & A6 & A7). unfold inav_ok.
  split; [exact A1|]. split; [exact A2|]. split; [exact A4|]. split; [exact A6|]. intros d Hd. apply A7. rewrite <- Hd. now left.
Qed.

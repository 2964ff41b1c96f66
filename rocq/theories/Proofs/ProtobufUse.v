(** Proofs about the packets of the programs with the encoding of navmon.proto. *)
From Coq Require Import ZArith List Bool Lia ZifyBool ZifyNat.
From Verif Require Import Model.Prelude Model.Params Model.Transport Model.Apps Model.Protobuf
  Spec.TransportSpec Spec.AppsSpec Spec.ProtobufSpec Spec.StreamSpec Spec.CollectSpec Spec.VectorsSpec Proofs.Base Proofs.TransportProofs
  Proofs.ProtobufProofs Proofs.ProtobufMain Proofs.ProtobufTrip Proofs.StreamProofs.
Import ListNotations.
Open Scope Z_scope.
Ltac Zify.zify_post_hook ::= Z.div_mod_to_equations.

(** ** What the fields of a packet say *)

Definition numeric (s : scalar) : Prop := (forall p v, scalar_says s p v -> exists z, v = Num z) /\ exists z, default_scalar s = Num z.
Lemma uint32_numeric : numeric Uint32.
Proof. split; [|now exists 0]. intros p v H. destruct p; try contradiction. eexists. exact H. Qed.
Lemma uint64_numeric : numeric Uint64.
Proof. split; [|now exists 0]. intros p v H. destruct p; try contradiction. eexists. exact H. Qed.
Lemma enum_numeric n : numeric (Enum n).
Proof. split; [|now exists n]. intros p v H. destruct p; try contradiction. destruct H as (r & _ & ->). now exists r. Qed.

Lemma absent_default t : absent_value t = default_value t.
Proof. reflexivity. Qed.
Lemma req_number d tag rs slot s : numeric s -> field_says d (tag, Required, Scalar s) rs slot -> slot = [Num (num slot)].
Proof.
  intros (Hs & z0 & Hz) H. cbn [field_says] in H.
  destruct H as [(_ & ->)|(_ & v & -> & _ & before & p & _ & Hv)]; [rewrite absent_default; cbn [default_value]; now rewrite Hz|]. destruct (Hs _ _ Hv) as (z & ->). reflexivity.
Qed.
Lemma opt_number d tag rs slot s : numeric s -> field_says d (tag, Optional, Scalar s) rs slot -> slot = match opt_num slot with Some z => [Num z] | None => [] end.
Proof.
  intros (Hs & z0 & Hz) H. cbn [field_says] in H.
  destruct H as [(_ & ->)|(_ & v & -> & _ & before & p & _ & Hv)]; [reflexivity|]. destruct (Hs _ _ Hv) as (z & ->). reflexivity.
Qed.
Lemma req_bytes d tag rs slot : field_says d (tag, Required, Scalar Bytes) rs slot -> slot = [Str (str slot)].
Proof.
  intros H. cbn [field_says] in H. destruct H as [(_ & ->)|(_ & v & -> & _ & before & p & _ & Hv)]; [reflexivity|]. destruct p; try contradiction. cbn in Hv. now subst.
Qed.
Lemma opt_bytes d tag rs slot : field_says d (tag, Optional, Scalar Bytes) rs slot -> slot = match opt_str slot with Some z => [Str z] | None => [] end.
Proof.
  intros H. cbn [field_says] in H. destruct H as [(_ & ->)|(_ & v & -> & _ & before & p & _ & Hv)]; [reflexivity|]. destruct p; try contradiction. cbn in Hv. now subst.
Qed.

Lemma inav_of_says d rs slots : message_says d galileo_inav_fields rs slots -> inav_says d rs (inav_of slots).
Proof.
  intros G. unfold message_says, galileo_inav_fields, req, opt in G.
  repeat match type of G with Forall2 _ (_ :: _) _ => let H := fresh "V" in inversion G as [|? ? ? ? H G']; subst; clear G; rename G' into G end. clear G.
  unfold inav_says, inav_of, number_field, bytes_field, number_option, bytes_option.
  cbn [nth p_wn p_tow p_id p_sv p_contents p_sigid p_ssp p_reserved1 p_reserved2 p_sar p_spare p_crc].
  repeat match goal with |- _ /\ _ => split end;
    match goal with
    | H : field_says _ (?t, _, _) _ ?x |- field_says _ (?t, _, _) _ [Num (num ?x)] => rewrite <- (req_number _ _ _ _ _ uint32_numeric H); exact H
    | H : field_says _ (?t, _, _) _ ?x |- field_says _ (?t, _, _) _ [Str (str ?x)] => rewrite <- (req_bytes _ _ _ _ H); exact H
    | H : field_says _ (?t, _, _) _ ?x |- field_says _ (?t, _, _) _ (match opt_num ?x with _ => _ end) => rewrite <- (opt_number _ _ _ _ _ uint32_numeric H); exact H
    | H : field_says _ (?t, _, _) _ ?x |- field_says _ (?t, _, _) _ (match opt_str ?x with _ => _ end) => rewrite <- (opt_bytes _ _ _ _ H); exact H
    end.
Qed.

Lemma packet_fields s m : Forall is_byte s -> decode (codec := message_codec) s = Some m -> packet_says s m.
Proof.
  intros Hs H. unfold message_codec, decode in H. destruct (decode_fields navmon_fields s) as [n|] eqn:E; [|discriminate].
  cbn [option_map] in H. apply some_inj in H. subst m. apply (decode_fields_spec 2) in E; [|exact navmon_ok|lia|exact Hs].
  destruct E as (rs & Hw & F). exists rs. split; [exact Hw|]. unfold message_says, navmon_fields, req in F.
  inversion F as [|? s0 ? n1 V0 F1]. subst. inversion F1 as [|? s1 ? n2 V1 F2]. subst. inversion F2 as [|? s2 ? n3 V2 F3]. subst.
  inversion F3 as [|? s3 ? n4 V3 F4]. subst. inversion F4 as [|? s4 ? n5 V4 F5]. subst. clear F F1 F2 F3 F4 F5.
  unfold message_of, number_field. cbn [nth m_source_id m_type m_utc_seconds m_utc_nanoseconds m_gi].
  split; [rewrite <- (req_number _ _ _ _ _ uint64_numeric V0); exact V0|]. split; [rewrite <- (req_number _ _ _ _ _ (enum_numeric 1) V1); exact V1|].
  split; [rewrite <- (req_number _ _ _ _ _ uint64_numeric V2); exact V2|]. split; [rewrite <- (req_number _ _ _ _ _ uint64_numeric V3); exact V3|].
  clear V0 V1 V2 V3. cbv beta iota delta [field_says] in V4.
  destruct V4 as [(V4 & ->)|(N & v & -> & V4)]; [exact V4|]. apply value_says_message in V4. destruct V4 as (bodies & rss & slots & E & HF & -> & Hm).
  exists bodies, rss. split; [intros ->; apply N; exact E|]. split; [exact E|]. split; [exact HF|]. now apply inav_of_says.
Qed.

Lemma has_inav_says rs m : message_says 100 navmon_fields rs m -> (navmon_has_inav m = true <-> exists p, In (5, p) rs).
Proof.
  intros F. unfold message_says, navmon_fields, req in F.
  inversion F as [|? s0 ? n1 V0 F1]. subst. inversion F1 as [|? s1 ? n2 V1 F2]. subst. inversion F2 as [|? s2 ? n3 V2 F3]. subst.
  inversion F3 as [|? s3 ? n4 V3 F4]. subst. inversion F4 as [|? s4 ? n5 V4 F5]. subst. clear F F1 F2 F3 F4 F5 V0 V1 V2 V3.
  cbv beta iota delta [field_says] in V4. unfold navmon_has_inav. cbn [nth].
  assert (P : payloads 5 rs <> [] <-> exists p, In (5, p) rs).
  { unfold payloads. split.
    - intros N. destruct (filter (fun r => fst r =? 5) rs) as [|(t & p) l] eqn:E; [now elim N|]. exists p.
      assert (I : In (t, p) (filter (fun r => fst r =? 5) rs)) by (rewrite E; left; reflexivity).
      apply filter_In in I. destruct I as (I & T). cbn [fst] in T. apply Z.eqb_eq in T. now subst.
    - intros (p & I) N. apply map_eq_nil in N. assert (X : In (5, p) (filter (fun r => fst r =? 5) rs)) by (apply filter_In; now split).
      rewrite N in X. exact X. }
  rewrite <- P. destruct V4 as [(V4 & ->)|(N & v & -> & V4)]; [rewrite V4; now split|]. now split.
Qed.

(** ** Sizes *)

Fixpoint most (v : value) : nat :=
  match v with
  | Num _ => 10
  | Str l => 10 + length l
  | Msg slots => 10 + list_sum (map (fun vs => list_sum (map (fun v => 10 + most v) vs)) slots)
  end%nat.
Definition most_slots (slots : list (list value)) : nat := list_sum (map (fun vs => list_sum (map (fun v => 10 + most v) vs)) slots)%nat.
Lemma varint_n_most n v : (length (put_varint_n n v) <= n)%nat.
Proof. revert v. induction n as [|n IH]; intros v; cbn [put_varint_n length]; [lia|]. destruct (v <? 128); cbn [length]; [lia|]. specialize (IH (v / 128)). lia. Qed.
Lemma varint_most v : (length (put_varint v) <= 10)%nat.
Proof. apply varint_n_most. Qed.
Lemma key_most tag wt : (length (put_key tag wt) <= 10)%nat.
Proof. apply varint_most. Qed.
Lemma fields_most : forall fs slots, Forall (fun f : field => forall v, conforms (snd f) v -> (length (put_value (snd f) v) <= most v)%nat) fs ->
  Forall2 (fun (f : field) slot => count_conforms (snd (fst f)) slot /\ Forall (conforms (snd f)) slot) fs slots ->
  (length (put_fields fs slots) <= most_slots slots)%nat.
Proof.
  intros fs slots HF H. induction H as [|((tag & lab) & t) slot fs slots (_ & Hs) _ IH]; cbn [put_fields]; [cbn; lia|].
  apply Forall_cons_iff in HF. destruct HF as (Ht & HF). specialize (IH HF). cbn [snd] in *. unfold most_slots in *. cbn [map list_sum fold_right].
  rewrite app_length. cut (length (flat_map (fun v => put_key tag (wire_type t) ++ put_value t v) slot) <= list_sum (map (fun v => 10 + most v) slot))%nat.
  { intros X. unfold list_sum in *. lia. }
  clear IH HF. induction Hs as [|v slot Hv _ IHs]; [cbn; lia|]. cbn [flat_map map]. rewrite !app_length. pose proof (key_most tag (wire_type t)). specialize (Ht v Hv).
  unfold list_sum in *. cbn [fold_right]. lia.
Qed.
Lemma value_most t : forall v, conforms t v -> (length (put_value t v) <= most v)%nat.
Proof.
  induction t as [s|fs IH] using ftype_ind2; intros v H.
  - inversion H as [? ? Hs|]. subst. pose proof varint_most as V. cbn [put_value]. destruct s, v; try contradiction; cbn [put_scalar most]; rewrite ?app_length; try apply V;
      try (specialize (V (Z.of_nat (length l))); lia); try lia.
  - inversion H as [|? slots F]. subst. rewrite put_value_message, app_length. pose proof (fields_most fs slots IH F) as X. pose proof (varint_most (Z.of_nat (length (put_fields fs slots)))).
    cbn [most]. fold (most_slots slots). unfold most_slots in *. lia.
Qed.
Lemma packet_most m : message_fits m -> (length (encode (codec := message_codec) m) <= most_slots (of_message m))%nat.
Proof.
  intros H. pose proof (of_message_conforms m H) as X. inversion X as [|? ? F]. subst. unfold message_codec, encode. apply fields_most; [|exact F].
  apply Forall_forall. intros f _. apply value_most.
Qed.

Definition opt_length (o : option (list Z)) : nat := match o with Some l => length l | None => 0%nat end.
(** A bound for the size of a packet. *)
Lemma packet_size m p : message_fits m -> m_gi m = Some p ->
  (length (encode (codec := message_codec) m) <= 400 + length (p_contents p) + opt_length (p_reserved1 p) + opt_length (p_reserved2 p)
     + opt_length (p_sar p) + opt_length (p_spare p) + opt_length (p_crc p))%nat.
Proof.
  intros H Hp. pose proof (packet_most m H) as X. unfold most_slots, of_message in X. rewrite Hp in X.
  assert (N : forall o, (list_sum (map (fun v => 10 + most v) (nums o)) <= 20)%nat) by (intros [z|]; cbn; lia).
  assert (T : forall o, (list_sum (map (fun v => 10 + most v) (strs o)) <= 20 + opt_length o)%nat) by (intros [z|]; cbn; lia).
  rewrite map_app, list_sum_app in X. cbn [map list_sum fold_right most of_inav repeat] in X.
  pose proof (N (p_sigid p)) as N1. pose proof (N (p_ssp p)) as N2. pose proof (T (p_reserved1 p)) as T1. pose proof (T (p_reserved2 p)) as T2.
  pose proof (T (p_sar p)) as T3. pose proof (T (p_spare p)) as T4. pose proof (T (p_crc p)) as T5. unfold list_sum in *. cbn [map fold_right] in X. lia.
Qed.
Lemma message_readable m : message_fits m -> Z.of_nat (length (encode (codec := message_codec) m)) < 65536 -> readable (K := message_codec) m.
Proof. intros H L. split; [unfold fits; lia|]. now apply message_round_trip. Qed.

(** ** A packet that is larger when it is written *)

Lemma small_varint b : 0 <= b < 128 -> is_varint [b] b.
Proof. intros H. split; [now constructor|]. cbn [length]. lia. Qed.
Lemma two_varint a b : 0 <= a < 128 -> 0 <= b < 128 -> is_varint [128 + a; b] (a + 128 * b).
Proof. intros H1 H2. split; [constructor; [exact H1|now constructor]|]. cbn [length]. lia. Qed.

Definition many (n : nat) : list Z := concat (repeat [18; 0] n).
Lemma many_length n : length (many n) = (2 * n)%nat.
Proof. induction n as [|n IH]; [reflexivity|]. unfold many in *. cbn [repeat concat]. rewrite app_length, IH. cbn [length]. lia. Qed.
Lemma many_bytes n : Forall is_byte (many n).
Proof. induction n as [|n IH]; [constructor|]. unfold many. cbn [repeat concat app]. constructor; [split; lia|]. constructor; [split; lia|exact IH]. Qed.
Lemma many_wire d n : wire (Datatypes.S d) (many n) (repeat (2, PLen []) n).
Proof.
  induction n as [|n IH]; [constructor|]. unfold many. cbn [repeat concat]. fold (many n). change ([18; 0] ++ many n) with ([18] ++ [0] ++ many n).
  apply wire_more; [split; [apply small_varint; cbn; lia|lia]| |exact IH]. constructor. exists [0]. split; [reflexivity|]. apply small_varint. cbn [length]. lia.
Qed.
Lemma many_payloads n : payloads 2 (repeat (2, PLen []) n) = repeat (PLen []) n.
Proof. unfold payloads. induction n as [|n IH]; [reflexivity|]. cbn [repeat filter fst]. rewrite Z.eqb_refl. cbn [map snd]. now rewrite IH. Qed.

(** An empty INAV word and time offsets that are all empty. *)
Definition grown_body (n : nat) : list Z := [42] ++ [0] ++ [162; 1] ++ ([128 + 96; 93] ++ many n) ++ [].
Definition offset_value : value := default_value (Message gnss_offset_fields).
Definition grown (n : nat) : navmon :=
  put 4 [[default_value (Message galileo_inav_fields)]]
    (put 19 [[Msg [[Num 0]; repeat offset_value n]]] (default_slots navmon_fields)).

Lemma grown_says n : message_says 100 navmon_fields [(5, PLen []); (20, PLen (many n))] (grown n).
Proof.
  pose (none := ([(5, PLen []); (20, PLen (many n))] : list (Z * payload))).
  assert (O : forall (tag : Z) t, payloads tag none = [] -> field_says 100 (tag, Optional, t) none []) by (intros; left; auto).
  assert (R : forall (tag : Z) s, payloads tag none = [] -> field_says 100 (req tag s) none [default_value (Scalar s)]) by (intros; left; auto).
  unfold message_says, grown, navmon_fields, default_slots. cbv beta iota delta [map put firstn skipn app length Nat.add].
  fold none. repeat (apply Forall2_cons || apply Forall2_nil); try (apply R; reflexivity); try (apply O; reflexivity).
  - right. split; [change (payloads 5 none) with [PLen []]; discriminate|]. exists (default_value (Message galileo_inav_fields)). split; [reflexivity|]. apply value_says_message.
    exists [[]], [[]], (default_slots galileo_inav_fields). split; [reflexivity|]. split; [repeat constructor|]. split; [reflexivity|]. cbn [concat app]. apply says_default.
  - right. split; [change (payloads 20 none) with [PLen (many n)]; discriminate|]. exists (Msg [[Num 0]; repeat offset_value n]). split; [reflexivity|]. apply value_says_message.
    exists [many n], [repeat (2, PLen []) n], [[Num 0]; repeat offset_value n]. split; [reflexivity|]. split; [constructor; [apply (many_wire 98)|constructor]|].
    split; [reflexivity|]. cbn [concat]. rewrite app_nil_r. unfold time_offset_fields. constructor; [|constructor; [|constructor]].
    + left. split; [|reflexivity]. clear. induction n as [|n IH]; [reflexivity|]. exact IH.
    + cbv beta iota delta [field_says]. rewrite many_payloads. clear none O R. induction n as [|n IH]; [constructor|]. cbn [repeat]. constructor; [|exact IH].
      apply value_says_message. exists [[]], [[]], (default_slots gnss_offset_fields). split; [reflexivity|]. split; [repeat constructor|]. split; [reflexivity|]. cbn [concat app]. apply says_default.
Qed.
Lemma grown_wire n : Z.of_nat n = 6000 -> wire 100 (grown_body n) [(5, PLen []); (20, PLen (many n))].
Proof.
  intros Hn. unfold grown_body. apply (wire_more 99); [split; [apply small_varint; cbn; lia|lia]| |].
  { constructor. exists [0]. split; [reflexivity|]. apply small_varint. cbn [length]. lia. }
  apply (wire_more 99); [split; [apply (two_varint 34 1); lia|lia]| |constructor].
  constructor. exists [128 + 96; 93]. split; [reflexivity|]. rewrite many_length. replace (Z.of_nat (2 * n)) with (96 + 128 * 93) by lia. apply two_varint; lia.
Qed.
Lemma grown_bytes n : Forall is_byte (grown_body n).
Proof.
  unfold grown_body. cbn [app]. repeat (constructor; [split; lia|]). rewrite app_nil_r. apply many_bytes.
Qed.
Lemma grown_decodes n : Z.of_nat n = 6000 -> decode (codec := navmon_codec) (grown_body n) = Some (grown n).
Proof.
  intros Hn. apply (decode_fields_spec 2); [exact navmon_ok|lia|apply grown_bytes|]. eexists. split; [exact (grown_wire n Hn)|apply grown_says].
Qed.
Lemma flat_map_least {A B} (f : A -> list B) k l : (forall x, In x l -> (k <= length (f x))%nat) -> (k * length l <= length (flat_map f l))%nat.
Proof.
  induction l as [|x l IH]; intros H; cbn [flat_map length]; [lia|]. rewrite app_length. pose proof (H x (or_introl eq_refl)). specialize (IH (fun y Hy => H y (or_intror Hy))). lia.
Qed.
Lemma offsets_size n : (12 * n <= length (put_value (Message time_offset_fields) (Msg [[Num 0]; repeat offset_value n])))%nat.
Proof.
  rewrite put_value_message, app_length. unfold time_offset_fields, req. cbn [put_fields]. rewrite !app_length.
  pose proof (flat_map_least (fun v => put_key 2 (wire_type (Message gnss_offset_fields)) ++ put_value (Message gnss_offset_fields) v) 12 (repeat offset_value n)) as X.
  rewrite repeat_length in X. refine (Nat.le_trans _ _ _ (X _) _); [|lia]. intros v Hv. apply repeat_spec in Hv. subst v.
  replace (length _) with 12%nat by (vm_compute; reflexivity). lia.
Qed.
Lemma put_fields_part fs slots i tag lab t v : nth_error fs i = Some (tag, lab, t) -> nth_error slots i = Some [v] -> (length (put_value t v) <= length (put_fields fs slots))%nat.
Proof.
  revert slots i. induction fs as [|((tag' & lab') & t') fs IH]; intros slots i Hf Hs; [destruct i; discriminate|].
  destruct slots as [|slot slots]; [destruct i; discriminate|]. cbn [put_fields]. rewrite app_length. destruct i as [|i].
  - cbn [nth_error] in *. assert (t' = t) by congruence. assert (tag' = tag) by congruence. assert (slot = [v]) by congruence. subst.
    cbn [flat_map]. rewrite app_nil_r, app_length. lia.
  - cbn [nth_error] in *. specialize (IH slots i Hf Hs). lia.
Qed.
Lemma grown_size n : (12 * n <= length (encode (codec := navmon_codec) (grown n)))%nat.
Proof.
  refine (Nat.le_trans _ _ _ (offsets_size n) _). unfold navmon_codec, encode. exact (put_fields_part navmon_fields (grown n) 19 20 Optional _ _ eq_refl eq_refl).
Qed.

Lemma filter_panics : exists s, Forall is_byte s /\ Z.of_nat (length s) = 12012 /\
  filter_main (K := navmon_codec) navmon_has_inav (mkSource s false) (mkSink [] None) = Panic.
Proof.
  assert (Hn : exists n, Z.of_nat n = 6000) by (exists (Z.to_nat 6000); lia). destruct Hn as (n & Hn).
  set (s := [98; 101; 114; 116; 46; 230] ++ grown_body n ++ []). 
  assert (L : Z.of_nat (length (grown_body n)) = 12006) by (unfold grown_body; rewrite !app_length, many_length; cbn [length]; lia).
  assert (Hs : Forall is_byte s).
  { unfold s. apply Forall_app. split; [repeat (constructor; [split; lia|]); constructor|]. rewrite app_nil_r. apply grown_bytes. }
  exists s. split; [exact Hs|]. split; [unfold s; rewrite !app_length; cbn [length]; lia|].
  assert (H1 : starts_with (K := navmon_codec) s [grown n]).
  { unfold s. constructor; [lia|now apply grown_decodes|constructor]. }
  pose proof (filter_any (K := navmon_codec) navmon_has_inav s false Hs) as X.
  destruct (filter_main _ _ _) as [[r k]|]; [exfalso|reflexivity]. destruct X as (ms & (A1 & A2) & Hf & _).
  destruct ms as [|m ms]; [exact (A2 _ H1)|].
  destruct (starts_fun s [grown n] (m :: ms) Hs H1 A1) as (c & Hc); [cbn [length]; lia|]. rewrite Hc in Hf. cbn [app filter] in Hf.
  change (navmon_has_inav (grown n)) with true in Hf. apply Forall_inv in Hf. unfold fits in Hf. pose proof (grown_size n). lia.
Qed.

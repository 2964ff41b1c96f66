(** Lemmas about Model/Maclt.v. *)
From Coq Require Import ZArith List Bool Lia ZifyBool ZifyNat String Sorting.Sorted.
From Verif Require Import Model.Prelude Model.Params Model.Gst Model.Bitfields Model.Maclt Model.Tesla
  Spec.MacltSpec Proofs.Base.
Import ListNotations.
Open Scope Z_scope.

(** How the ICD writes a slot of the table. *)
Definition slot_code (s : maclt_slot) : string :=
  match s with
  | SlotFixed AdkdInavCed SelfAuth => "00S"
  | SlotFixed AdkdInavCed CrossAuth => "00E"
  | SlotFixed AdkdInavTiming SelfAuth => "04S"
  | SlotFixed AdkdInavTiming CrossAuth => "04E"
  | SlotFixed AdkdSlowMac SelfAuth => "12S"
  | SlotFixed AdkdSlowMac CrossAuth => "12E"
  | SlotFixed AdkdReserved _ => "?"
  | SlotFlex => "FLX"
  end%string.

Definition maclt_ids : list Z := [27; 28; 31; 33; 34; 35; 36; 37; 38; 39; 40; 41].

Lemma find_maclt_unknown id :
  ~ In id maclt_ids -> find_first (fun x => lt_id x =? id) maclt_table = None.
Proof.
  intros H. unfold find_first. destruct (find _ maclt_table) as [x|] eqn:E; auto.
  apply find_some in E. destruct E as (Hin & Heq). exfalso. apply H.
  replace id with (lt_id x) by lia. unfold maclt_ids.
  change [27; 28; 31; 33; 34; 35; 36; 37; 38; 39; 40; 41] with (map lt_id maclt_table).
  now apply in_map.
Qed.

Lemma lookup_id_unknown id : ~ In id maclt_ids -> lookup_id id icd_maclt = None.
Proof.
  unfold maclt_ids. cbn [In]. intros H. unfold icd_maclt. cbn [lookup_id].
  repeat (destruct (Z.eq_dec _ id); [exfalso; apply H; subst id; auto 20|]). reflexivity.
Qed.

(** The result of a lookup, from the ICD table. *)
Lemma get_maclt_entry_icd id half n :
  (half < 2)%nat -> (1 <= n)%nat ->
  match icd_sequence id half with
  | None => get_maclt_entry id half n = Ok (RErr InvalidMaclt)
  | Some seq =>
      match nth_error seq n with
      | None => get_maclt_entry id half n = Ok (RErr InvalidTagNumber)
      | Some code => exists s, get_maclt_entry id half n = Ok (ROk s) /\ slot_code s = code
      end
  end.
Proof.
  intros Hh Hn. destruct (in_dec Z.eq_dec id maclt_ids) as [Hid|Hid].
  - assert (half = 0 \/ half = 1)%nat as Hh' by lia. clear Hh.
    destruct n as [|n]; [lia|]. clear Hn.
    unfold maclt_ids in Hid. cbn [In] in Hid.
    repeat (destruct Hid as [<-|Hid]; [
      destruct Hh' as [-> | ->];
      (do 10 (destruct n as [|n]; [solve [cbv; eauto]|]); cbv; reflexivity) |]).
    destruct Hid.
  - unfold icd_sequence. rewrite lookup_id_unknown by auto.
    unfold get_maclt_entry. rewrite find_maclt_unknown by auto. unfold assert_.
    replace ((half =? 0) || (half =? 1))%nat with true by lia.
    replace (1 <=? n)%nat with true by lia. reflexivity.
Qed.

Lemma get_flx_indices_icd id half :
  (half < 2)%nat ->
  match icd_sequence id half with
  | None => get_flx_indices id half = Ok (RErr InvalidMaclt)
  | Some seq =>
      exists idxs, get_flx_indices id half = Ok (ROk idxs) /\
      (forall i, In i idxs <-> nth_error seq i = Some "FLX"%string) /\ StronglySorted lt idxs
  end.
Proof.
  intros Hh. destruct (in_dec Z.eq_dec id maclt_ids) as [Hid|Hid].
  - assert (half = 0 \/ half = 1)%nat as Hh' by lia. clear Hh.
    unfold maclt_ids in Hid. cbn [In] in Hid.
    repeat (destruct Hid as [<-|Hid]; [
      destruct Hh' as [-> | ->];
      (cbv [icd_sequence icd_maclt lookup_id Z.eq_dec Z_rec Z_rect]; cbn -[get_flx_indices nth_error In];
       eexists; split; [vm_compute; reflexivity|]; split;
       [intros i; split;
        [cbn [In]; intros Hin; repeat (destruct Hin as [<-|Hin]; [reflexivity|]); destruct Hin
        |do 11 (destruct i as [|i]; [cbn; intros Hi; solve [discriminate Hi | auto 20]|]);
         cbn; intros Hi; discriminate Hi]
       |repeat constructor]) |]).
    destruct Hid.
  - unfold icd_sequence. rewrite lookup_id_unknown by auto.
    unfold get_flx_indices. rewrite find_maclt_unknown by auto. unfold assert_.
    replace ((half =? 0) || (half =? 1))%nat with true by lia. reflexivity.
Qed.

Lemma half_minute_lt g : (half_minute g < 2)%nat.
Proof. unfold half_minute. lia. Qed.

Lemma get_maclt_entry_total id half n :
  (half < 2)%nat -> (1 <= n)%nat -> exists r, get_maclt_entry id half n = Ok r.
Proof.
  intros Hh Hn. pose proof (get_maclt_entry_icd id half n Hh Hn) as H.
  destruct (icd_sequence id half) as [seq|]; [|eauto].
  destruct (nth_error seq n) as [code|]; [|eauto]. destruct H as (s & H & _); eauto.
Qed.

Lemma get_maclt_entry_panic id half n :
  get_maclt_entry id half n = Panic <-> (2 <= half \/ n = 0)%nat.
Proof.
  split.
  - intros H. destruct (Nat.lt_ge_cases half 2) as [Hh|Hh]; [|auto].
    destruct n as [|n]; [auto|].
    destruct (get_maclt_entry_total id half (S n)) as (r & E); [lia|lia|]. congruence.
  - intros H. unfold get_maclt_entry, assert_.
    destruct ((half =? 0) || (half =? 1))%nat eqn:E; [|reflexivity].
    replace (1 <=? n)%nat with false by lia. reflexivity.
Qed.

Lemma validate_adkd_total c n tag prna g :
  (1 <= n)%nat -> exists r, validate_adkd c n tag prna g = Ok r.
Proof.
  intros Hn. unfold validate_adkd.
  destruct (get_maclt_entry_total (ch_maclt c) (half_minute g) n (half_minute_lt g) Hn) as (r & ->).
  cbn [bind]. destruct r as [[adkd obj|]|e]; eauto.
  destruct (negb _); eauto. destruct (tag_prnd tag); eauto.
  destruct (_ && _); eauto. destruct (_ && _); eauto.
Qed.

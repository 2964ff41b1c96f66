(** Properties C44 and C52: what galmon-osnma feeds to the library, and what it logs. *)
From Coq Require Import ZArith List Bool Lia.
From Verif Require Import Model.Prelude Model.Params Model.Gst Model.Svn Model.Bitfields Model.Tesla Model.Merkle
  Model.Nav Model.Osnma Model.Transport Model.Apps
  Spec.TimeSpec Spec.CollectSpec Spec.NavSpec Spec.SystemSpec Spec.TransportSpec Spec.AppsSpec
  Proofs.Base Proofs.SystemProofs Proofs.GetterProofs Proofs.TransportProofs Proofs.AppsProofs Proofs.LogProofs
  Props.SystemProps Examples.Demo Examples.Toy Examples.Transmit.
Import ListNotations.
Open Scope list_scope.
Open Scope Z_scope.

(** In these theorems [ms] is any sequence of messages read from the stream. *)

(** * C44: what is fed to the library *)

(** The calls are those of the specification, or the program panics at one of the packets that
    are listed there.  The assumption about the weeks is not needed if overflows are checked for. *)
Theorem C44_calls : forall (B : build) ms, Forall message_ok ms ->
  (overflow_checks = true \/ Forall week_fits (inav_packets ms)) ->
  (exists a l, galmon_all_calls app_new ms = Ok (a, l) /\ feeds_all [] (inav_packets ms) l /\
     forall before p after, inav_packets ms = before ++ p :: after -> ~ bad_packet (rev before) p) \/
  (galmon_all_calls app_new ms = Panic /\
   exists before p after, inav_packets ms = before ++ p :: after /\ bad_packet (rev before) p).
Proof.
  intros B ms Hms Hw. destruct (all_calls_spec ms app_new [] eq_refl Hms Hw) as [(a & l & H1 & H2 & _ & H3)|(H1 & bs & p & after & H2 & H3)].
  - left. exists a, l. split; [exact H1|]. split; [exact H2|]. intros before p after E.
    specialize (H3 before p after E). now rewrite app_nil_r in H3.
  - right. split; [exact H1|]. exists bs, p, after. split; [exact H2|]. now rewrite app_nil_r in H3.
Qed.

(** Whatever the packets and the build, what is fed has valid times, satellites and sizes, and is
    ordered by subframe. *)
Theorem C44_valid_and_ordered : forall (B : build) ms a l, Forall message_ok ms ->
  galmon_all_calls app_new ms = Ok (a, l) -> Forall op_ok l /\ in_subframe_order l.
Proof.
  intros B ms a l Hms H. destruct (all_calls_ok ms app_new a l Hms I (Z.le_refl 0) H) as (H1 & _ & H2). auto.
Qed.

(** The correction of the time stays in the same subframe and in the same week. *)
Theorem C44_correction : forall before p, inav_ok p ->
  used_subframe before p = raw_time p / 30 /\ used_time before p / 604800 = raw_time p / 604800.
Proof. intros before p H. destruct (used_time_same before p H) as (H1 & H2 & _). auto. Qed.

Section Program.
Context {C : crypto} {B : build} {S : storage} {K : codec message}.

(** The whole program, on a stream of packets, possibly followed by something that cannot be
    read: the library is in the state after these calls. *)
Theorem C44_program : crypto_ok C -> storage_ok S ->
  forall root user slow ms bad fails e z, Forall readable ms -> Forall message_ok ms ->
  (bad = [] /\ fails = false /\ e = ROk tt \/
   exists err t, read_packet (M := message) (reader_new (mkSource bad fails)) = Ok (RErr err, t) /\ e = RErr err) ->
  forall e', galmon_main (osnma_new root user slow) (mkSource (concat (map frame ms) ++ bad) fails) = Ok (e', z) ->
  e' = e /\
  exists l, galmon_all_calls app_new ms = Ok (z_app z, l) /\ run (osnma_new root user slow) l = Ok (z_osnma z).
Proof.
  intros HC HS root user slow ms bad fails e z Hf Hms Hbad e' H.
  assert (Hz : e' = e /\ fold_outcome galmon_step ms (galmon_new (osnma_new root user slow)) = Ok z).
  { unfold galmon_main in H. destruct Hbad as [(-> & -> & ->)|(err & t & Hb & ->)].
    - rewrite app_nil_r in H. rewrite (loop_frames galmon_step ms _ Hf) in H.
      destruct (fold_outcome _ _ _) as [z'|]; [|discriminate]. cbn [bind] in H.
      apply ok_inj, pair_equal_spec in H. destruct H as [<- <-]. auto.
    - rewrite (loop_error galmon_step ms bad fails err t _ Hf Hb) in H.
      destruct (fold_outcome _ _ _) as [z'|]; [|discriminate]. cbn [bind] in H.
      apply ok_inj, pair_equal_spec in H. destruct H as [<- <-]. auto. }
  destruct Hz as [-> Hz]. split; [reflexivity|].
  destruct (galmon_run HC HS root user slow ms Hms z Hz) as (l & H1 & H2 & _). exists l. auto.
Qed.

(** * C52: what is logged *)

(** [galmon_step] is the body of the loop over the messages. *)

(** What is logged is authenticated by what was fed for the packets so far, and each tag that
    counts was received in time, in the sense of C01 and C04. *)
Theorem C52_logged_data_is_authenticated : crypto_ok C -> storage_ok S ->
  forall root user slow ms z v, Forall message_ok ms ->
  (overflow_checks = true \/ Forall week_fits (inav_packets ms)) ->
  fold_outcome galmon_step ms (galmon_new (osnma_new root user slow)) = Ok z -> In v (z_log z) ->
  exists before after h, ms = before ++ after /\ feeds_all [] (inav_packets before) h /\
    authenticated root user slow h (v_kind v) (v_svn v) (v_data v) (v_authbits v) /\
    exists tags, v_authbits v = Z.min 65535 (Z.of_nat (List.length (concat tags))) /\
      forall tag, In tag tags -> verified_in_time root user h (v_kind v) (v_svn v) (v_data v) tag.
Proof.
  intros HC HS root user slow ms z v Hms Hw Hz Hv.
  destruct (galmon_run HC HS root user slow ms Hms z Hz) as (l & _ & _ & _ & _ & He & _).
  destruct (He v Hv) as (ms1 & ms2 & a1 & l1 & o1 & E & Hc & Hr & Hev). subst ms. clear He.
  apply Forall_app in Hms. destruct Hms as [Hms1 _].
  assert (Hw1 : overflow_checks = true \/ Forall week_fits (inav_packets ms1)).
  { destruct Hw as [Hw|Hw]; [now left|]. right. unfold inav_packets in Hw. rewrite flat_map_app in Hw.
    apply Forall_app in Hw. exact (proj1 Hw). }
  destruct (C44_valid_and_ordered B ms1 a1 l1 Hms1 Hc) as [Hops Hord].
  exists ms1, ms2, l1. split; [reflexivity|]. split; [|split].
  - destruct (C44_calls B ms1 Hms1 Hw1) as [(a & l' & H1 & H2 & _)|(H1 & _)]; [|congruence].
    replace l1 with l' by congruence. exact H2.
  - exact (C01_returned_data_is_authenticated C B S HC HS root user slow l1 o1 _ _ _ Hops Hr Hev).
  - exact (C04_disclosure_delay C B S HC HS root user slow l1 o1 _ _ _ Hops Hord Hr Hev).
Qed.

(** The same data is not logged twice in a row for a satellite, and what the library returns
    at the end was logged. *)
Theorem C52_logged_when_new : crypto_ok C -> storage_ok S ->
  forall root user slow ms z k svn, Forall message_ok ms ->
  fold_outcome galmon_step ms (galmon_new (osnma_new root user slow)) = Ok z -> 1 <= svn <= 36 ->
  all_new (logged k svn (z_log z)) /\
  forall d, getter k (z_osnma z) svn = Ok (Some d) -> last_logged k svn (z_log z) = Some (nd_data d).
Proof.
  intros HC HS root user slow ms z k svn Hms Hz Hs. split.
  - exact (galmon_log_new HC HS root user slow ms z k svn Hms Hz Hs).
  - destruct (galmon_run HC HS root user slow ms Hms z Hz) as (l & _ & _ & _ & _ & _ & _ & H). intros d. now apply H.
Qed.
End Program.

(** * Examples *)

(** A codec for the messages. *)
Definition put_list (l : list Z) : list Z := Z.of_nat (List.length l) :: l.
Definition get_list (s : list Z) : option (list Z * list Z) :=
  match s with
  | [] => None
  | n :: s => Some (firstn (Z.to_nat n) s, skipn (Z.to_nat n) s)
  end.
Lemma get_put l s : get_list (put_list l ++ s) = Some (l, s).
Proof.
  unfold get_list, put_list. cbn [app]. rewrite Nat2Z.id, firstn_app, skipn_app, firstn_all, skipn_all, Nat.sub_diag.
  cbn [firstn skipn]. now rewrite app_nil_r.
Qed.
Definition put_opt (o : option (list Z)) : list Z := match o with Some l => 1 :: put_list l | None => [0] end.
Definition get_opt (s : list Z) : option (option (list Z) * list Z) :=
  match s with
  | [] => None
  | b :: s => if b =? 0 then Some (None, s) else match get_list s with Some (l, s) => Some (Some l, s) | None => None end
  end.
Lemma get_put_opt o s : get_opt (put_opt o ++ s) = Some (o, s).
Proof. destruct o as [l|]; cbn [put_opt app get_opt Z.eqb]; [now rewrite get_put|reflexivity]. Qed.
Definition one (o : option Z) : option (list Z) := option_map (fun x => [x]) o.
Definition the_one (o : option (list Z)) : option Z := match o with Some (x :: _) => Some x | _ => None end.
Lemma the_one_one o : the_one (one o) = o.
Proof. destruct o; reflexivity. Qed.
Definition put_inav (p : galileo_inav) : list Z :=
  p_wn p :: p_tow p :: p_id p :: p_sv p :: put_list (p_contents p) ++ put_opt (one (p_sigid p)) ++
  put_opt (p_reserved1 p) ++ put_opt (p_reserved2 p) ++ put_opt (p_sar p) ++ put_opt (p_spare p) ++ put_opt (p_crc p) ++
  put_opt (one (p_ssp p)) ++ [].
Definition get_inav (s : list Z) : option galileo_inav :=
  match s with
  | wn :: tow :: id :: sv :: s =>
      match get_list s with
      | None => None
      | Some (c, s) =>
          match get_opt s with None => None | Some (sigid, s) =>
          match get_opt s with None => None | Some (r1, s) =>
          match get_opt s with None => None | Some (r2, s) =>
          match get_opt s with None => None | Some (sar, s) =>
          match get_opt s with None => None | Some (spare, s) =>
          match get_opt s with None => None | Some (crc, s) =>
          match get_opt s with None => None | Some (ssp, s) =>
          Some (mkInav wn tow id sv c (the_one sigid) r1 r2 sar spare crc (the_one ssp))
          end end end end end end end
      end
  | _ => None
  end.
Definition demo_codec : codec message :=
  {| encode := fun m => m_source_id m :: m_type m :: m_utc_seconds m :: m_utc_nanoseconds m ::
       match m_gi m with Some p => put_inav p | None => [] end;
     decode := fun s => match s with
       | a :: b :: c :: d :: [] => Some (mkMessage a b c d None)
       | a :: b :: c :: d :: s => match get_inav s with Some p => Some (mkMessage a b c d (Some p)) | None => None end
       | _ => None
       end |}.
Lemma demo_round_trips p : decode (codec := demo_codec) (encode (codec := demo_codec) p) = Some p.
Proof.
  destruct p as [a b c d [p|]]; [|reflexivity]. cbn [encode decode demo_codec m_source_id m_type m_utc_seconds m_utc_nanoseconds m_gi].
  assert (H : get_inav (put_inav p) = Some p).
  { unfold get_inav, put_inav. rewrite get_put, !get_put_opt, !the_one_one. destruct p; reflexivity. }
  rewrite H. unfold put_inav. reflexivity.
Qed.

(** The packet with the word or the OSNMA data of a call; the other part is zeros. *)
Definition packet_of (x : op) : message :=
  let packet svn (g : gst) b w r := mkMessage 1 3 0 0
    (Some (mkInav (g_wn g) (g_tow g) 2 svn w (Some (match b with E1B => 1 | E5B => 5 end)) r None None None None None)) in
  match x with
  | FeedInav w svn g b => packet svn g b w None
  | FeedOsnma d svn g => packet svn g E1B (repeat 0 16) (Some d)
  end.
(** The nominal sequence of the examples, with a packet that is too old, a dummy message and one
    of another band. *)
Definition log_packets : list message := Eval vm_compute in
  (map packet_of (firstn 14 tx_nominal)
   ++ [packet_of (FeedInav (repeat 7 16) 5 (gst_at (tx_t0 - 31)) E1B); packet_of (FeedInav (repeat 255 16) 5 (gst_at (tx_t0 - 15)) E1B);
       mkMessage 1 3 0 0 (Some (mkInav 1200 7185 2 5 (repeat 7 16) (Some 2) None None None None None None));
       mkMessage 1 3 0 0 None]
   ++ map packet_of (skipn 14 tx_nominal)).

Definition message_okb (m : message) : bool :=
  match m_gi m with
  | None => true
  | Some p => (0 <=? p_wn p) && (p_wn p <? 2 ^ 32) && (0 <=? p_tow p) && (p_tow p <? 2 ^ 32) && (0 <=? p_sv p) && (p_sv p <? 2 ^ 32) &&
      forallb (fun b => (0 <=? b) && (b <? 256)) (p_contents p) &&
      match p_reserved1 p with Some d => forallb (fun b => (0 <=? b) && (b <? 256)) d | None => true end
  end.
Lemma bytesb_ok l : forallb (fun b => (0 <=? b) && (b <? 256)) l = true -> Forall is_byte l.
Proof. rewrite forallb_forall. intros H. apply Forall_forall. intros x Hx. specialize (H x Hx). unfold is_byte. lia. Qed.
Lemma message_okb_ok l : forallb message_okb l = true -> Forall message_ok l.
Proof.
  rewrite forallb_forall. intros H. apply Forall_forall. intros m Hm p Hp. specialize (H m Hm). unfold message_okb in H. rewrite Hp in H.
  repeat (apply andb_prop in H; destruct H as [H ?]). unfold inav_ok.
  split; [lia|]. split; [lia|]. split; [lia|]. split; [now apply bytesb_ok|].
  intros d Hd. rewrite Hd in *. now apply bytesb_ok.
Qed.

(** The run of the program, with the storage of the small receivers. *)
Definition log_run : outcome galmon :=
  fold_outcome (galmon_step (S := small_storage)) log_packets
    (galmon_new (osnma_new (S := small_storage) None (Some (tx_pub 3)) false)).
Definition log_view (z : outcome galmon) :=
  z <- z ;; Ok (map (fun v => (v_kind v, v_svn v, v_authbits v, v_gst v, List.length (v_data v))) (z_log z)).
Lemma log_packets_ok : Forall message_ok log_packets.
Proof. apply message_okb_ok. vm_compute. reflexivity. Qed.
Lemma log_packets_weeks : Forall week_fits (inav_packets log_packets).
Proof.
  assert (H : forallb (fun p => raw_time p <? 65536 * 604800) (inav_packets log_packets) = true) by (vm_compute; reflexivity).
  rewrite forallb_forall in H. apply Forall_forall. intros p Hp. specialize (H p Hp). unfold week_fits. lia.
Qed.
Lemma small_storage_ok : storage_ok small_storage.
Proof. unfold storage_ok. cbn. lia. Qed.
Lemma log_run_log : log_view log_run =
  Ok [(Ced, 1, 40, mkGst 1200 7170, 549%nat); (Timing, 1, 40, mkGst 1200 7170, 141%nat); (Ced, 2, 80, mkGst 1200 7170, 549%nat)].
Proof. vm_compute. reflexivity. Qed.
Example C52_example : crypto_ok toy_crypto /\ storage_ok small_storage /\
  Forall message_ok log_packets /\ Forall week_fits (inav_packets log_packets) /\
  exists z, log_run = Ok z /\ exists v, In v (z_log z) /\ v_kind v = Ced /\ v_svn v = 2 /\ v_authbits v = 80.
Proof.
  split; [apply toy_crypto_ok|]. split; [apply small_storage_ok|]. split; [apply log_packets_ok|]. split; [apply log_packets_weeks|].
  pose proof log_run_log as H. destruct log_run as [z|]; [|discriminate H]. exists z. split; [reflexivity|].
  cbn [log_view bind] in H. apply ok_inj in H. destruct (z_log z) as [|v1 [|v2 [|v3 l]]]; try discriminate H.
  cbn [map] in H. exists v3. split; [right; right; now left|]. repeat split; congruence.
Qed.
(** 153 messages, of which 149 are fed to the library in 284 calls. *)
Example C44_example : Forall (readable (K := demo_codec)) log_packets /\
  ('(_, l) <- galmon_all_calls app_new log_packets ;; Ok (List.length l)) = Ok 284%nat /\ List.length log_packets = 153%nat.
Proof.
  split.
  { assert (H : forallb (fun m => Z.of_nat (List.length (encode (codec := demo_codec) m)) <? 65536) log_packets = true) by (vm_compute; reflexivity).
    rewrite forallb_forall in H. apply Forall_forall. intros m Hm. specialize (H m Hm). apply Z.ltb_lt in H. split; [exact H|apply demo_round_trips]. }
  split; vm_compute; reflexivity.
Qed.
(** The correction: after a packet at 29 seconds of a subframe, one at 15 seconds is taken to be at 29. *)
Example C44_correction_example :
  ('(_, l) <- galmon_all_calls app_new
     [packet_of (FeedInav (repeat 7 16) 5 (mkGst 1200 604799) E1B); packet_of (FeedInav (repeat 7 16) 6 (mkGst 1200 604785) E1B)] ;;
   Ok (map op_gst l)) = Ok [mkGst 1200 604799; mkGst 1200 604799].
Proof. vm_compute. reflexivity. Qed.
(** Packets for which the program panics. *)
Example C44_panics :
  map (fun m => match galmon_all_calls app_new [m] with Ok _ => true | Panic => false end)
    [packet_of (FeedInav (repeat 7 16) 37 (mkGst 1200 7200) E1B); packet_of (FeedInav (repeat 7 15) 5 (mkGst 1200 7200) E1B);
     packet_of (FeedInav (repeat 7 16) 5 (mkGst 65536 7200) E1B); packet_of (FeedInav (repeat 7 16) 5 (mkGst 1200 7200) E1B)]
  = [false; false; false; true].
Proof. vm_compute. reflexivity. Qed.

Print Assumptions C44_calls.
Print Assumptions C44_valid_and_ordered.
Print Assumptions C44_correction.
Print Assumptions C44_program.
Print Assumptions C52_logged_data_is_authenticated.
Print Assumptions C52_logged_when_new.

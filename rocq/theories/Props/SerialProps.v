(** Properties C45 and C53: the serial line between the client and the firmware. *)
From Coq Require Import ZArith String List Bool Lia.
From Verif Require Import Model.Prelude Model.Params Model.Gst Model.Svn Model.Merkle
  Model.Nav Model.Osnma Model.Transport Model.Apps Model.Serial
  Spec.TimeSpec Spec.CollectSpec Spec.NavSpec Spec.SystemSpec Spec.AppsSpec Spec.SerialSpec
  Proofs.Base Proofs.AppsProofs Proofs.SerialProofs Props.AppsProps Examples.Demo Examples.Toy Examples.Transmit.
Import ListNotations.
Open Scope list_scope.
Open Scope Z_scope.

Section Serial.
Context {C : crypto} {B : build} {S : storage}.

(** * C45: lines *)

(** The firmware makes exactly the call that the line carries, and then waits for the next line.
    It panics only if the library does, in the call or in the getters that it uses to print the
    status. *)
Theorem C45_line : forall o x line, op_ok x -> carries x line ->
  match step o x with
  | Panic => firmware_bytes (mkFirmware o []) line = Panic
  | Ok o' =>
      (exists out, firmware_bytes (mkFirmware o []) line = Ok (mkFirmware o' [], out)) \/
      (firmware_bytes (mkFirmware o []) line = Panic /\ exists k svn, 1 <= svn <= 36 /\ getter k o' svn = Panic)
  end.
Proof.
  intros o x line Hx Hc. destruct (firmware_line o x line Hx Hc) as (out & ->).
  destruct (step o x) as [o'|]; [|reflexivity]. cbn [bind].
  destruct (print_auth_status_spec o') as [(l1 & l2 & -> & _)|(-> & H)]; cbn [bind]; [left; eauto|right; auto].
Qed.

(** A line with its end is shorter than the buffer. *)
Theorem C45_line_fits : forall x line, op_ok x -> carries x line -> (List.length line <= 60)%nat.
Proof.
  intros x line Hx Hc. destruct (carries_body x line Hc) as (b & _ & ->). destruct (op_body_ordinary x b Hx) as (_ & Hl).
  rewrite app_length. cbn [List.length]. lia.
Qed.

(** Any number of lines. *)
Theorem C45_lines : forall o calls lines, Forall2 carries calls lines -> Forall op_ok calls ->
  (exists o' out, run o calls = Ok o' /\ firmware_bytes (mkFirmware o []) (concat lines) = Ok (mkFirmware o' [], out)) \/
  (firmware_bytes (mkFirmware o []) (concat lines) = Panic /\ library_panics o calls).
Proof. intros o calls lines H1 H2. exact (firmware_lines calls lines H1 H2 o). Qed.

(** The client sends lines for the calls that galmon-osnma makes. *)
Theorem C45_client : forall ms a calls, galmon_all_calls app_new ms = Ok (a, calls) ->
  exists lines, client_all_lines app_new ms = Ok (a, lines) /\ Forall2 carries calls lines.
Proof. intros ms a calls. exact (client_all_calls ms app_new a calls). Qed.

(** The client does not check the satellite, and the firmware panics if it does not exist. *)
Theorem C45_unchecked_satellite : forall o data svn g b, 0 <= svn < 2 ^ 32 -> ~ 1 <= svn <= 36 -> gst_ok g ->
  bytes_ok 16 data \/ bytes_ok 5 data ->
  firmware_bytes (mkFirmware o []) (send_line data svn g b) = Panic.
Proof.
  intros o data svn g b H1 H2 H3 H4. apply firmware_bad_svn; auto.
  - destruct H4 as [[_ H]|[_ H]]; exact H.
  - destruct H4 as [[-> _]|[-> _]]; lia.
Qed.

(** * C53: the client and the firmware together *)

(** In all of these, [calls] are the calls for the lines that the client sends, and [o] is the
    state of the library at the start. *)

(** While the firmware is busy, at most one byte comes, so that none is lost in a receiver that
    holds one byte. *)
Theorem C53_one_byte_while_busy : forall o calls lines u, Forall2 carries calls lines -> Forall op_ok calls ->
  line_steps (line_new lines o) u -> busy (u_board u) -> (List.length (u_down u) <= 1)%nat.
Proof. intros o calls lines u H1 H2. exact (line_no_overrun o calls lines H1 H2 u). Qed.

(** The library is always in the state after the first of the calls. *)
Theorem C53_calls_in_order : forall o calls lines u o', Forall2 carries calls lines -> Forall op_ok calls ->
  line_steps (line_new lines o) u -> library (u_board u) = Some o' ->
  exists n, (n <= List.length calls)%nat /\ run o (firstn n calls) = Ok o'.
Proof. intros o calls lines u o' H1 H2. exact (line_library o calls lines H1 H2 u o'). Qed.

(** There are no endless executions, whatever is sent. *)
Theorem C53_ends : forall u, Acc (fun v u => line_step u v) u.
Proof. exact line_ends. Qed.

(** An execution ends only when all the calls are made and the firmware waits for the next line,
    or when the library panics. *)
Theorem C53_no_deadlock : forall o calls lines u, Forall2 carries calls lines -> Forall op_ok calls ->
  line_steps (line_new lines o) u -> stuck u ->
  (u_board u = Halted /\ library_panics o calls) \/
  exists o', run o calls = Ok o' /\ u_client u = Sending [] [] /\ u_down u = [] /\ u_board u = Reading (mkFirmware o' []).
Proof. intros o calls lines u H1 H2. exact (line_stuck o calls lines H1 H2 u). Qed.

(** From the packets to the library of the firmware: at the end it has got what galmon-osnma would
    have fed. *)
Theorem C53_packets_to_library : forall o ms a calls, Forall message_ok ms ->
  (overflow_checks = true \/ Forall week_fits (inav_packets ms)) ->
  galmon_all_calls app_new ms = Ok (a, calls) ->
  exists lines, client_all_lines app_new ms = Ok (a, lines) /\ feeds_all [] (inav_packets ms) calls /\
    forall u, line_steps (line_new lines o) u -> stuck u ->
      (u_board u = Halted /\ library_panics o calls) \/
      exists o', run o calls = Ok o' /\ library (u_board u) = Some o'.
Proof.
  intros o ms a calls Hms Hw Hc. destruct (C45_client ms a calls Hc) as (lines & Hl & Hcar). exists lines. split; [exact Hl|].
  destruct (C44_valid_and_ordered B ms a calls Hms Hc) as [Hops _]. split.
  - destruct (C44_calls B ms Hms Hw) as [(a' & l & H1 & H2 & _)|(H1 & _)]; [|congruence].
    replace calls with l by congruence. exact H2.
  - intros u Hu Hst. destruct (C53_no_deadlock o calls lines u Hcar Hops Hu Hst) as [H|(o' & H1 & _ & _ & H2)]; [now left|].
    right. exists o'. split; [exact H1|]. now rewrite H2.
Qed.

(** * Examples *)

(** One way to run the two: the firmware first. *)
Definition client_next (k : client) (down up : list Z) (b : board) : option line_state :=
  match k with
  | Sending (c :: rest) lines => Some (mkLine (Sending rest lines) (down ++ [c]) up b)
  | Sending [] (l :: lines) => Some (mkLine (Waiting [] (l :: lines)) down up b)
  | Waiting read (l :: lines) =>
      match up with
      | c :: up =>
          if c =? lf then
            if list_eq_dec Z.eq_dec (read ++ [lf]) ready then Some (mkLine (Sending l lines) down up b)
            else Some (mkLine (Waiting [] (l :: lines)) down up b)
          else Some (mkLine (Waiting (read ++ [c]) (l :: lines)) down up b)
      | [] => None
      end
  | _ => None
  end.
Definition line_next (u : line_state) : option line_state :=
  let '(mkLine k down up b) := u in
  match b with
  | Writing (c :: out) f => Some (mkLine k down (up ++ [c]) (match out with [] => Reading f | _ => Writing out f end))
  | Reading f =>
      match down with
      | c :: down =>
          match firmware_byte f c with
          | Ok (f', out) => Some (mkLine k down up (match out with [] => Reading f' | _ => Writing out f' end))
          | Panic => Some (mkLine k down up Halted)
          end
      | [] => client_next k down up b
      end
  | _ => client_next k down up b
  end.
Lemma some_inj {A} (x y : A) : Some x = Some y -> x = y.
Proof. congruence. Qed.
Lemma client_next_step k down up b v : client_next k down up b = Some v -> line_step (mkLine k down up b) v.
Proof.
  intros H. destruct k as [rd [|l ls]|[|c rest] ls]; cbn [client_next] in H; try discriminate H.
  - destruct up as [|c up]; [discriminate H|]. destruct (Z.eqb_spec c lf) as [->|Hne].
    + destruct (list_eq_dec Z.eq_dec (rd ++ [lf]) ready) as [E|E]; apply some_inj in H; subst v; [now apply client_ready|now apply client_other].
    + apply some_inj in H; subst v. now apply client_read.
  - destruct ls as [|l ls]; [discriminate H|]. apply some_inj in H; subst v. apply client_wait.
  - apply some_inj in H; subst v. apply client_send.
Qed.
Lemma line_next_step u v : line_next u = Some v -> line_step u v.
Proof.
  destruct u as [k down up b]. destruct b as [[|c out] f|f|]; cbn [line_next]; try apply client_next_step.
  - intros H. apply some_inj in H; subst v. apply board_write.
  - destruct down as [|c down]; [apply client_next_step|]. intros H.
    destruct (firmware_byte f c) as [[f' out]|] eqn:E; apply some_inj in H; subst v; [now apply board_read|now apply board_halt with (f := f)].
Qed.
Fixpoint line_exec (fuel : nat) (u : line_state) : line_state :=
  match fuel with
  | O => u
  | Datatypes.S fuel => match line_next u with Some v => line_exec fuel v | None => u end
  end.
Lemma line_exec_steps fuel : forall u v, line_steps v u -> line_steps v (line_exec fuel u).
Proof.
  induction fuel as [|fuel IH]; intros u v H; cbn [line_exec]; [exact H|].
  destruct (line_next u) as [w|] eqn:E; [|exact H]. apply IH. apply steps_more with u; [exact H|]. now apply line_next_step.
Qed.
End Serial.

(** Four calls, with what the lines look like. *)
Definition serial_calls : list op := Eval vm_compute in
  (firstn 2 tx_nominal ++ firstn 2 (skipn 14 tx_nominal)).
Definition serial_lines : list (list Z) := Eval vm_compute in
  map (fun x => match x with FeedInav w s g b => send_line w s g b | FeedOsnma d s g => send_line d s g E5B end) serial_calls.
Example serial_carries : Forall2 carries serial_calls serial_lines.
Proof.
  unfold serial_calls, serial_lines.
  repeat constructor; try (exists E5B); vm_compute; reflexivity.
Qed.
Example serial_first_line : firstn 12 (nth 0 serial_lines []) = text "1 1200 7170 ".
Proof. vm_compute. reflexivity. Qed.
Definition serial_o : osnma := Eval vm_compute in (osnma_new (S := small_storage) None (Some (tx_pub 3)) false).
Definition serial_at (n : nat) : line_state := line_exec (S := small_storage) n (line_new serial_lines serial_o).
(** The client: does it send, what is left of the line, how many lines; the bytes on the way down; the
    firmware: what it does, how much it has to write. *)
Definition serial_view (u : line_state) :=
  (match u_client u with Waiting r l => (false, r, List.length l) | Sending r l => (true, r, List.length l) end,
   u_down u,
   match u_board u with Writing out f => (1, List.length out) | Reading f => (2, 0%nat) | Halted => (3, 0%nat) end).
Lemma serial_busy : serial_view (serial_at 129) = ((true, [lf], 3%nat), [], (1, 54%nat)).
Proof. vm_compute. reflexivity. Qed.
Lemma serial_end : serial_view (serial_at 1000) = ((true, [], 0%nat), [], (2, 0%nat)).
Proof. vm_compute. reflexivity. Qed.
(** A byte does come while the firmware is busy with the first line: the line feed. *)
Example C53_example_busy : Forall op_ok serial_calls /\ exists u, line_steps (S := small_storage) (line_new serial_lines serial_o) u /\
  busy (u_board u) /\ u_down u = [lf].
Proof.
  split; [apply op_okb_ok; vm_compute; reflexivity|].
  assert (H : line_steps (S := small_storage) (line_new serial_lines serial_o) (serial_at 129)) by (apply line_exec_steps, steps_none).
  pose proof serial_busy as Hv. destruct (serial_at 129) as [k down up b]. unfold serial_view in Hv. cbn [u_client u_down u_up u_board] in Hv.
  destruct k as [r l|r l]; [discriminate Hv|]. assert (r = [lf]) by congruence. assert (down = []) by congruence. subst r down.
  destruct b as [out f|f|]; [|discriminate Hv|discriminate Hv].
  exists (mkLine (Sending [] l) [lf] up (Writing out f)). split; [apply (steps_more _ _ _ H), client_send|].
  split; [exists out, f; reflexivity|reflexivity].
Qed.
(** The end is reached. *)
Example C53_example_end : exists u, line_steps (S := small_storage) (line_new serial_lines serial_o) u /\
  u_client u = Sending [] [] /\ u_down u = [] /\ exists f, u_board u = Reading f.
Proof.
  exists (serial_at 1000). split; [apply line_exec_steps, steps_none|].
  pose proof serial_end as Hv. destruct (serial_at 1000) as [k down up b]. unfold serial_view in Hv. cbn [u_client u_down u_up u_board] in *.
  destruct k as [r l|r l]; [discriminate Hv|]. assert (r = []) by congruence. assert (El : List.length l = 0%nat) by congruence.
  destruct l; [|discriminate El]. subst r. split; [reflexivity|]. split; [congruence|].
  destruct b as [out f|f|]; [discriminate Hv|eauto|discriminate Hv].
Qed.
(** The packets of C52 give 284 lines. *)
Example C53_example_packets :
  ('(_, l) <- client_all_lines app_new log_packets ;; Ok (List.length l)) = Ok 284%nat.
Proof. vm_compute. reflexivity. Qed.
(** The client sends a line for a satellite that does not exist. *)
Example C45_example_satellite :
  ('(_, l) <- client_all_lines app_new [packet_of (FeedInav (repeat 7 16) 37 (mkGst 1200 7200) E1B)] ;; Ok l)
  = Ok [text "37 1200 7200 1 07070707070707070707070707070707" ++ crlf].
Proof. vm_compute. reflexivity. Qed.

Print Assumptions C45_line.
Print Assumptions C45_line_fits.
Print Assumptions C45_lines.
Print Assumptions C45_client.
Print Assumptions C45_unchecked_satellite.
Print Assumptions C53_one_byte_while_busy.
Print Assumptions C53_calls_in_order.
Print Assumptions C53_ends.
Print Assumptions C53_no_deadlock.
Print Assumptions C53_packets_to_library.

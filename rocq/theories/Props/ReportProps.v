(** Property C74: the firmware reports exactly the satellites with authenticated data, and the
    client prints these reports. *)
From Coq Require Import ZArith String List Bool Lia.
From Verif Require Import Model.Prelude Model.Params Model.Gst Model.Svn Model.Merkle
  Model.Nav Model.Osnma Model.Transport Model.Apps Model.Serial
  Spec.TimeSpec Spec.CollectSpec Spec.NavSpec Spec.SystemSpec Spec.AppsSpec Spec.SerialSpec Spec.ReportSpec
  Proofs.Base Proofs.AppsProofs Proofs.SerialProofs Proofs.ReportProofs Props.SerialProps Props.KeyProps Props.CompleteProps
  Examples.Demo Examples.Toy Examples.Transmit.
Import ListNotations.
Open Scope list_scope.
Open Scope Z_scope.

Section Report.
Context {C : crypto} {B : build} {S : storage}.

(** * C74 *)

(** Whatever number of bytes of the lines the firmware has received: what it has written is the
    answers to the first calls, in order. Each answer names the call and then exactly the satellites
    for which the library returns timing parameters and CED after this call, in order, with the time
    of week of the data. When everything was received, each call was answered. *)
Theorem C74_responses : forall o calls lines received rest f out,
  Forall2 carries calls lines -> Forall op_ok calls -> concat lines = received ++ rest ->
  firmware_bytes (mkFirmware o []) received = Ok (f, out) ->
  exists rs, out = concat rs /\ responses o calls rs /\ (rest = [] -> List.length rs = List.length calls).
Proof. intros o calls lines received rest f out H1 H2. exact (firmware_responses calls lines H1 H2 o received rest f out). Qed.

(** In any execution, what the client has printed at any moment is a start of READY and the answers. *)
Theorem C74_client_prints : forall o calls lines printed u,
  Forall2 carries calls lines -> Forall op_ok calls -> line_prints (line_new lines o) printed u ->
  exists rs more, responses o calls rs /\ concat printed ++ more = ready_line ++ concat rs.
Proof. intros o calls lines printed u H1 H2. exact (prints_responses o calls lines H1 H2 printed u). Qed.

(** When nothing more can happen and the firmware has not panicked, the client has printed READY and
    all the answers except the last: it ends when it has sent the last line, and does not wait for
    the answer. So what becomes authenticated with the last call is never shown. *)
Theorem C74_at_the_end : forall o calls lines printed u,
  Forall2 carries calls lines -> Forall op_ok calls -> line_prints (line_new lines o) printed u ->
  stuck u -> u_board u <> Halted ->
  exists rs, responses o calls rs /\ List.length rs = List.length calls /\
    concat printed = concat (firstn (List.length calls) (ready_line :: rs)).
Proof. intros o calls lines printed u H1 H2. exact (prints_all o calls lines H1 H2 printed u). Qed.

(** * Examples *)

(** The lines printed in the execution of [line_exec]. *)
Fixpoint print_exec (fuel : nat) (u : line_state) (ls : list (list Z)) : list (list Z) * line_state :=
  match fuel with
  | O => (ls, u)
  | Datatypes.S fuel =>
      match line_next u with
      | None => (ls, u)
      | Some v =>
          print_exec fuel v
            (match u_client u with
             | Waiting read _ => if list_eq_dec Z.eq_dec (u_up u) (10 :: u_up v) then ls ++ [read ++ [10]] else ls
             | _ => ls
             end)
      end
  end.
Lemma print_exec_prints fuel : forall u0 u ls, line_prints u0 ls u ->
  line_prints u0 (fst (print_exec fuel u ls)) (snd (print_exec fuel u ls)).
Proof.
  induction fuel as [|fuel IH]; intros u0 u ls H; cbn [print_exec]; [exact H|].
  destruct (line_next u) as [v|] eqn:E; [|exact H]. apply line_next_step in E. apply IH.
  destruct (u_client u) as [read left|r l] eqn:Ek.
  - destruct (list_eq_dec Z.eq_dec (u_up u) (10 :: u_up v)) as [Eu|Eu].
    + now apply prints_line with (v := u) (lines := left).
    + now apply prints_nothing with (v := u).
  - apply prints_nothing with (v := u); [exact H|exact E|]. intros Eu.
    destruct E; cbn [u_client u_up] in *; try discriminate Ek; try (exact (longer _ _ Eu)).
    all: exact (longer_snoc _ _ _ Eu).
Qed.
End Report.

(** Four calls: READY and three answers are printed. *)
Definition serial_printed : list (list Z) := fst (print_exec (S := small_storage) 1000 (line_new serial_lines serial_o) []).
Definition printed_text (l : list string) : list Z := concat (map (fun s => text s ++ line_end) l).
Lemma serial_printed_text : concat serial_printed = printed_text
  ["READY";
   "E01 WN 1200 TOW 7170 E1B INAV"; "AUTH ADKD=4 NONE"; "AUTH ADKD=0 NONE"; "READY";
   "E02 WN 1200 TOW 7170 E1B INAV"; "AUTH ADKD=4 NONE"; "AUTH ADKD=0 NONE"; "READY";
   "E01 WN 1200 TOW 7200 E5B OSNMA"; "AUTH ADKD=4 NONE"; "AUTH ADKD=0 NONE"; "READY"]%string.
Proof. vm_compute. reflexivity. Qed.
Example C74_example_prints : exists printed u,
  line_prints (S := small_storage) (line_new serial_lines serial_o) printed u /\ List.length printed = 13%nat /\
  List.length serial_calls = 4%nat.
Proof.
  exists serial_printed, (snd (print_exec (S := small_storage) 1000 (line_new serial_lines serial_o) [])).
  split; [apply print_exec_prints, prints_none|]. split; vm_compute; reflexivity.
Qed.

(** The answer to the call with which the CED of two satellites becomes authenticated. *)
Definition c74_line : list Z := match c33_x with FeedInav w s g b => send_line w s g b | FeedOsnma d s g => send_line d s g E1B end.
Example C74_example_answer : carries c33_x c74_line /\
  (o <- run tx_new c33_h ;; '(f, out) <- firmware_bytes (mkFirmware o []) c74_line ;; Ok out) = Ok (printed_text
  ["E01 WN 1200 TOW 7258 E1B OSNMA"; "AUTH ADKD=4 E01 TOW 7170"; "AUTH ADKD=0 E01 TOW 7170 E02 TOW 7170"; "READY"]%string).
Proof. split; [exists E1B; vm_compute; reflexivity|]. vm_compute. reflexivity. Qed.

Print Assumptions C74_responses.
Print Assumptions C74_client_prints.
Print Assumptions C74_at_the_end.

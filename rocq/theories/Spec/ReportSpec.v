(** What the firmware reports over the serial line and what the client prints. *)
From Coq Require Import ZArith String List Bool Sorted.
From Verif Require Import Model.Prelude Model.Params Model.Gst Model.Nav Model.Osnma Model.Apps Model.Serial
  Spec.TimeSpec Spec.CollectSpec Spec.NavSpec Spec.SystemSpec Spec.SerialSpec.
Import ListNotations.
Open Scope list_scope.
Open Scope Z_scope.

(** ** Text *)

(** A number in decimal digits, without zeros in front. *)
Definition decimal_text (n : Z) (s : list Z) : Prop :=
  s <> [] /\ Forall (fun c => 48 <= c <= 57) s /\ n = fold_left (fun v c => 10 * v + (c - 48)) s 0 /\
  (hd 0 s = 48 -> s = [48]).

(** The name of a satellite: E and two digits. *)
Definition svn_text (svn : Z) (s : list Z) : Prop :=
  exists d1 d2, 0 <= d1 < 10 /\ 0 <= d2 < 10 /\ svn = 10 * d1 + d2 /\ s = text "E" ++ [48 + d1; 48 + d2].

(** Satellites and times of week, " E05 TOW 121050 E11 TOW 121020". *)
Inductive list_text : list (Z * Z) -> list Z -> Prop :=
| list_none : list_text [] []
| list_more svn tow name num l s : svn_text svn name -> decimal_text tow num -> list_text l s ->
    list_text ((svn, tow) :: l) (text " " ++ name ++ text " TOW " ++ num ++ s).

Definition line_end : list Z := [13; 10].
Definition auth_line (start : string) (l : list (Z * Z)) (line : list Z) : Prop :=
  exists s, list_text l s /\ line = text start ++ (match l with [] => text " NONE" | _ => s end) ++ line_end.

Section Crypto.
Context {C : crypto} {B : build} {S : storage}.

(** The satellites, in order, for which a getter of the library returns data, with the time of
    week of the data. *)
Definition available (o : osnma) (k : nav_kind) (l : list (Z * Z)) : Prop :=
  StronglySorted (fun x y => fst x < fst y) l /\
  forall svn tow, In (svn, tow) l <-> 1 <= svn <= 36 /\ exists d, getter k o svn = Ok (Some d) /\ g_tow (nd_gst d) = tow.

(** "E05 WN 1176 TOW 121050 E1B INAV" *)
Definition echo_line (x : op) (line : list Z) : Prop :=
  exists name wn tow band, svn_text (op_svn x) name /\ decimal_text (g_wn (op_gst x)) wn /\ decimal_text (g_tow (op_gst x)) tow /\
    match x with
    | FeedInav _ _ _ b => band = match b with E1B => text "E1B" | E5B => text "E5B" end
    | FeedOsnma _ _ _ => band = text "E1B" \/ band = text "E5B"
    end /\
    line = name ++ text " WN " ++ wn ++ text " TOW " ++ tow ++ text " " ++ band ++
      (match x with FeedInav _ _ _ _ => text " INAV" | FeedOsnma _ _ _ => text " OSNMA" end) ++ line_end.

Definition ready_line : list Z := text "READY" ++ line_end.

(** What the firmware answers when it has made the call [x], with the library in the state [o]
    after it. *)
Definition response (o : osnma) (x : op) (r : list Z) : Prop :=
  exists l0 l4 echo line0 line4, echo_line x echo /\ available o Timing l4 /\ available o Ced l0 /\
    auth_line "AUTH ADKD=4" l4 line4 /\ auth_line "AUTH ADKD=0" l0 line0 /\
    r = echo ++ line4 ++ line0 ++ ready_line.

(** The answers to the first calls. *)
Definition responses (o : osnma) (calls : list op) (rs : list (list Z)) : Prop :=
  (List.length rs <= List.length calls)%nat /\
  forall n x r, nth_error calls n = Some x -> nth_error rs n = Some r ->
    exists o', run o (firstn (n + 1) calls) = Ok o' /\ response o' x r.

(** ** The lines that the client prints in an execution: those that it reads, when it has read the
    end of the line. *)
Inductive line_prints : line_state -> list (list Z) -> line_state -> Prop :=
| prints_none u : line_prints u [] u
| prints_line u ls v read lines w : line_prints u ls v -> line_step v w ->
    u_client v = Waiting read lines -> u_up v = 10 :: u_up w -> line_prints u (ls ++ [read ++ [10]]) w
| prints_nothing u ls v w : line_prints u ls v -> line_step v w -> u_up v <> 10 :: u_up w -> line_prints u ls w.

End Crypto.

(** Specification of what is collected from a history of OSNMA words: subframes and DSM
    messages. *)
From Coq Require Import ZArith List Bool.
From Verif Require Import Model.Gst.
Import ListNotations.
Open Scope Z_scope.

(** ** Subframes *)

(** An OSNMA word: 5 bytes, sent by a satellite at a time. *)
Record oword : Type := mkWord { w_data : list Z; w_svn : Z; w_gst : gst }.

(** The position of the word in its subframe: 15 words, one every 2 seconds. *)
Definition w_index (w : oword) : Z := (g_tow (w_gst w) mod 30) / 2.

Definition same_subframe (a b : gst) : bool :=
  (g_wn a =? g_wn b) && (g_tow a / 30 =? g_tow b / 30).

(** The words fed since the subframe last changed (whichever the satellite), in order.
    [run_for run w] is the part of the current run that is still in force when [w] comes. *)
Definition run_for (run : list oword) (w : oword) : list oword :=
  match run with
  | [] => []
  | r :: _ => if same_subframe (w_gst r) (w_gst w) then run else []
  end.
Definition current_run (h : list oword) : list oword :=
  fold_left (fun run w => run_for run w ++ [w]) h [].

(** Words [n], [n+1], ... found in that order. *)
Fixpoint in_order (n : Z) (ws : list oword) : list oword :=
  match ws with
  | [] => []
  | w :: ws' => if w_index w =? n then w :: in_order (n + 1) ws' else in_order n ws'
  end.

(** The words collected for a satellite. *)
Definition collected (svn : Z) (run : list oword) : list oword :=
  in_order 0 (filter (fun w => w_svn w =? svn) run).

(** Each word carries one byte of the HKROOT message and then four of the MACK message. *)
Definition hkroot_of (ws : list oword) : list Z := flat_map (fun w => firstn 1 (w_data w)) ws.
Definition mack_of (ws : list oword) : list Z := flat_map (fun w => skipn 1 (w_data w)) ws.

(** The start of the subframe of a time. *)
Definition subframe_of (g : gst) : gst := mkGst (g_wn g) (30 * (g_tow g / 30)).

(** What the collector must return when [w] is fed after the history [h]. *)
Definition expected_subframe (h : list oword) (w : oword) : option (list Z * list Z * gst) :=
  let before := collected (w_svn w) (run_for (current_run h) w) in
  if (Z.of_nat (length before) =? 14) && (w_index w =? 14)
  then Some (hkroot_of (before ++ [w]), mack_of (before ++ [w]), subframe_of (w_gst w))
  else None.

(** [ws] occurs in [l], in order, possibly with other words in between. *)
Inductive subsequence {A} : list A -> list A -> Prop :=
| subseq_nil : forall l, subsequence [] l
| subseq_take : forall x l1 l2, subsequence l1 l2 -> subsequence (x :: l1) (x :: l2)
| subseq_skip : forall x l1 l2, subsequence l1 l2 -> subsequence l1 (x :: l2).

(** ** DSM messages *)

(** A DSM block: the DSM header gives the id of the DSM (high half) and the number of the
    block (low half). *)
Record block : Type := mkBlock { b_header : Z; b_data : list Z }.
Definition b_dsm (b : block) : Z := b_header b / 16.
Definition b_num (b : block) : Z := b_header b mod 16.

(** The blocks received since the DSM id last changed. *)
Definition dsm_run_for (run : list block) (b : block) : list block :=
  match run with
  | [] => []
  | r :: _ => if b_dsm r =? b_dsm b then run else []
  end.
Definition dsm_run (h : list block) : list block :=
  fold_left (fun run b => dsm_run_for run b ++ [b]) h [].

(** The first copy of block [n] in a run. *)
Definition first_copy (n : nat) (run : list block) : option block :=
  find (fun b => b_num b =? Z.of_nat n) run.

(** DSM ids 12 to 15 are DSM-PKR, the others DSM-KROOT.  The number of blocks is coded in
    the high half of the first byte: 1 to 8 mean 7 to 14 (KROOT), 7 to 10 mean 13 to 16
    (PKR). *)
Definition is_pkr (id : Z) : bool := 12 <=? id.
Definition blocks_needed (id first_byte : Z) : option nat :=
  let nb := first_byte / 16 in
  if is_pkr id then
    if (7 <=? nb) && (nb <=? 10) then Some (Z.to_nat (nb + 6)) else None
  else
    if (1 <=? nb) && (nb <=? 8) then Some (Z.to_nat (nb + 6)) else None.

(** The message made of blocks 0 to [n-1] if all of them are there. *)
Fixpoint blocks_from (n k : nat) (run : list block) : option (list Z) :=
  match n with
  | O => Some []
  | S n' => match first_copy k run, blocks_from n' (S k) run with
            | Some b, Some l => Some (b_data b ++ l)
            | _, _ => None
            end
  end.
Definition complete_dsm (id : Z) (run : list block) : option (list Z) :=
  match first_copy 0 run with
  | None => None
  | Some b0 => match blocks_needed id (nth 0 (b_data b0) 0) with
               | None => None
               | Some n => blocks_from n 0 run
               end
  end.

(** What the collector must return when [b] is fed after the history [h]: the DSM, the first
    time that it is complete in the run. *)
Definition expected_dsm (h : list block) (b : block) : option (Z * bool * list Z) :=
  let before := dsm_run_for (dsm_run h) b in
  match complete_dsm (b_dsm b) before, complete_dsm (b_dsm b) (before ++ [b]) with
  | None, Some data => Some (b_dsm b, is_pkr (b_dsm b), data)
  | _, _ => None
  end.

(** Words 0, 1, ..., n-1 of a satellite are found, in that order, in a list of words. *)
Definition has_words (svn : Z) (n : nat) (ws l : list oword) : Prop :=
  length ws = n /\ subsequence ws l /\
  forall i w, nth_error ws i = Some w -> w_svn w = svn /\ w_index w = Z.of_nat i.

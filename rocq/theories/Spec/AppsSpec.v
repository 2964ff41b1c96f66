(** Specification of what galmon-osnma feeds to the library and logs. *)
From Coq Require Import ZArith List Bool.
From Verif Require Import Model.Prelude Model.Params Model.Gst Model.Nav Model.Osnma Model.Apps
  Spec.TimeSpec Spec.CollectSpec Spec.NavSpec Spec.SystemSpec.
Import ListNotations.
Open Scope Z_scope.

(** ** Packets *)

(** What the types guarantee: numbers of 32 bits, bytes. *)
Definition inav_ok (p : galileo_inav) : Prop :=
  0 <= p_wn p < 2 ^ 32 /\ 0 <= p_tow p < 2 ^ 32 /\ 0 <= p_sv p < 2 ^ 32 /\
  Forall is_byte (p_contents p) /\ (forall d, p_reserved1 p = Some d -> Forall is_byte d).
Definition message_ok (m : message) : Prop := forall p, m_gi m = Some p -> inav_ok p.

(** The packets that matter: INAV packets that say which signal they come from. *)
Definition inav_packets (ms : list message) : list galileo_inav :=
  flat_map (fun m => match m_gi m with
                     | Some p => match p_sigid p with Some _ => [p] | None => [] end
                     | None => []
                     end) ms.

(** The time in a packet, in seconds since the start of week 0. *)
Definition raw_time (p : galileo_inav) : Z := 604800 * p_wn p + p_tow p.

(** The time that is used, where [before] are the packets before, last first: if the time is 15
    seconds after the start of a subframe, but that used for the packet before was at least 19
    seconds after the start of one, then it should have been 29 seconds. *)
Fixpoint used_time (before : list galileo_inav) (p : galileo_inav) : Z :=
  match before with
  | [] => raw_time p
  | q :: before =>
      if (raw_time p mod 30 =? 15) && (19 <=? used_time before q mod 30) then raw_time p + 14 else raw_time p
  end.

(** The subframe, as a number. *)
Definition used_subframe (before : list galileo_inav) (p : galileo_inav) : Z := used_time before p / 30.

(** No packet before was in a later subframe. *)
Fixpoint in_order (n : Z) (before : list galileo_inav) : Prop :=
  match before with
  | [] => True
  | q :: before => used_subframe before q <= n /\ in_order n before
  end.

(** The GST of a time. *)
Definition gst_at (t : Z) : gst := mkGst (t / 604800) (t mod 604800).

Definition of_band (b : band) (p : galileo_inav) : Prop :=
  p_sigid p = Some (match b with E1B => 1 | E5B => 5 end).

(** A dummy message: INAV word type 63. *)
Definition dummy (p : galileo_inav) : Prop := exists b l, p_contents p = b :: l /\ b / 4 = 63.

(** ** Calls *)

(** The calls that have to be made for a packet: if the packet is of one of the two bands, not
    in a subframe before that of another packet, and not a dummy message, its word and, if it
    has any, its OSNMA data, with its satellite and time; else none. *)
Definition feeds (before : list galileo_inav) (p : galileo_inav) (l : list op) : Prop :=
  let g := gst_at (used_time before p) in
  (exists b, of_band b p /\ in_order (used_subframe before p) before /\ ~ dummy p /\
     l = FeedInav (p_contents p) (p_sv p) g b ::
         match p_reserved1 p with Some d => [FeedOsnma d (p_sv p) g] | None => [] end) \/
  (~ ((exists b, of_band b p) /\ in_order (used_subframe before p) before /\ ~ dummy p) /\ l = []).

(** The calls for all the packets, after those in [before]. *)
Inductive feeds_all : list galileo_inav -> list galileo_inav -> list op -> Prop :=
| feeds_none before : feeds_all before [] []
| feeds_more before p ps l l' : feeds before p l -> feeds_all (p :: before) ps l' ->
    feeds_all before (p :: ps) (l ++ l').

(** The week of the packet can be written with 16 bits. *)
Definition week_fits (p : galileo_inav) : Prop := raw_time p < 65536 * 604800.

(** The packets for which the program panics, if it checks for overflow: the week number has more
    than 16 bits; or the packet is not in an old subframe and the satellite does not exist; or it is
    in one of the bands and the word is empty, or not a dummy message and of a wrong size. *)
Definition bad_packet (before : list galileo_inav) (p : galileo_inav) : Prop :=
  ~ week_fits p \/
  (in_order (used_subframe before p) before /\
   (~ 1 <= p_sv p <= 36 \/
    ((exists b, of_band b p) /\
     (p_contents p = [] \/
      (~ dummy p /\ (length (p_contents p) <> 16%nat \/ exists d, p_reserved1 p = Some d /\ length d <> 5%nat)))))).

(** ** The log *)

Definition same_kind (k k' : nav_kind) : bool :=
  match k, k' with Ced, Ced => true | Timing, Timing => true | _, _ => false end.

(** The log of galmon-osnma for one kind of data and satellite: the data, in order. *)
Definition logged (k : nav_kind) (svn : Z) (log : list event) : list (list bool) :=
  map v_data (filter (fun v => same_kind (v_kind v) k && (v_svn v =? svn)) log).

(** No two in a row are the same. *)
Definition all_new {A} (l : list A) : Prop :=
  forall i x y, nth_error l i = Some x -> nth_error l (i + 1) = Some y -> x <> y.

Definition last_logged (k : nav_kind) (svn : Z) (log : list event) : option (list bool) :=
  hd_error (rev (logged k svn log)).

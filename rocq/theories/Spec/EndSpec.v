(** From the signal to what a program shows. *)
From Coq Require Import ZArith String List Bool.
From Verif Require Import Model.Prelude Model.Params Model.Gst Model.Bitfields Model.Tesla Model.Merkle
  Model.Dsm Model.MackStore Model.Nav Model.Osnma Model.Apps Model.Serial
  Spec.TimeSpec Spec.CollectSpec Spec.NavSpec Spec.TeslaSpec Spec.KrootSpec Spec.KeySpec Spec.SystemSpec Spec.StoredSpec
  Spec.CompleteSpec Spec.PanicSpec Spec.HonestSpec Spec.AppsSpec Spec.VectorsSpec Spec.ReportSpec.
Import ListNotations.
Open Scope list_scope.
Open Scope Z_scope.

Section Crypto.
Context {C : crypto} {B : build} {S : storage}.

(** What the receiver gets is of the transmission [t], which can be verified with the public key
    [pk]; week 0 is left out. *)
Definition receives (root : option (list Z)) (user : option public_key) (pk : public_key) (t : transmission)
    (h : list op) : Prop :=
  transmission_ok pk t /\ hears root user pk t h /\ forall w, In w (inav_words h) -> 1 <= g_wn (nw_gst w).

(** What has been received authenticates the data [bits] of the satellite [svn].  It is, in this
    order:
    - [hA]: anything;
    - [hN], in the subframe [gn]: all the words of the data, and anything else;
    - [hM], in the next subframe [gm]: a complete subframe of some satellite [prna] whose MACK
      message has a valid tag for the data, and anything else;
    - [p] and [x], in later subframes, up to the subframe [g] in which the key of the tag is
      disclosed; [x] completes this subframe of some satellite;
    - [q]: anything, while the storage has room for the subframe [gn].
    By then a DSM-KROOT, and, if the public key is not known from the start, before it the DSM-PKR
    with the public key have been received; there was no gap of more than 25 hours.  The words of
    the satellite after [hN] repeat the data. *)
Inductive gives_data (root : option (list Z)) (user : option public_key) (pk : public_key) (slow : bool)
    (t : transmission) (k : nav_kind) (svn : Z) (bits : list bool) : list op -> Prop :=
| gives hA hN hM p x q gn gm g delay adkd cop tag prna hk1 mk1 hk2 mk2 :
    room_for (map op_svn (hA ++ hN ++ hM ++ p ++ x :: q)) ->
    delay < 30 * Z.of_nat mack_depth -> delay + 30 < 30 * Z.of_nat nav_depth ->
    no_long_gap t (kroot_received_then root user pk t) (hA ++ hN ++ hM ++ p ++ [x]) ->
    1 <= svn <= 36 -> adkd_means adkd k delay -> (slow = true -> adkd = 12) -> 0 < cop < 16 -> (40 <= length tag)%nat ->
    (forall y, In y hN -> subframe_of (op_gst y) = gn) -> icd_data k (words_of svn (inav_words hN)) = Some bits ->
    (forall y, In y hM -> subframe_of (op_gst y) = gm) -> time_of gm = time_of gn + 30 ->
    (exists m1 data gk m2, hM = m1 ++ FeedOsnma data prna gk :: m2 /\
       completes (hA ++ hN ++ m1) (FeedOsnma data prna gk) hk1 mk1 gm) ->
    tag_transmitted t hk1 mk1 prna gm delay svn adkd cop bits tag ->
    time_of g = time_of gm + delay -> completes (hA ++ hN ++ hM ++ p) x hk2 mk2 g ->
    kroot_received_then root user pk t (hA ++ hN ++ hM ++ p ++ [x]) ->
    (forall y, In y p -> time_of gm < time_of (subframe_of (op_gst y))) ->
    (forall y, In y q -> time_of (subframe_of (op_gst y)) < time_of gn + 30 * Z.of_nat nav_depth) ->
    repeats k svn bits (inav_words (hM ++ p ++ x :: q)) ->
    gives_data root user pk slow t k svn bits (hA ++ hN ++ hM ++ p ++ x :: q).

End Crypto.

(** The packets have no values that a receiver of Galileo signals would not put in them. *)
Definition no_bad_packet (ms : list message) : Prop :=
  forall before p after, inav_packets ms = before ++ p :: after -> ~ bad_packet (rev before) p.

(** The first [d] pages of each satellite, in turns. *)
Definition first_pages (rows : list row) (d : nat) : list (nat * Z * page) :=
  flat_map (fun n => flat_map (nth_page n) rows) (seq 0 d).

(** A report of the firmware that names the satellite [svn]: "AUTH ADKD=0" with " E05 TOW 121050". *)
Definition reports (k : nav_kind) (svn : Z) (r : list Z) : Prop :=
  exists a b line l tow, r = a ++ line ++ b /\
    auth_line (match k with Ced => "AUTH ADKD=0" | Timing => "AUTH ADKD=4" end)%string l line /\ In (svn, tow) l.

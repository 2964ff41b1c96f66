(** The nominal reception of a correct transmission, in which a receiver should have nothing to
    warn about.  utils/run_test_vectors.sh of the project expects this of the test vectors
    "configuration 1" and "configuration 2": "There should be no errors in this test", with the
    log level "warn". *)
From Coq Require Import ZArith List Bool.
From Verif Require Import Model.Prelude Model.Params Model.Gst Model.Bitfields Model.Tesla Model.Merkle
  Model.Dsm Model.MackStore Model.Nav Model.Osnma
  Spec.TimeSpec Spec.CollectSpec Spec.NavSpec Spec.TeslaSpec Spec.KrootSpec Spec.MerkleSpec Spec.MacltSpec Spec.KeySpec
  Spec.SystemSpec Spec.StoredSpec Spec.CompleteSpec Spec.PanicSpec Spec.LogSpec Spec.HonestSpec.
Import ListNotations.
Open Scope Z_scope.

(** ** The navigation data *)

(** The data that each satellite sends in the subframe that starts at each time. *)
Definition nav_source : Type := nav_kind -> Z -> Z -> list bool.

(** Every word received has the data of its satellite and subframe. *)
Definition words_carry (D : nav_source) (ws : list nword) : Prop :=
  (forall k svn T, length (D k svn T) = data_length k) /\
  forall w k i f, In w ws -> nth_error (icd_fields k) i = Some f -> carries k f w = true ->
    nw_bits w (f_from f) (f_to f) = field_bits k i (D k (nw_svn w) (time_of (subframe_of (nw_gst w)))).

(** Words are received in every subframe, of one satellite or another, until the reception
    ends. *)
Definition no_subframe_missed (ws : list nword) : Prop :=
  forall c g l g' l', nth_error (nav_stretches ws) c = Some (g, l) ->
    nth_error (nav_stretches ws) (c + 1) = Some (g', l') -> time_of g' = time_of g + 30.

Section Crypto.
Context {C : crypto} {B : build} {S : storage}.

(** ** Tags *)

(** Tag number [j] of the MACK message that [prna] sends in the subframe that starts at [T] names
    a satellite and a kind of data.  If its key is disclosed before the transmission ends:
    with COP 0 it is a tag for zeros; else the data of the satellite was the same in the COP
    subframes before [T], and it is a tag for this data. *)
Definition tag_right (D : nav_source) (t : transmission) (s : nma_status_t) (prna T : Z)
    (svn adkd cop : Z) (tag : list bool) (j : nat) : Prop :=
  1 <= svn <= 36 /\ exists k delay, adkd_means adkd k delay /\
  (T + delay <= tr_start t + 30 * Z.of_nat (tr_length t) ->
   (cop = 0 -> tag_matches (tr_chain t) (tr_key t (T + delay)) prna T s svn (repeat false (data_length k)) tag j) /\
   (0 < cop ->
      (forall i, 0 <= i < cop -> D k svn (T - 30 - 30 * i) = D k svn (T - 30)) /\
      tag_matches (tr_chain t) (tr_key t (T + delay)) prna T s svn (D k svn (T - 30)) tag j)).

(** All tags of a MACK message are right, and its MACSEQ and sequence of ADKDs are, if the key
    is disclosed before the transmission ends. *)
Definition mack_right (D : nav_source) (t : transmission) (hkroot mack : list Z) (prna T : Z) : Prop :=
  (T + 30 <= tr_start t + 30 * Z.of_nat (tr_length t) ->
   mack_valid (tr_chain t) (tr_key t (T + 30)) prna T mack (8 * ch_key_bytes (tr_chain t)) (ch_tag_bits (tr_chain t))) /\
  forall svn adkd cop tag j, 0 <= svn < 256 -> 0 <= adkd < 16 -> 0 <= cop < 16 ->
    tag_placed (tr_chain t) prna mack svn adkd cop tag j ->
    tag_right D t (status_of hkroot) prna T svn adkd cop tag j.

(** ** DSM-PKRs *)

(** A DSM-PKR: its id and contents. *)
Record pkr_message : Type := mkPM { pm_id : Z; pm_data : list Z }.

(** The DSM-PKR has the layout of the ICD, leads to the Merkle tree root and gives the public
    key [pk]. *)
Record pkr_message_ok (root : option (list Z)) (pk : public_key) (m : pkr_message) : Prop := {
  pm_id_ok : 12 <= pm_id m < 16;
  pm_data_ok : Forall is_byte (pm_data m) /\ exists f r, pkr_layout (pm_data m) f /\ root = Some r /\
    sha256 (path_input f 4) = r /\ pkr_key f pk;
  pm_blocks_ok : exists n, blocks_needed (pm_id m) (nth 0 (pm_data m) 0) = Some n /\
    length (pm_data m) = (13 * n)%nat
}.

(** The HKROOT message has a block of the DSM-PKR. *)
Definition has_pkr_block (m : pkr_message) (hkroot : list Z) : Prop :=
  exists i, (13 * (i + 1) <= length (pm_data m))%nat /\ nth 1 hkroot 0 = 16 * pm_id m + Z.of_nat i /\
    skipn 2 hkroot = firstn 13 (skipn (13 * i) (pm_data m)).

(** ** The reception *)

(** The chain and public key status says that all is as usual, or announces the end of the
    chain or a new public key. *)
Definition calm_header (hd : Z) : Prop := header_cpks hd = 1 \/ header_cpks hd = 2 \/ header_cpks hd = 4.

(** The receiver starts with the public key [pk], and perhaps a Merkle tree root. *)
Record right_reception (root : option (list Z)) (pk : public_key) (t : transmission) (pkrs : list pkr_message)
    (D : nav_source) (h : list op) : Prop := {
  (** The calls have arguments in their ranges, are in the order of the subframes, and of no
      more satellites than the receiver has room for. *)
  no_args : Forall op_ok h /\ in_subframe_order h /\ room_for (map op_svn h);
  (** The transmission can be verified with the public key, and nothing else is received. *)
  no_transmission : transmission_ok pk t /\ honest t h /\
    forall m, In m (tr_kroots t) -> calm_header (km_header m);
  (** The same for DSM-PKRs. *)
  no_pkrs : NoDup (map pm_id pkrs) /\ (forall m, In m pkrs -> pkr_message_ok root pk m) /\
    forall h1 x h2 hkroot mack g, h = h1 ++ x :: h2 -> completes h1 x hkroot mack g ->
      12 <= nth 1 hkroot 0 / 16 -> exists m, In m pkrs /\ has_pkr_block m hkroot;
  (** The root keys of DSM-KROOTs that are sent are less than 25 hours old. *)
  no_old_root : forall h1 x h2 hkroot mack g m, h = h1 ++ x :: h2 -> completes h1 x hkroot mack g ->
    In m (tr_kroots t) -> has_block m hkroot -> time_of g <= time_of (k_gst (km_root m)) + 90000;
  (** The receiver completes a subframe at least every 25 hours. *)
  no_outage : forall h1 x h2 hkroot mack g p y q hkroot1 mack1 g1, h = h1 ++ x :: h2 -> completes h1 x hkroot mack g ->
    h1 = p ++ y :: q -> completes p y hkroot1 mack1 g1 ->
    exists p' y' q' hkroot' mack' g', h1 = p' ++ y' :: q' /\ completes p' y' hkroot' mack' g' /\
      time_of g <= time_of g' + 90000;
  (** The navigation data. *)
  no_data : words_carry D (inav_words h);
  (** The tags. *)
  no_wrong_tag : forall h1 data prna gk h2 hkroot mack g, h = h1 ++ FeedOsnma data prna gk :: h2 ->
    completes h1 (FeedOsnma data prna gk) hkroot mack g -> mack_right D t hkroot mack prna (time_of g)
}.

(** In addition the receiver does not miss the navigation data of all satellites at the same
    time. *)
Definition nominal (root : option (list Z)) (pk : public_key) (t : transmission) (pkrs : list pkr_message)
    (D : nav_source) (h : list op) : Prop :=
  right_reception root pk t pkrs D h /\ no_subframe_missed (inav_words h).

End Crypto.

(** Model of galileo-osnma/src/navmessage.rs. *)
From Coq Require Import ZArith List Bool.
From Verif Require Import Model.Prelude Model.Params Model.Gst Model.Svn Model.Bitfields Model.Tesla.
Import ListNotations.
Open Scope Z_scope.

(** [MIN_AUTHBITS], navmessage.rs:21. *)
Definition min_authbits : Z := 40.

(** ** Stored navigation data *)

(** The macro [impl_common] (navmessage.rs:669-758) defines the same code for
    [CedAndStatus] (navmessage.rs:641-646) and [TimingParameters] (655-660); the model
    has one type and a tag telling the sizes. *)
Inductive nav_kind : Type := Ced | Timing.

(** [CED_AND_STATUS_WORDS], [TIMING_PARAMETERS_WORDS], navmessage.rs:634, 648. *)
Definition kind_words (k : nav_kind) : nat := match k with Ced => 5 | Timing => 2 end.
(** [CED_AND_STATUS_BITS], [TIMING_PARAMETERS_BITS], navmessage.rs:635, 649. *)
Definition kind_bits (k : nav_kind) : nat := match k with Ced => 549 | Timing => 141 end.
(** [CED_AND_STATUS_BYTES], [TIMING_PARAMETERS_BYTES], navmessage.rs:636, 650. *)
Definition kind_bytes (k : nav_kind) : nat := match k with Ced => 69 | Timing => 18 end.

(** [struct CedAndStatus], [struct TimingParameters].  The byte array is represented by
    its bits, which is how all the code accesses it. *)
Record entry : Type := mkEntry {
  e_data : list bool;
  e_age : list Z;
  e_svn : option Z;
  e_authbits : Z
}.

(** [new], navmessage.rs:672-679. *)
Definition entry_new (k : nav_kind) : entry :=
  mkEntry (repeat false (kind_bytes k * 8)) (repeat 255 (kind_words k)) None 0.

(** [reset], navmessage.rs:681-685: the data is kept. *)
Definition entry_reset (e : entry) : entry :=
  mkEntry (e_data e) (map (fun _ => 255) (e_age e)) None 0.

(** [max_age] and [min_age], navmessage.rs:695-701 (the arrays are not empty). *)
Definition max_age (e : entry) : Z := fold_right Z.max 0 (e_age e).
Definition min_age (e : entry) : Z := fold_right Z.min 255 (e_age e).

(** [message_bits], navmessage.rs:739-741. *)
Definition message_bits (k : nav_kind) (e : entry) : list bool := sub 0 (kind_bits k) (e_data e).

(** [copy_word], navmessage.rs:703-715.  All the calls have constant ranges inside the
    arrays, of the same length as the source. *)
Definition copy_word (a b : nat) (source : list bool) (idx : nat) (e : entry) : entry :=
  let age := put idx [0] (e_age e) in
  if bits_eqb (sub a b (e_data e)) source
  then mkEntry (e_data e) age (e_svn e) (e_authbits e)
  else mkEntry (put a source (e_data e)) age (e_svn e) 0.

(** [add_authbits], navmessage.rs:743-745.  A tag has at most 40 bits, so the conversion
    of its length to [u16] does not fail. *)
Definition add_authbits (tag : list bool) (e : entry) : entry :=
  mkEntry (e_data e) (e_age e) (e_svn e)
          (sat_add_u16 (e_authbits e) (Z.of_nat (length tag))).

(** Selection of the satellite, navmessage.rs:775-782 and 803-810. *)
Definition entry_select_svn (svn : Z) (e : entry) : entry :=
  let with_svn e := mkEntry (e_data e) (e_age e) (Some svn) (e_authbits e) in
  match e_svn e with
  | Some s => if s =? svn then e else with_svn (entry_reset e)
  | None => with_svn e
  end.

(** The word type, navmessage.rs:785 and 813. *)
Definition word_type (w : list bool) : Z := load_be (sub 0 6 w).

(** [CedAndStatus::feed], navmessage.rs:774-798. *)
Definition ced_feed (word : list Z) (svn : Z) (e : entry) : entry :=
  let e := entry_select_svn svn e in
  let w := bits_of_bytes word in
  match word_type w with
  | 1 => copy_word 0 120 (sub 6 126 w) 0 e
  | 2 => copy_word 120 240 (sub 6 126 w) 1 e
  | 3 => copy_word 240 362 (sub 6 128 w) 2 e
  | 4 => copy_word 362 482 (sub 6 126 w) 3 e
  | 5 => copy_word 482 549 (sub 6 73 w) 4 e
  | _ => e
  end.

(** [TimingParameters::feed], navmessage.rs:802-826. *)
Definition timing_feed (word : list Z) (svn : Z) (b : band) (e : entry) : entry :=
  let e := entry_select_svn svn e in
  let w := bits_of_bytes word in
  match word_type w, b with
  | 6, E1B => copy_word 0 99 (sub 6 105 w) 0 e
  | 10, E1B => copy_word 99 141 (sub 86 128 w) 1 e
  | _, _ => e
  end.

Definition entry_feed (k : nav_kind) (word : list Z) (svn : Z) (b : band) (e : entry) : entry :=
  match k with Ced => ced_feed word svn e | Timing => timing_feed word svn b e end.

(** ** The storage *)

(** [struct CollectNavMessage], navmessage.rs:28-33. *)
Record nav : Type := mkNav {
  nv_ced : list entry;
  nv_timing : list entry;
  nv_gsts : list (option gst);
  nv_wp : nat
}.

Definition nv_arr (k : nav_kind) (n : nav) : list entry :=
  match k with Ced => nv_ced n | Timing => nv_timing n end.
Definition set_nv_arr (k : nav_kind) (l : list entry) (n : nav) : nav :=
  match k with
  | Ced => mkNav l (nv_timing n) (nv_gsts n) (nv_wp n)
  | Timing => mkNav (nv_ced n) l (nv_gsts n) (nv_wp n)
  end.

(** [struct NavMessageData], navmessage.rs:41-45. *)
Record nav_data : Type := mkNavData { nd_data : list bool; nd_authbits : Z; nd_gst : gst }.

(** The key of [max_by_key], navmessage.rs:100-104 and 119-123. *)
Definition slot_key (svn : Z) (e : entry) : Z :=
  match e_svn e with
  | Some s => if s =? svn then 257 else max_age e
  | None => 256
  end.

(** Ageing of an entry, navmessage.rs:199-201. *)
Definition age_entry (e : entry) : entry :=
  mkEntry (e_data e) (map (fun a => sat_add_u8 a 1) (e_age e)) (e_svn e) (e_authbits e).

Section Storage.
Context {S : storage}.

(** [CollectNavMessage::new], navmessage.rs:72-79. *)
Definition nav_new : nav :=
  mkNav (repeat (entry_new Ced) nav_depth_sats) (repeat (entry_new Timing) nav_depth_sats)
        (repeat None nav_depth) 0.

(** Row of the storage that corresponds to the index [i] of the GST array. *)
Definition row_of {A} (l : list A) (i : nat) : outcome (list A) :=
  slice l (i * num_sats) ((i + 1) * num_sats).

(** One array of [adjust_write_pointer]: copy the row [from] to the row [to]
    (navmessage.rs:146-153) and age the copy (197-208). *)
Definition copy_and_age (l : list entry) (from to : nat) : outcome (list entry) :=
  row <- row_of l from ;;
  l <- copy_from l (to * num_sats) (to * num_sats + length row) row ;;
  row <- row_of l to ;;
  copy_from l (to * num_sats) ((to + 1) * num_sats) (map age_entry row).

(** [CollectNavMessage::adjust_write_pointer], navmessage.rs:133-185. *)
Definition nav_adjust (n : nav) (g : gst) : outcome nav :=
  cur <- index (nv_gsts n) (nv_wp n) ;;
  n <- (match cur with
        | Some g0 =>
            if negb (gst_eqb g0 g) then
              let new_pointer := ((nv_wp n + 1) mod nav_depth)%nat in
              ced <- copy_and_age (nv_ced n) (nv_wp n) new_pointer ;;
              timing <- copy_and_age (nv_timing n) (nv_wp n) new_pointer ;;
              Ok (mkNav ced timing (nv_gsts n) new_pointer)
            else Ok n
        | None => Ok n
        end) ;;
  gsts <- set_index (nv_gsts n) (nv_wp n) (Some g) ;;
  Ok (mkNav (nv_ced n) (nv_timing n) gsts (nv_wp n)).

(** One of the two halves of [CollectNavMessage::feed], navmessage.rs:97-111 and
    116-130. *)
Definition nav_feed_kind (k : nav_kind) (word : list Z) (svn : Z) (b : band) (n : nav)
  : outcome nav :=
  let l := nv_arr k n in
  row <- row_of l (nv_wp n) ;;
  i <- unwrap (max_by_key (slot_key svn) row) ;;
  e <- index row i ;;
  row <- set_index row i (entry_feed k word svn b e) ;;
  l <- copy_from l (nv_wp n * num_sats) ((nv_wp n + 1) * num_sats) row ;;
  Ok (set_nv_arr k l n).

(** [CollectNavMessage::feed], navmessage.rs:89-131. *)
Definition nav_feed (n : nav) (word : list Z) (svn : Z) (g : gst) (b : band) : outcome nav :=
  let g := gst_subframe g in
  n <- nav_adjust n g ;;
  n <- nav_feed_kind Ced word svn b n ;;
  nav_feed_kind Timing word svn b n.

(** [CollectNavMessage::find_gst], navmessage.rs:295-301. *)
Definition find_gst (n : nav) (g : gst) : outcome (option nat) :=
  assert_ (is_subframe g) ;;;
  Ok (position (fun x => option_eqb gst_eqb x (Some g)) (nv_gsts n)).

(** [find_ced_and_status] and [find_timing_parameters], navmessage.rs:267-279. *)
Definition find_entry (k : nav_kind) (n : nav) (svn : Z) (g : gst) : outcome (option entry) :=
  i <- find_gst n g ;;
  match i with
  | None => Ok None
  | Some i =>
      row <- row_of (nv_arr k n) i ;;
      Ok (find_first (fun e => option_eqb Z.eqb (e_svn e) (Some svn)) row)
  end.

Section Crypto.
Context {C : crypto} {B : build}.

(** The loops of [get_ced_and_status] and [get_timing_parameters], navmessage.rs:217-237
    and 245-265. *)
Fixpoint nav_get_from (k : nav_kind) (n : nav) (svn : Z) (js : list nat)
  : outcome (option nav_data) :=
  match js with
  | [] => Ok None
  | j :: js' =>
      let gst_idx := ((nav_depth + nv_wp n - j) mod nav_depth)%nat in
      row <- row_of (nv_arr k n) gst_idx ;;
      match find_first (fun e => option_eqb Z.eqb (e_svn e) (Some svn)
                                 && (min_authbits <=? e_authbits e)) row with
      | Some e =>
          g <- index (nv_gsts n) gst_idx ;;
          g <- unwrap g ;;
          g <- add_subframes g (- min_age e) ;;
          Ok (Some (mkNavData (message_bits k e) (e_authbits e) g))
      | None => nav_get_from k n svn js'
      end
  end.
Definition nav_get (k : nav_kind) (n : nav) (svn : Z) : outcome (option nav_data) :=
  nav_get_from k n svn (seq 0 nav_depth).

(** [(tag_idx + 1).try_into().unwrap()] as [u8], navmessage.rs:550 and 595. *)
Definition tag_ctr (tag_idx : nat) : outcome Z :=
  let v := Z.of_nat tag_idx + 1 in if v <? 256 then Ok v else Panic.

(** Addition of authentication bits, navmessage.rs:568-576. *)
Definition add_authbits_all (k : nav_kind) (tag : list bool) (navdata : entry) (l : list entry)
  : list entry :=
  map (fun e => if option_eqb Z.eqb (e_svn navdata) (e_svn e)
                   && bits_eqb (message_bits k navdata) (message_bits k e)
                then add_authbits tag e else e) l.

(** [CollectNavMessage::validate_tag], navmessage.rs:538-581.  The argument [adkd] is only
    used in the log. *)
Definition nav_validate_tag (key : tkey) (tag : list bool) (gst_tag : gst) (prnd prna : Z)
    (tag_idx : nat) (s : nma_status_t) (k : nav_kind) (navdata : entry) (l : list entry)
  : outcome (bool * list entry) :=
  ctr <- tag_ctr tag_idx ;;
  ret <- match tag_idx with
         | O => validate_tag0 key tag gst_tag prna s (message_bits k navdata)
         | _ => validate_tag key tag gst_tag prnd prna ctr s (message_bits k navdata)
         end ;;
  Ok (ret,
      if ret then
        match s with
        | NmaOperational | NmaTest => add_authbits_all k tag navdata l
        | _ => l
        end
      else l).

(** [CollectNavMessage::validate_dummy_tag], navmessage.rs:584-612. *)
Definition nav_validate_dummy_tag (key : tkey) (tag : list bool) (gst_tag : gst) (prnd prna : Z)
    (tag_idx : nat) (s : nma_status_t) (navdata_len_bits : nat) : outcome bool :=
  ctr <- tag_ctr tag_idx ;;
  match tag_idx with
  | O => validate_tag0_dummy key tag gst_tag prna s navdata_len_bits
  | _ => validate_tag_dummy key tag gst_tag prnd prna ctr s navdata_len_bits
  end.

(** The treatment of one tag, which navmessage.rs:329-357 (tag 0), 381-409 (ADKD 0),
    417-445 (ADKD 4) and 506-533 (ADKD 12) write out with different arguments. *)
Definition process_one_tag (k : nav_kind) (key : tkey) (tag : list bool) (cop : Z)
    (gst_mack gst_navmessage : gst) (prnd prnd_svn prna : Z) (tag_idx : nat) (s : nma_status_t)
    (n : nav) : outcome nav :=
  if cop =? 0 then
    nav_validate_dummy_tag key tag gst_mack prnd prna tag_idx s (kind_bits k) ;;;
    Ok n
  else
    e <- find_entry k n prnd_svn gst_navmessage ;;
    match e with
    | Some navdata =>
        if sat_add_u8 (max_age navdata) 1 <=? cop then
          '(_, l) <- nav_validate_tag key tag gst_mack prnd prna tag_idx s k navdata (nv_arr k n) ;;
          Ok (set_nv_arr k l n)
        else Ok n
    | None => Ok n
    end.

(** The body of the loop of [process_mack], navmessage.rs:361-458. *)
Definition process_mack_tag (m : mack) (key : tkey) (prna : Z) (gst_mack gst_navmessage : gst)
    (s : nma_status_t) (n : nav) (j : nat) : outcome nav :=
  tag <- mack_tag_and_info m j ;;
  match prnd_to_u8 (tag_prnd tag) with
  | None => Ok n
  | Some prnd =>
      match tag_adkd tag with
      | AdkdInavCed =>
          match svn_try_from prnd with
          | Some prnd_svn =>
              process_one_tag Ced key (tag_tag tag) (tag_cop tag) gst_mack gst_navmessage
                              prnd prnd_svn prna j s n
          | None => Ok n
          end
      | AdkdInavTiming =>
          match svn_try_from prnd with
          | Some prnd_svn =>
              process_one_tag Timing key (tag_tag tag) (tag_cop tag) gst_mack gst_navmessage
                              prnd prnd_svn prna j s n
          | None => Ok n
          end
      | AdkdSlowMac | AdkdReserved => Ok n
      end
  end.

(** [CollectNavMessage::process_mack], navmessage.rs:319-460. *)
Definition process_mack (n : nav) (m : mack) (key : tkey) (prna : Z) (gst_mack : gst)
    (s : nma_status_t) : outcome nav :=
  gst_navmessage <- add_seconds gst_mack (-30) ;;
  cop <- mack_cop m ;;
  tag0 <- mack_tag0 m ;;
  n <- process_one_tag Ced key tag0 cop gst_mack gst_navmessage prna prna prna 0 s n ;;
  fold_outcome (process_mack_tag m key prna gst_mack gst_navmessage s)
               (seq 1 (mack_num_tags m - 1)) n.

(** The body of the loop of [process_mack_slowmac], navmessage.rs:488-533. *)
Definition process_slowmac_tag (m : mack) (key : tkey) (prna : Z) (gst_mack gst_navmessage : gst)
    (s : nma_status_t) (n : nav) (j : nat) : outcome nav :=
  tag <- mack_tag_and_info m j ;;
  if negb (adkd_eqb (tag_adkd tag) AdkdSlowMac) then Ok n
  else
    match prnd_to_u8 (tag_prnd tag) with
    | None => Ok n
    | Some prnd =>
        match svn_try_from prnd with
        | Some prnd_svn =>
            process_one_tag Ced key (tag_tag tag) (tag_cop tag) gst_mack gst_navmessage
                            prnd prnd_svn prna j s n
        | None => Ok n
        end
    end.

(** [CollectNavMessage::process_mack_slowmac], navmessage.rs:478-535. *)
Definition process_mack_slowmac (n : nav) (m : mack) (key : tkey) (prna : Z) (gst_mack : gst)
    (s : nma_status_t) : outcome nav :=
  gst_navmessage <- add_seconds gst_mack (-30) ;;
  fold_outcome (process_slowmac_tag m key prna gst_mack gst_navmessage s)
               (seq 1 (mack_num_tags m - 1)) n.

End Crypto.
End Storage.

(** [CollectNavMessage::reset_authbits], navmessage.rs:618-625 (public; [Osnma] never
    calls it). *)
Definition reset_authbits (n : nav) : nav :=
  let r e := mkEntry (e_data e) (e_age e) (e_svn e) 0 in
  mkNav (map r (nv_ced n)) (map r (nv_timing n)) (nv_gsts n) (nv_wp n).

(** Model of what the log statements ([log::trace!] and so on) of the library do: the modules
    subframe.rs, dsm.rs, mack.rs, navmessage.rs and osnma.rs once more, with the messages.

    The arguments of a log statement are computed, and formatted, only if its level is enabled.
    Some of them can panic (accessors of byte slices, [unwrap]); so can the [Debug]
    implementations that are not derived (bitfields.rs:286-303, 896-909).  A message is
    represented by the values that it shows, in the order in which they are printed, not by
    its text. *)
From Coq Require Import ZArith List Bool.
From Verif Require Import Model.Prelude Model.Params Model.Gst Model.Svn Model.Bitfields
  Model.Tesla Model.Merkle Model.Subframe Model.Dsm Model.MackStore Model.Nav Model.Osnma.
Import ListNotations.
Open Scope Z_scope.

(** ** Levels *)

(** [log::Level]. *)
Inductive level : Type := LError | LWarn | LInfo | LDebug | LTrace.

Definition level_number (l : level) : Z :=
  match l with LError => 1 | LWarn => 2 | LInfo => 3 | LDebug => 4 | LTrace => 5 end.

(** [log::max_level]; [None] is [LevelFilter::Off]. *)
Definition enabled (mx : option level) (l : level) : bool :=
  match mx with Some m => level_number l <=? level_number m | None => false end.

(** ** What messages show *)

(** [impl Debug for DsmPkr], bitfields.rs:286-303. *)
Record pkr_shown : Type := mkPkrShown {
  sh_number_of_blocks : option nat;
  sh_message_id : Z;
  sh_nodes : list (list Z);
  sh_type : npkt_t;
  sh_id : Z;
  sh_key : option (list Z);
  sh_padding : option (list Z)
}.
Definition pkr_debug (d : list Z) : outcome pkr_shown :=
  nb <- pkr_number_of_blocks d ;;
  mid <- pkr_message_id d ;;
  n0 <- pkr_intermediate_tree_node d 0 ;;
  n1 <- pkr_intermediate_tree_node d 1 ;;
  n2 <- pkr_intermediate_tree_node d 2 ;;
  n3 <- pkr_intermediate_tree_node d 3 ;;
  t <- pkr_new_public_key_type d ;;
  id <- pkr_new_public_key_id d ;;
  k <- pkr_new_public_key d ;;
  p <- pkr_padding d ;;
  Ok (mkPkrShown nb mid [n0; n1; n2; n3] t id k p).

(** [impl Debug for TagAndInfo], bitfields.rs:1010-1020 (the COP is not shown). *)
Record tag_shown : Type := mkTagShown { sh_tag : list bool; sh_prnd : prnd_t; sh_adkd : adkd_t }.
Definition tag_debug (t : list bool) : tag_shown := mkTagShown (tag_tag t) (tag_prnd t) (tag_adkd t).

(** [impl Debug for Mack], bitfields.rs:896-909. *)
Record mack_shown : Type := mkMackShown {
  sh_tag0 : list bool;
  sh_macseq : Z;
  sh_tags : list tag_shown;
  sh_mack_key : list bool
}.
Fixpoint tags_debug (m : mack) (js : list nat) : outcome (list tag_shown) :=
  match js with
  | [] => Ok []
  | j :: js' => t <- mack_tag_and_info m j ;; l <- tags_debug m js' ;; Ok (tag_debug t :: l)
  end.
Definition mack_debug (m : mack) : outcome mack_shown :=
  tag0 <- mack_tag0 m ;;
  macseq <- mack_macseq m ;;
  tags <- tags_debug m (seq 1 (mack_num_tags m - 1)) ;;
  key <- mack_key m ;;
  Ok (mkMackShown tag0 macseq tags key).

(** Something printed as a satellite ([impl Display for Svn], svn.rs:82-86) or as a number. *)
Inductive shown : Type := ShownSvn (svn : Z) | ShownNumber (n : Z).

Section Crypto.
Context {C : crypto} {B : build} {S : storage}.

(** The messages, in the order of the files.  Keys are shown with all their fields (their
    [Debug] is derived). *)
Inductive message : Type :=
(* subframe.rs:68, 73, 74, 83, 101 *)
| LgFeedOsnma (hkroot mack : list Z) (svn : Z) (g : gst) (word_num : Z)
| LgValidSections (num_valid : list Z)
| LgNewSubframe (g : gst)
| LgMissingWords (svn : Z) (g : gst) (word_num valid : Z)
| LgSubframeCompleted (svn : Z) (g : gst) (hkroot mack : list Z)
(* dsm.rs:84, 86, 99, 104, 110, 128, 133, 138, 144, 151, 192 *)
| LgFeedDsm (id block_id : Z) (block : list Z)
| LgNewDsm (id old_id : Z)
| LgDsmIsComplete
| LgDsmCompleted (id : Z) (size : nat)
| LgDsmContents (d : list Z)
| LgBlockDiffers (block_id : nat) (stored received : list Z)
| LgBlockAlreadyStored (block_id : nat)
| LgBlockStored (block_id : nat)
| LgNoFirstBlock
| LgDsmSize (n missing : nat)
| LgReservedNb (nb : Z) (t : dsm_type_t)
(* mack.rs:64, 73, 87 *)
| LgMackStored (mack : list Z) (svn : Z) (g : gst)
| LgNoRoomForMack (mack : list Z) (svn : Z) (g : gst)
| LgMackNewGst (g current : gst)
(* navmessage.rs:90, 106 and 125, 141, 157, 158 and 170, 163 and 175 *)
| LgFeedInav (word : list Z) (svn : Z) (g : gst)
| LgSelected (k : nav_kind) (svn : option Z) (age : Z)
| LgNavNewGst (g current : gst)
| LgAdvanced (g : gst)
| LgContents (k : nav_kind)
| LgEntry (svn : option Z) (age : list Z) (authbits : Z)
(* navmessage.rs:327, 362, 374 and 495, 412 and 448, 456, 502 *)
| LgTag0 (prna : Z) (g : gst) (cop : Z)
| LgTag (prna : Z) (j : nat) (adkd : adkd_t) (g : gst) (cop : Z) (prnd : prnd_t)
| LgNoPrnd (t : tag_shown)
| LgInvalidPrnd (prnd : prnd_t) (adkd : adkd_t)
| LgReservedAdkd (t : tag_shown)
| LgInvalidPrndSlowMac (prnd : prnd_t) (t : tag_shown)
(* navmessage.rs:564, 578, 603, 607 *)
| LgTagCorrect (prnd : Z) (adkd : adkd_t) (g : gst) (tag_idx : nat) (prna : Z)
| LgTagWrong (prnd : Z) (adkd : adkd_t) (g : gst) (tag_idx : nat) (prna : Z)
| LgDummyTagCorrect (prnd : Z) (adkd : adkd_t) (g : gst) (tag_idx : nat) (prna : Z)
| LgDummyTagWrong (prnd : Z) (adkd : adkd_t) (g : gst) (tag_idx : nat) (prna : Z)
(* navmessage.rs:718 (what is printed after "word type" and after "for"), 726 *)
| LgWord (k : nav_kind) (word_type for_ : shown)
| LgAge (k : nav_kind) (svn : Z) (age : list Z)
(* osnma.rs:278, 279, 284 *)
| LgKrootVerified (pkid : Z)
| LgNmaHeader (s : nma_status_t) (chain_id : Z) (cpks : cpks_t)
| LgKrootError (e : kroot_error)
(* osnma.rs:292, 295, 298; 325, 329, 332, 338, 341, 347, 350; 357 *)
| LgNmaStatus (s : nma_status_t)
| LgCpks (c : cpks_t)
| LgRevoked (c : cpks_t) (this_one : bool)
| LgAlert
(* osnma.rs:368, 375, 380, 383, 389, 394, 397 *)
| LgReservedNpkt (p : pkr_shown)
| LgNoTreeForKey
| LgPubkeyVerified (p : pkr_shown)
| LgPubkeyError (e : pkr_error)
| LgNoTreeForAlert
| LgAlertVerified (p : pkr_shown)
| LgAlertError (e : pkr_error)
(* osnma.rs:403, 417, 426, 432, 504 *)
| LgNoKey
| LgOldKey (new_key current : tkey)
| LgKeyValidated (new_key current : tkey)
| LgKeyError (new_key current : tkey) (e : validation_error)
| LgMackError (prna : Z) (g : gst) (m : mack_shown) (e : mack_error)
(* osnma.rs:537, 541, 547, 577, 589, 594, 616, 624 *)
| LgNextPubkeySelected
| LgNoPubkeyWithId (pkid : Z)
| LgNoPubkey
| LgPubkeyOlder (new_pkid current_pkid : Z)
| LgPubkeyOlderThanNext (new_pkid next_pkid : Z)
| LgPubkeyOverwrites (new_pkid next_pkid : Z)
| LgRevokingCurrent (new_pkid : Z) (current : option public_key)
| LgRevokingNext (new_pkid : Z) (next : option public_key)
(* osnma.rs:654, 658, 665, 668, 730 *)
| LgStoringKroot (key : tkey) (slot : nat)
| LgOverwritingKroot (key : tkey) (slot : nat)
| LgRevokingKey (key : tkey).

(** ** Functions that log *)

(** The result of a function and the messages, with their levels, that it hands to the
    logger. *)
Definition lines : Type := list (level * message).
Definition logging (A : Type) : Type := outcome (lines * A).

Definition done {A} (a : A) : logging A := Ok ([], a).
Definition quiet {A} (x : outcome A) : logging A := a <- x ;; Ok ([], a).
Definition lbind {A D} (x : logging A) (f : A -> logging D) : logging D :=
  match x with
  | Ok (l, a) => match f a with Ok (l', b) => Ok (l ++ l', b) | Panic => Panic end
  | Panic => Panic
  end.

End Crypto.

Declare Scope logging_scope.
Notation "'let*' x ':=' e 'in' k" := (lbind e (fun x => k))
  (at level 200, x name, e at level 200, k at level 200) : logging_scope.
Notation "'let*' ' p ':=' e 'in' k" := (lbind e (fun p => k))
  (at level 200, p strict pattern, e at level 200, k at level 200) : logging_scope.
Notation "e '>>>' k" := (lbind e (fun _ => k)) (at level 61, right associativity) : logging_scope.
Open Scope logging_scope.

Section Functions.
Context {C : crypto} {B : build} {S : storage}.
(** The level up to which messages are logged. *)
Variable mx : option level.

(** A log statement: its arguments are computed if its level is enabled. *)
Definition log (l : level) (m : outcome message) : logging unit :=
  if enabled mx l then m <- m ;; Ok ([(l, m)], tt) else done tt.

(** A loop whose body logs. *)
Fixpoint fold_logging {A St} (f : St -> A -> logging St) (l : list A) (s : St) : logging St :=
  match l with
  | [] => done s
  | x :: l' => let* s' := f s x in fold_logging f l' s'
  end.

(** *** subframe.rs *)

(** [CollectSubframe::feed], subframe.rs:59-117. *)
Definition subframe_feed_log (st : collect_subframe) (osnma_data : list Z) (svn : Z) (g : gst)
  : logging (collect_subframe * option (list Z * list Z * gst)) :=
  let hkroot_section := sub 0 1 osnma_data in
  let mack_section := sub 1 5 osnma_data in
  let word_num := (g_tow g / 2) mod words_per_subframe in
  log LTrace (Ok (LgFeedOsnma hkroot_section mack_section svn g word_num)) >>>
  let subframe := g_tow g / 30 in
  let* st :=
    if negb (g_wn g =? sf_wn st) || negb (subframe =? sf_subframe st) then
      log LDebug (Ok (LgValidSections (sf_num_valid st))) >>>
      log LInfo (Ok (LgNewSubframe g)) >>>
      done (mkSub (sf_hkroot st) (sf_mack st) (repeat 0 num_svns) (g_wn g) subframe)
    else done st in
  let svn_idx := Z.to_nat (svn - 1) in
  let* nv := quiet (index (sf_num_valid st) svn_idx) in
  if negb (word_num =? nv) then
    log LTrace (v <- index (sf_num_valid st) svn_idx ;; Ok (LgMissingWords svn g word_num v)) >>>
    done (st, None)
  else
    let valid := Z.to_nat nv in
    let hkroot_idx := (valid * 1)%nat in
    let mack_idx := (valid * 4)%nat in
    let* hk := quiet (index (sf_hkroot st) svn_idx) in
    let* hk := quiet (copy_from hk hkroot_idx (hkroot_idx + 1) hkroot_section) in
    let* hks := quiet (set_index (sf_hkroot st) svn_idx hk) in
    let* mk := quiet (index (sf_mack st) svn_idx) in
    let* mk := quiet (copy_from mk mack_idx (mack_idx + 4) mack_section) in
    let* mks := quiet (set_index (sf_mack st) svn_idx mk) in
    let* nvs := quiet (set_index (sf_num_valid st) svn_idx (nv + 1)) in
    let st := mkSub hks mks nvs (sf_wn st) (sf_subframe st) in
    if nv + 1 =? words_per_subframe then
      log LTrace (a <- index (sf_hkroot st) svn_idx ;; b <- index (sf_mack st) svn_idx ;;
                  Ok (LgSubframeCompleted svn g a b)) >>>
      let* g' := quiet (gst_new (sf_wn st) (sf_subframe st * 30)) in
      done (st, Some (hk, mk, g'))
    else done (st, None).

(** *** dsm.rs *)

(** [CollectDsm::store_block], dsm.rs:122-140. *)
Definition store_block_log (st : collect_dsm) (block_id : Z) (block : list Z) : logging collect_dsm :=
  let block_id := Z.to_nat block_id in
  let idx := (block_id * dsm_block_bytes)%nat in
  let* section := quiet (slice (cd_dsm st) idx (idx + dsm_block_bytes)) in
  let* v := quiet (index (cd_block_valid st) block_id) in
  if v then
    if negb (bytes_eqb section block)
    then log LError (Ok (LgBlockDiffers block_id section block)) >>> done st
    else log LTrace (Ok (LgBlockAlreadyStored block_id)) >>> done st
  else
    let* d := quiet (copy_from (cd_dsm st) idx (idx + dsm_block_bytes) block) in
    let* bv := quiet (set_index (cd_block_valid st) block_id true) in
    log LTrace (Ok (LgBlockStored block_id)) >>>
    done (mkCollectDsm d bv (cd_done st) (cd_type st) (cd_id st)).

(** [CollectDsm::number_of_blocks], dsm.rs:165-195. *)
Definition dsm_number_of_blocks_log (t : dsm_type_t) (nb : Z) : logging (option nat) :=
  let a := dsm_number_of_blocks t nb in
  (if is_none a then log LError (Ok (LgReservedNb nb t)) else done tt) >>>
  done a.

(** [CollectDsm::done_and_size], dsm.rs:142-163. *)
Definition done_and_size_log (st : collect_dsm) (t : dsm_type_t) : logging (option nat) :=
  let* v0 := quiet (index (cd_block_valid st) 0) in
  if negb v0 then log LTrace (Ok LgNoFirstBlock) >>> done None
  else
    let* b0 := quiet (index (cd_dsm st) 0) in
    let nb := Z.shiftr b0 4 in
    let* n := dsm_number_of_blocks_log t nb in
    match n with
    | None => done None
    | Some n =>
        let* first := quiet (slice (cd_block_valid st) 0 n) in
        let missing := length (filter negb first) in
        log LTrace (Ok (LgDsmSize n missing)) >>>
        done (if (missing =? 0)%nat then Some (n * dsm_block_bytes)%nat else None)
    end.

(** [CollectDsm::feed], dsm.rs:83-120. *)
Definition dsm_feed_log (st : collect_dsm) (header : Z) (block : list Z)
  : logging (collect_dsm * option dsm) :=
  log LTrace (Ok (LgFeedDsm (dsm_id header) (dsm_block_id header) block)) >>>
  let* st :=
    if negb (dsm_id header =? cd_id st)
       || match cd_type st with None => true | Some _ => false end
    then
      log LInfo (Ok (LgNewDsm (dsm_id header) (cd_id st))) >>>
      done (mkCollectDsm (cd_dsm st) (repeat false max_dsm_blocks) false
                         (Some (dsm_type header)) (dsm_id header))
    else done st in
  let* t := quiet (unwrap (cd_type st)) in
  if cd_done st then log LTrace (Ok LgDsmIsComplete) >>> done (st, None)
  else
    let* st := store_block_log st (dsm_block_id header) block in
    let* size := done_and_size_log st t in
    match size with
    | Some size =>
        log LInfo (Ok (LgDsmCompleted (cd_id st) size)) >>>
        let* data := quiet (slice (cd_dsm st) 0 size) in
        log LTrace (Ok (LgDsmContents data)) >>>
        done (mkCollectDsm (cd_dsm st) (cd_block_valid st) true (cd_type st) (cd_id st),
              Some (mkDsm (cd_id st) t data))
    | None => done (st, None)
    end.

(** *** mack.rs *)

(** [MackStorage::adjust_write_pointer], mack.rs:80-95. *)
Definition mack_adjust_log (st : mack_storage) (g : gst) : logging mack_storage :=
  let* cur := quiet (index (ms_gsts st) (ms_wp st)) in
  let* st :=
    match cur with
    | Some g0 =>
        if negb (gst_eqb g0 g) then
          log LTrace (Ok (LgMackNewGst g g0)) >>>
          let wp := ((ms_wp st + 1) mod mack_depth)%nat in
          let* macks := quiet (copy_from (ms_macks st) (wp * num_sats) ((wp + 1) * num_sats)
                                         (repeat None num_sats)) in
          done (mkMackStorage macks (ms_gsts st) wp)
        else done st
    | None => done st
    end in
  let* gsts := quiet (set_index (ms_gsts st) (ms_wp st) (Some g)) in
  done (mkMackStorage (ms_macks st) gsts (ms_wp st)).

(** [MackStorage::store], mack.rs:60-74. *)
Definition mack_store_log (st : mack_storage) (mack : list Z) (svn : Z) (g : gst)
    (s : nma_status_t) : logging mack_storage :=
  let* st := mack_adjust_log st g in
  let a := (ms_wp st * num_sats)%nat in
  let b := ((ms_wp st + 1) * num_sats)%nat in
  let* row := quiet (slice (ms_macks st) a b) in
  match position is_none row with
  | Some i =>
      log LTrace (Ok (LgMackStored mack svn g)) >>>
      let* row := quiet (set_index row i (Some (mkStored mack svn s))) in
      let* macks := quiet (copy_from (ms_macks st) a b row) in
      done (mkMackStorage macks (ms_gsts st) (ms_wp st))
  | None => log LWarn (Ok (LgNoRoomForMack mack svn g)) >>> done st
  end.

(** *** navmessage.rs *)

(** [log_word] and [log_age], navmessage.rs:717-731.  The text of the first message is
    "storing INAV word type {} for {}"; its arguments are the satellite and the word type, in
    this order. *)
Definition log_word (k : nav_kind) (word_type : Z) (e : entry) : logging unit :=
  log LTrace (s <- unwrap (e_svn e) ;; Ok (LgWord k (ShownSvn s) (ShownNumber word_type))).
Definition log_age (k : nav_kind) (e : entry) : logging unit :=
  log LTrace (s <- unwrap (e_svn e) ;; Ok (LgAge k s (e_age e))).

(** [CedAndStatus::feed], navmessage.rs:774-798. *)
Definition ced_feed_log (word : list Z) (svn : Z) (e : entry) : logging entry :=
  let e := entry_select_svn svn e in
  let w := bits_of_bytes word in
  let word_type := word_type w in
  (if (1 <=? word_type) && (word_type <=? 5) then log_word Ced word_type e else done tt) >>>
  let e :=
    match word_type with
    | 1 => copy_word 0 120 (sub 6 126 w) 0 e
    | 2 => copy_word 120 240 (sub 6 126 w) 1 e
    | 3 => copy_word 240 362 (sub 6 128 w) 2 e
    | 4 => copy_word 362 482 (sub 6 126 w) 3 e
    | 5 => copy_word 482 549 (sub 6 73 w) 4 e
    | _ => e
    end in
  log_age Ced e >>>
  done e.

(** [TimingParameters::feed], navmessage.rs:802-826. *)
Definition timing_feed_log (word : list Z) (svn : Z) (b : band) (e : entry) : logging entry :=
  let e := entry_select_svn svn e in
  let w := bits_of_bytes word in
  let word_type := word_type w in
  let* e :=
    match word_type, b with
    | 6, E1B => log_word Timing word_type e >>> done (copy_word 0 99 (sub 6 105 w) 0 e)
    | 10, E1B => log_word Timing word_type e >>> done (copy_word 99 141 (sub 86 128 w) 1 e)
    | _, _ => done e
    end in
  log_age Timing e >>>
  done e.

Definition entry_feed_log (k : nav_kind) (word : list Z) (svn : Z) (b : band) (e : entry) : logging entry :=
  match k with Ced => ced_feed_log word svn e | Timing => timing_feed_log word svn b e end.

(** The contents of the current row, navmessage.rs:158-169 and 170-181. *)
Definition log_contents (k : nav_kind) (l : list entry) (wp : nat) : logging unit :=
  log LDebug (Ok (LgContents k)) >>>
  let* row := quiet (row_of l wp) in
  fold_logging (fun _ e => log LDebug (Ok (LgEntry (e_svn e) (e_age e) (e_authbits e)))) row tt.

(** [CollectNavMessage::adjust_write_pointer], navmessage.rs:133-185. *)
Definition nav_adjust_log (n : nav) (g : gst) : logging nav :=
  let* cur := quiet (index (nv_gsts n) (nv_wp n)) in
  let* n :=
    match cur with
    | Some g0 =>
        if negb (gst_eqb g0 g) then
          log LTrace (Ok (LgNavNewGst g g0)) >>>
          let new_pointer := ((nv_wp n + 1) mod nav_depth)%nat in
          let* ced := quiet (copy_and_age (nv_ced n) (nv_wp n) new_pointer) in
          let* timing := quiet (copy_and_age (nv_timing n) (nv_wp n) new_pointer) in
          (if enabled mx LDebug then
             log LDebug (Ok (LgAdvanced g)) >>>
             log_contents Ced ced new_pointer >>>
             log_contents Timing timing new_pointer
           else done tt) >>>
          done (mkNav ced timing (nv_gsts n) new_pointer)
        else done n
    | None => done n
    end in
  let* gsts := quiet (set_index (nv_gsts n) (nv_wp n) (Some g)) in
  done (mkNav (nv_ced n) (nv_timing n) gsts (nv_wp n)).

(** One of the two halves of [CollectNavMessage::feed], navmessage.rs:97-111 and 116-130. *)
Definition nav_feed_kind_log (k : nav_kind) (word : list Z) (svn : Z) (b : band) (n : nav)
  : logging nav :=
  let l := nv_arr k n in
  let* row := quiet (row_of l (nv_wp n)) in
  let* i := quiet (unwrap (max_by_key (slot_key svn) row)) in
  let* e := quiet (index row i) in
  log LTrace (Ok (LgSelected k (e_svn e) (max_age e))) >>>
  let* e := entry_feed_log k word svn b e in
  let* row := quiet (set_index row i e) in
  let* l := quiet (copy_from l (nv_wp n * num_sats) ((nv_wp n + 1) * num_sats) row) in
  done (set_nv_arr k l n).

(** [CollectNavMessage::feed], navmessage.rs:89-131. *)
Definition nav_feed_log (n : nav) (word : list Z) (svn : Z) (g : gst) (b : band) : logging nav :=
  log LTrace (Ok (LgFeedInav word svn g)) >>>
  let g := gst_subframe g in
  let* n := nav_adjust_log n g in
  let* n := nav_feed_kind_log Ced word svn b n in
  nav_feed_kind_log Timing word svn b n.

(** [CollectNavMessage::validate_tag], navmessage.rs:538-581. *)
Definition nav_validate_tag_log (key : tkey) (tag : list bool) (adkd : adkd_t) (gst_tag : gst)
    (prnd prna : Z) (tag_idx : nat) (s : nma_status_t) (k : nav_kind) (navdata : entry) (l : list entry)
  : logging (bool * list entry) :=
  let* ctr := quiet (tag_ctr tag_idx) in
  let* ret := quiet (match tag_idx with
                     | O => validate_tag0 key tag gst_tag prna s (message_bits k navdata)
                     | _ => validate_tag key tag gst_tag prnd prna ctr s (message_bits k navdata)
                     end) in
  if ret then
    log LInfo (Ok (LgTagCorrect prnd adkd gst_tag tag_idx prna)) >>>
    done (ret, match s with
               | NmaOperational | NmaTest => add_authbits_all k tag navdata l
               | _ => l
               end)
  else
    log LError (Ok (LgTagWrong prnd adkd gst_tag tag_idx prna)) >>>
    done (ret, l).

(** [CollectNavMessage::validate_dummy_tag], navmessage.rs:584-612. *)
Definition nav_validate_dummy_tag_log (key : tkey) (tag : list bool) (adkd : adkd_t) (gst_tag : gst)
    (prnd prna : Z) (tag_idx : nat) (s : nma_status_t) (navdata_len_bits : nat) : logging bool :=
  let* ctr := quiet (tag_ctr tag_idx) in
  let* ret := quiet (match tag_idx with
                     | O => validate_tag0_dummy key tag gst_tag prna s navdata_len_bits
                     | _ => validate_tag_dummy key tag gst_tag prnd prna ctr s navdata_len_bits
                     end) in
  (if ret then log LInfo (Ok (LgDummyTagCorrect prnd adkd gst_tag tag_idx prna))
   else log LError (Ok (LgDummyTagWrong prnd adkd gst_tag tag_idx prna))) >>>
  done ret.

(** The treatment of one tag, navmessage.rs:329-357, 381-409, 417-445 and 506-533. *)
Definition process_one_tag_log (k : nav_kind) (key : tkey) (tag : list bool) (adkd : adkd_t) (cop : Z)
    (gst_mack gst_navmessage : gst) (prnd prnd_svn prna : Z) (tag_idx : nat) (s : nma_status_t)
    (n : nav) : logging nav :=
  if cop =? 0 then
    nav_validate_dummy_tag_log key tag adkd gst_mack prnd prna tag_idx s (kind_bits k) >>>
    done n
  else
    let* e := quiet (find_entry k n prnd_svn gst_navmessage) in
    match e with
    | Some navdata =>
        if sat_add_u8 (max_age navdata) 1 <=? cop then
          let* '(_, l) := nav_validate_tag_log key tag adkd gst_mack prnd prna tag_idx s k navdata
                                               (nv_arr k n) in
          done (set_nv_arr k l n)
        else done n
    | None => done n
    end.

(** The body of the loop of [process_mack], navmessage.rs:361-458. *)
Definition process_mack_tag_log (m : mack) (key : tkey) (prna : Z) (gst_mack gst_navmessage : gst)
    (s : nma_status_t) (n : nav) (j : nat) : logging nav :=
  let* tag := quiet (mack_tag_and_info m j) in
  log LInfo (Ok (LgTag prna j (tag_adkd tag) gst_mack (tag_cop tag) (tag_prnd tag))) >>>
  match prnd_to_u8 (tag_prnd tag) with
  | None => log LError (Ok (LgNoPrnd (tag_debug tag))) >>> done n
  | Some prnd =>
      match tag_adkd tag with
      | AdkdInavCed =>
          match svn_try_from prnd with
          | Some prnd_svn =>
              process_one_tag_log Ced key (tag_tag tag) (tag_adkd tag) (tag_cop tag) gst_mack
                                  gst_navmessage prnd prnd_svn prna j s n
          | None => log LError (Ok (LgInvalidPrnd (tag_prnd tag) (tag_adkd tag))) >>> done n
          end
      | AdkdInavTiming =>
          match svn_try_from prnd with
          | Some prnd_svn =>
              process_one_tag_log Timing key (tag_tag tag) (tag_adkd tag) (tag_cop tag) gst_mack
                                  gst_navmessage prnd prnd_svn prna j s n
          | None => log LError (Ok (LgInvalidPrnd (tag_prnd tag) (tag_adkd tag))) >>> done n
          end
      | AdkdSlowMac => done n
      | AdkdReserved => log LError (Ok (LgReservedAdkd (tag_debug tag))) >>> done n
      end
  end.

(** [CollectNavMessage::process_mack], navmessage.rs:319-460. *)
Definition process_mack_log (n : nav) (m : mack) (key : tkey) (prna : Z) (gst_mack : gst)
    (s : nma_status_t) : logging nav :=
  log LInfo (cop <- mack_cop m ;; Ok (LgTag0 prna gst_mack cop)) >>>
  let* gst_navmessage := quiet (add_seconds gst_mack (-30)) in
  let* cop := quiet (mack_cop m) in
  let* tag0 := quiet (mack_tag0 m) in
  let* n := process_one_tag_log Ced key tag0 AdkdInavCed cop gst_mack gst_navmessage prna prna prna 0 s n in
  fold_logging (process_mack_tag_log m key prna gst_mack gst_navmessage s)
               (seq 1 (mack_num_tags m - 1)) n.

(** The body of the loop of [process_mack_slowmac], navmessage.rs:488-533. *)
Definition process_slowmac_tag_log (m : mack) (key : tkey) (prna : Z) (gst_mack gst_navmessage : gst)
    (s : nma_status_t) (n : nav) (j : nat) : logging nav :=
  let* tag := quiet (mack_tag_and_info m j) in
  if negb (adkd_eqb (tag_adkd tag) AdkdSlowMac) then done n
  else
    match prnd_to_u8 (tag_prnd tag) with
    | None => log LError (Ok (LgNoPrnd (tag_debug tag))) >>> done n
    | Some prnd =>
        match svn_try_from prnd with
        | Some prnd_svn =>
            process_one_tag_log Ced key (tag_tag tag) (tag_adkd tag) (tag_cop tag) gst_mack
                                gst_navmessage prnd prnd_svn prna j s n
        | None => log LError (Ok (LgInvalidPrndSlowMac (tag_prnd tag) (tag_debug tag))) >>> done n
        end
    end.

(** [CollectNavMessage::process_mack_slowmac], navmessage.rs:478-535. *)
Definition process_mack_slowmac_log (n : nav) (m : mack) (key : tkey) (prna : Z) (gst_mack : gst)
    (s : nma_status_t) : logging nav :=
  let* gst_navmessage := quiet (add_seconds gst_mack (-30)) in
  fold_logging (process_slowmac_tag_log m key prna gst_mack gst_navmessage s)
               (seq 1 (mack_num_tags m - 1)) n.

(** *** osnma.rs *)

(** [KeyStore::store_kroot], osnma.rs:642-681. *)
Definition store_kroot_log (ks : key_store) (key : tkey) (nma_header : Z) (g : gst) : logging key_store :=
  let kid := ch_id (k_chain key) in
  let cid := nma_chain_id nma_header in
  let* '(k0, k1) :=
    if has_chain_id (ks_k0 ks) kid then done (ks_k0 ks, ks_k1 ks)
    else if has_chain_id (ks_k1 ks) kid then done (ks_k0 ks, ks_k1 ks)
    else match ks_k0 ks, ks_k1 ks with
         | None, _ => log LInfo (Ok (LgStoringKroot key 0)) >>> done (Some key, ks_k1 ks)
         | _, None => log LInfo (Ok (LgStoringKroot key 1)) >>> done (ks_k0 ks, Some key)
         | Some k0, Some _ =>
             if ch_id (k_chain k0) =? cid
             then log LInfo (Ok (LgOverwritingKroot key 1)) >>> done (ks_k0 ks, Some key)
             else log LInfo (Ok (LgOverwritingKroot key 0)) >>> done (Some key, ks_k1 ks)
         end in
  let start := match ks_cif ks with
               | Some cif => if negb (cif_cid cif =? cid) then Some g else None
               | None => None
               end in
  done (mkKeys k0 k1 (Some (mkCif cid start))).

(** [KeyStore::revoke], osnma.rs:725-734. *)
Definition keys_revoke_log (ks : key_store) (cid : Z) : logging key_store :=
  let r k := match k with
             | Some key => if ch_id (k_chain key) =? cid
                           then log LWarn (Ok (LgRevokingKey key)) >>> done None
                           else done k
             | None => done None
             end in
  let* k0 := r (ks_k0 ks) in
  let* k1 := r (ks_k1 ks) in
  done (mkKeys k0 k1 (ks_cif ks)).

(** [PubkeyStore::applicable_pubkey], osnma.rs:532-551. *)
Definition applicable_pubkey_log (ps : pubkey_store) (pkid : Z) : logging (option public_key) :=
  quiet (check_consistency ps) >>>
  if has_pkid (ps_current ps) pkid then done (ps_current ps)
  else if has_pkid (ps_next ps) pkid
  then log LInfo (Ok LgNextPubkeySelected) >>> done (ps_next ps)
  else match ps_current ps with
       | Some _ => log LError (Ok (LgNoPubkeyWithId pkid)) >>> done None
       | None => log LError (Ok LgNoPubkey) >>> done None
       end.

(** [PubkeyStore::store_new_pubkey], osnma.rs:571-611. *)
Definition store_new_pubkey_log (ps : pubkey_store) (pubkey : public_key) : logging pubkey_store :=
  quiet (check_consistency ps) >>>
  let new_pkid := pk_id pubkey in
  match ps_current ps with
  | Some current =>
      if new_pkid <? pk_id current
      then log LError (Ok (LgPubkeyOlder new_pkid (pk_id current))) >>> done ps
      else if new_pkid =? pk_id current then done ps
      else match ps_next ps with
           | Some next =>
               match new_pkid ?= pk_id next with
               | Lt => log LError (Ok (LgPubkeyOlderThanNext new_pkid (pk_id next))) >>> done ps
               | Gt => log LWarn (Ok (LgPubkeyOverwrites new_pkid (pk_id next))) >>>
                       done (mkPubs (ps_current ps) (Some pubkey))
               | Eq => done ps
               end
           | None => done (mkPubs (ps_current ps) (Some pubkey))
           end
  | None => done (mkPubs (Some pubkey) (ps_next ps))
  end.

(** [PubkeyStore::revoke], osnma.rs:613-631. *)
Definition pubs_revoke_log (ps : pubkey_store) (new_pkid : Z) : logging pubkey_store :=
  let matches k := match k with Some k => pk_id k <? new_pkid | None => false end in
  let* ps :=
    if matches (ps_current ps)
    then log LWarn (Ok (LgRevokingCurrent new_pkid (ps_current ps))) >>> done (mkPubs None (ps_next ps))
    else done ps in
  if matches (ps_next ps)
  then log LWarn (Ok (LgRevokingNext new_pkid (ps_next ps))) >>> done (mkPubs None (ps_next ps))
  else done ps.

(** [Osnma::feed_inav], osnma.rs:192-194. *)
Definition feed_inav_log (o : osnma) (word : list Z) (svn : Z) (g : gst) (b : band) : logging osnma :=
  let* n := nav_feed_log (o_nav o) word svn g b in done (set_nav n o).

(** [OsnmaData::alert_message_received], osnma.rs:356-361. *)
Definition alert_message_received_log (o : osnma) : logging osnma :=
  log LWarn (Ok LgAlert) >>>
  done (set_keys keys_empty (set_pub pubs_empty (set_merkle None o))).

(** [OsnmaData::process_nma_header], osnma.rs:288-354. *)
Definition process_nma_header_log (o : osnma) (nma_header pkid : Z) : logging osnma :=
  let* o :=
    match nma_status nma_header with
    | NmaOperational => done o
    | NmaTest => log LInfo (Ok (LgNmaStatus NmaTest)) >>> done o
    | NmaReserved => log LError (Ok (LgNmaStatus NmaReserved)) >>> done o
    | NmaDontUse =>
        log LWarn (Ok (LgNmaStatus NmaDontUse)) >>>
        match nma_cpks nma_header with
        | CpksChainRevoked =>
            let* ks := keys_revoke_log (o_keys o) (nma_chain_id nma_header) in
            done (set_keys ks o)
        | CpksPublicKeyRevoked =>
            let* ps := pubs_revoke_log (o_pub o) pkid in
            let o := set_pub ps o in
            let* ks := keys_revoke_log (o_keys o) (nma_chain_id nma_header) in
            done (set_keys ks o)
        | _ => done o
        end
    end in
  let this_one := match nma_status nma_header with
                  | NmaOperational | NmaTest => false
                  | _ => true
                  end in
  match nma_cpks nma_header with
  | CpksReserved => log LError (Ok (LgCpks CpksReserved)) >>> done o
  | CpksNominal => done o
  | CpksEndOfChain => log LInfo (Ok (LgCpks CpksEndOfChain)) >>> done o
  | CpksChainRevoked => log LWarn (Ok (LgRevoked CpksChainRevoked this_one)) >>> done o
  | CpksNewPublicKey => log LInfo (Ok (LgCpks CpksNewPublicKey)) >>> done o
  | CpksPublicKeyRevoked => log LWarn (Ok (LgRevoked CpksPublicKeyRevoked this_one)) >>> done o
  | CpksNewMerkleTree => log LWarn (Ok (LgCpks CpksNewMerkleTree)) >>> done o
  | CpksAlertMessage => log LWarn (Ok (LgCpks CpksAlertMessage)) >>> alert_message_received_log o
  end.

(** [OsnmaData::process_dsm_kroot], osnma.rs:266-286; [impl Debug for NmaHeader],
    tesla.rs:428-436. *)
Definition process_dsm_kroot_log (o : osnma) (d : list Z) (nma_header : Z) (g : gst) : logging osnma :=
  let* pkid := quiet (kroot_public_key_id d) in
  let* pk := applicable_pubkey_log (o_pub o) pkid in
  match pk with
  | None => done o
  | Some pubkey =>
      let* r := quiet (key_from_dsm_kroot nma_header d (pk_key pubkey)) in
      match r with
      | ROk key =>
          log LInfo (Ok (LgKrootVerified pkid)) >>>
          log LInfo (Ok (LgNmaHeader (nma_status nma_header) (nma_chain_id nma_header)
                                     (nma_cpks nma_header))) >>>
          let* ps := quiet (make_pkid_current (o_pub o) pkid) in
          let o := set_pub ps o in
          let* ks := store_kroot_log (o_keys o) key nma_header g in
          let o := set_keys ks o in
          process_nma_header_log o nma_header pkid
      | RErr e => log LError (Ok (LgKrootError e)) >>> done o
      end
  end.

(** [OsnmaData::process_dsm_pkr_npk], osnma.rs:373-385. *)
Definition process_dsm_pkr_npk_log (o : osnma) (d : list Z) : logging osnma :=
  match o_merkle o with
  | None => log LError (Ok LgNoTreeForKey) >>> done o
  | Some root =>
      let* r := quiet (validate_pkr root d) in
      match r with
      | ROk pubkey =>
          log LInfo (p <- pkr_debug d ;; Ok (LgPubkeyVerified p)) >>>
          let* ps := store_new_pubkey_log (o_pub o) pubkey in
          done (set_pub ps o)
      | RErr e => log LError (Ok (LgPubkeyError e)) >>> done o
      end
  end.

(** [OsnmaData::process_dsm_pkr_alert_message], osnma.rs:387-399. *)
Definition process_dsm_pkr_alert_message_log (o : osnma) (d : list Z) : logging osnma :=
  match o_merkle o with
  | None => log LError (Ok LgNoTreeForAlert) >>> done o
  | Some root =>
      let* r := quiet (validate_alert_message root d) in
      match r with
      | ROk _ =>
          log LWarn (p <- pkr_debug d ;; Ok (LgAlertVerified p)) >>>
          alert_message_received_log o
      | RErr e => log LError (Ok (LgAlertError e)) >>> done o
      end
  end.

(** [OsnmaData::process_dsm_pkr], osnma.rs:363-371. *)
Definition process_dsm_pkr_log (o : osnma) (d : list Z) : logging osnma :=
  let* t := quiet (pkr_new_public_key_type d) in
  match t with
  | NpktEcdsaKey _ => process_dsm_pkr_npk_log o d
  | NpktAlert => process_dsm_pkr_alert_message_log o d
  | NpktReserved => log LError (p <- pkr_debug d ;; Ok (LgReservedNpkt p)) >>> done o
  end.

(** [OsnmaData::process_dsm], osnma.rs:259-264. *)
Definition process_dsm_log (o : osnma) (d : dsm) (nma_header : Z) (g : gst) : logging osnma :=
  match dm_type d with
  | DsmKroot => process_dsm_kroot_log o (dm_data d) nma_header g
  | DsmPkr => process_dsm_pkr_log o (dm_data d)
  end.

(** [OsnmaData::validate_mack], osnma.rs:496-509. *)
Definition validate_mack_log (m : mack) (key : tkey) (prna : Z) (gst_mack : gst) : logging (option mack) :=
  let* r := quiet (mack_validate m key prna gst_mack) in
  match r with
  | RErr e => log LError (s <- mack_debug m ;; Ok (LgMackError prna gst_mack s e)) >>> done None
  | ROk m => done (Some m)
  end.

(** The first half of the loop of [process_tags], osnma.rs:456-468. *)
Definition process_tags_fast_log (st : mack_storage) (only_slowmac : bool) (current_key : tkey)
    (gst_mack : gst) (svn : Z) (n : nav) : logging nav :=
  if only_slowmac then done n
  else
    let* sm := quiet (mack_get st svn gst_mack) in
    match sm with
    | None => done n
    | Some (message, s) =>
        let* vm := validate_mack_log (mack_of_chain message current_key) current_key svn gst_mack in
        match vm with
        | Some m => process_mack_log n m current_key svn gst_mack s
        | None => done n
        end
    end.

(** The second half of the loop of [process_tags], osnma.rs:470-492. *)
Definition process_tags_slow_log (st : mack_storage) (slowmac_key : option tkey) (current_key : tkey)
    (gst_slowmac : gst) (svn : Z) (n : nav) : logging nav :=
  match slowmac_key with
  | None => done n
  | Some slowmac_key =>
      let* sm := quiet (mack_get st svn gst_slowmac) in
      match sm with
      | None => done n
      | Some (message, s) =>
          let* vm := validate_mack_log (mack_of_chain message current_key) slowmac_key svn gst_slowmac in
          match vm with
          | Some m => process_mack_slowmac_log n m current_key svn gst_slowmac s
          | None => done n
          end
      end
  end.

(** [OsnmaData::process_tags], osnma.rs:440-494. *)
Definition process_tags_log (o : osnma) (current_key : tkey) : logging osnma :=
  let* gst_mack := quiet (add_seconds (k_gst current_key) (-30)) in
  let* gst_slowmac := quiet (add_seconds gst_mack (-300)) in
  let* gst_k_slowmac := quiet (add_seconds (k_gst current_key) (-300)) in
  let* slowmac_key := quiet (slowmac_key_of (o_keys o) gst_k_slowmac) in
  let* n := fold_logging
              (fun n svn =>
                 let* n := process_tags_fast_log (o_mack o) (o_slow o) current_key gst_mack svn n in
                 process_tags_slow_log (o_mack o) slowmac_key current_key gst_slowmac svn n)
              svn_iter (o_nav o) in
  done (set_nav n o).

(** [OsnmaData::validate_key], osnma.rs:401-438. *)
Definition osnma_validate_key_log (o : osnma) (mack : list Z) (g : gst) : logging osnma :=
  match current_key (o_keys o) with
  | None => log LInfo (Ok LgNoKey) >>> done o
  | Some current =>
      let* kb := quiet (mack_key (mack_of_chain mack current)) in
      let* new_key := quiet (key_from_bitslice kb g (k_chain current)) in
      match gst_cmp (k_gst current) (k_gst new_key) with
      | Eq => done o
      | Gt => log LWarn (Ok (LgOldKey new_key current)) >>> done o
      | Lt =>
          let* r := quiet (validate_key current new_key) in
          match r with
          | ROk new_valid_key =>
              log LInfo (Ok (LgKeyValidated new_valid_key current)) >>>
              let* ks := quiet (store_key (o_keys o) new_valid_key) in
              process_tags_log (set_keys ks o) new_valid_key
          | RErr e => log LError (Ok (LgKeyError new_key current e)) >>> done o
          end
      end
  end.

(** [OsnmaDsm::process_subframe], osnma.rs:238-255. *)
Definition process_subframe_log (o : osnma) (hkroot mack : list Z) (svn : Z) (g : gst)
  : logging osnma :=
  let* nma_header := quiet (index hkroot 0) in
  let* ms := mack_store_log (o_mack o) mack svn g (nma_status nma_header) in
  let o := set_mack ms o in
  let* dsm_header := quiet (index hkroot 1) in
  let* '(cd, d) := dsm_feed_log (o_dsm o) dsm_header (skipn 2 hkroot) in
  let o := set_dsm cd o in
  let* o := match d with
            | Some d => process_dsm_log o d nma_header g
            | None => done o
            end in
  osnma_validate_key_log o mack g.

(** [Osnma::feed_osnma], osnma.rs:205-213. *)
Definition feed_osnma_log (o : osnma) (data : list Z) (svn : Z) (g : gst) : logging osnma :=
  if forallb (fun x => x =? 0) data then done o
  else
    let* '(sf, r) := subframe_feed_log (o_sub o) data svn g in
    let o := set_sub sf o in
    match r with
    | Some (hkroot, mack, subframe_gst) => process_subframe_log o hkroot mack svn subframe_gst
    | None => done o
    end.

Definition step_log (o : osnma) (x : op) : logging osnma :=
  match x with
  | FeedInav word svn g b => feed_inav_log o word svn g b
  | FeedOsnma data svn g => feed_osnma_log o data svn g
  end.

(** The messages of a sequence of calls, and the state after it. *)
Definition run_log (o : osnma) (l : list op) : logging osnma := fold_logging step_log l o.

End Functions.

(** What the lines of the log claim, in terms of everything that was fed to the receiver. *)
From Coq Require Import ZArith List Bool.
From Verif Require Import Model.Prelude Model.Params Model.Gst Model.Bitfields Model.Tesla Model.Merkle
  Model.Dsm Model.Nav Model.Osnma Model.Logging
  Spec.TimeSpec Spec.CollectSpec Spec.NavSpec Spec.TeslaSpec Spec.KrootSpec Spec.MerkleSpec
  Spec.MacltSpec Spec.KeySpec Spec.SystemSpec Spec.FieldSpec Spec.ErrorSpec.
Import ListNotations.
Open Scope Z_scope.

(** The number of each ADKD. *)
Definition adkd_number (a : adkd_t) : option Z :=
  match a with
  | AdkdInavCed => Some 0
  | AdkdInavTiming => Some 4
  | AdkdSlowMac => Some 12
  | AdkdReserved => None
  end.

Section Crypto.
Context {C : crypto} {B : build}.

(** ** Messages with keys *)

(** A DSM-KROOT with the fields [f], whose root key is [kr], was received together with the NMA
    header [hd] and verified with a trusted public key that has the id given in it. *)
Definition kroot_was_verified (root : option (list Z)) (user : option public_key) (h : list op)
    (hd : Z) (f : kroot_fields) (kr : tkey) : Prop :=
  exists id d pk svn g hkroot mack,
    id < 12 /\ dsm_received h id d /\ kroot_layout d f /\
    subframe_received h svn g hkroot mack /\ hd = nth 0 hkroot 0 /\
    trusted_pubkey root user h pk /\ pk_id pk = kf_pkid f /\
    kroot_verified hd f (pk_key pk) /\ kroot_key f kr.

(** A DSM-PKR with the fields [f], which leads to the Merkle tree root, was received. *)
Definition pkr_was_verified (root : option (list Z)) (h : list op) (f : pkr_fields) : Prop :=
  exists r id d, root = Some r /\ 12 <= id /\ dsm_received h id d /\
    pkr_layout d f /\ sha256 (path_input f 4) = r.

(** An alert was received and verified: in a DSM-PKR, or in the NMA header that comes with a
    DSM-KROOT. *)
Definition alerted (root : option (list Z)) (user : option public_key) (h : list op) : Prop :=
  (exists f, pkr_was_verified root h f /\ pf_npkt f = 4) \/
  (exists hd f kr, kroot_was_verified root user h hd f kr /\ header_cpks hd = cpks_alert).

(** What is printed of a DSM-PKR is what it contains. *)
Definition pkr_is_shown (p : pkr_shown) (f : pkr_fields) : Prop :=
  sh_number_of_blocks p = Some (Z.to_nat (pf_nb f) + 6)%nat /\
  sh_message_id p = pf_mid f /\ sh_nodes p = pf_nodes f /\
  sh_id p = pf_npkid f /\ sh_key p = Some (pf_key f) /\ sh_padding p = Some (pf_pad f).

(** The key is in the MACK message of the subframe that it is said to be of. *)
Definition key_disclosed (h : list op) (key : tkey) : Prop :=
  exists svn hkroot mack, subframe_received h svn (k_gst key) hkroot mack /\ key_in_mack mack key.

(** ** Tags *)

(** Tag number [j] of a MACK message sent by [prna] says that it is about the data of [svn] with
    this ADKD and COP. *)
Definition tag_placed (c : chain) (prna : Z) (mack : list Z) (svn adkd cop : Z) (tag : list bool) (j : nat)
  : Prop :=
  let ts := ch_tag_bits c in
  let m := bits_of_bytes mack in
  ((ts + 16) * (j + 1) + 8 * ch_key_bytes c <= 480)%nat /\
  tag = sub ((ts + 16) * j) ((ts + 16) * j + ts) m /\
  match j with
  | O => svn = prna /\ adkd = 0 /\ exists macseq, info_at m ts 0 = be 12 macseq ++ be 4 cop
  | _ => info_at m ts j = be 8 svn ++ be 4 adkd ++ be 4 cop
  end.

(** The tag is the one of the data [bits]. *)
Definition tag_matches (c : chain) (key : list Z) (prna t : Z) (s : nma_status_t) (svn : Z)
    (bits tag : list bool) (j : nat) : Prop :=
  match j with
  | O => tag_of (ch_mac c) key (tag_bits None prna t 1 s bits) tag
  | _ => tag_of (ch_mac c) key (tag_bits (Some svn) prna t (Z.of_nat j + 1) s bits) tag
  end.

(** Tag number [j] of the MACK message received from [prna] in the subframe [g], about the data
    of [prnd]; and the trusted key disclosed for it. *)
Definition tag_received (root : option (list Z)) (user : option public_key) (h : list op)
    (prnd : Z) (adkd : adkd_t) (g : gst) (j : nat) (prna : Z)
    (key : tkey) (k : nav_kind) (s : nma_status_t) (cop : Z) (tag : list bool) : Prop :=
  exists hkroot mack v delay,
    subframe_received h prna g hkroot mack /\ s = status_of hkroot /\
    adkd_number adkd = Some v /\ adkd_means v k delay /\
    tag_placed (k_chain key) prna mack prnd v cop tag j /\
    mack_checked root user h key prna g mack /\
    trusted_key root user h key /\ key_disclosed h key /\ seconds_after g (k_gst key) delay.

(** Meaning of the fields PRND and ADKD of a tag. *)
Definition prnd_means (v : Z) (p : prnd_t) : Prop :=
  match p with
  | PrndSvid n => v = n /\ 1 <= n <= 36
  | PrndConstellation => v = 255
  | PrndReserved => v = 0 \/ 36 < v < 255
  end.
Definition adkd_read (v : Z) (a : adkd_t) : Prop :=
  match adkd_number a with
  | Some x => v = x
  | None => v <> 0 /\ v <> 4 /\ v <> 12
  end.

(** Tag number [j] of the MACK message received from [prna] in the subframe [g], which was checked,
    has these fields PRND, ADKD and COP.  A trusted key disclosed [delay] seconds later gives
    the place of the tag. *)
Definition tag_seen (root : option (list Z)) (user : option public_key) (h : list op)
    (prna : Z) (g : gst) (j : nat) (delay v a cop : Z) (tag : list bool) : Prop :=
  0 <= v < 256 /\ 0 <= a < 16 /\ 0 <= cop < 16 /\
  exists hkroot mack key,
    subframe_received h prna g hkroot mack /\
    tag_placed (k_chain key) prna mack v a cop tag j /\
    mack_checked root user h key prna g mack /\
    trusted_key root user h key /\ key_disclosed h key /\ seconds_after g (k_gst key) delay.

(** The data of the subframe before [g], from words not older than the COP allows. *)
Definition data_received (h : list op) (k : nav_kind) (svn cop : Z) (g : gst) (bits : list bool) : Prop :=
  0 < cop < 16 /\ exists gn, seconds_after gn g 30 /\ nav_seen (inav_words h) k svn bits gn cop.

(** Length of the data. *)
Definition data_length (k : nav_kind) : nat := match k with Ced => 549 | Timing => 141 end.

(** ** The claims *)

(** [h] are the calls up to the one that writes the line.  Lines that are not listed only show parts
    of the state of the receiver; the one about words is in C65. *)
Definition claim (root : option (list Z)) (user : option public_key) (h : list op) (m : message) : Prop :=
  match m with
  (* the lines about the call: its arguments, and the number of the word in the subframe *)
  | LgFeedOsnma hkroot mack svn g n =>
      exists h0 data, h = h0 ++ [FeedOsnma data svn g] /\
        hkroot = firstn 1 data /\ mack = skipn 1 data /\ n = w_index (mkWord data svn g)
  | LgFeedInav word svn g => exists h0 b, h = h0 ++ [FeedInav word svn g b]
  (* "number of valid sections per satellite": how many words of the subframe before were collected
     from each satellite *)
  | LgValidSections valid =>
      exists h0 data svn g, h = h0 ++ [FeedOsnma data svn g] /\
        valid = map (fun s => Z.of_nat (length (collected (Z.of_nat s) (current_run (osnma_words h0))))) (seq 1 36)
  (* "starting collection of new subframe": the OSNMA word before is not of the same one *)
  | LgNewSubframe g =>
      exists h0 data svn, h = h0 ++ [FeedOsnma data svn g] /\
        forall ws w, osnma_words h0 = ws ++ [w] -> same_subframe (w_gst w) g = false
  (* "missing words": the words of the subframe collected from this satellite so far are not as
     many as the number of the word *)
  | LgMissingWords svn g n have =>
      exists h0 data, let w := mkWord data svn g in
        h = h0 ++ [FeedOsnma data svn g] /\ n = w_index w /\
        have = Z.of_nat (length (collected svn (run_for (current_run (osnma_words h0)) w))) /\ n <> have
  (* "completed collection for" *)
  | LgSubframeCompleted svn g hkroot mack => subframe_received h svn (subframe_of g) hkroot mack
  (* "completed DSM with id and size" *)
  | LgDsmCompleted id size => exists d, dsm_received h id d /\ length d = size
  (* "received block with different contents": another one with the same DSM id and number *)
  | LgBlockDiffers i stored received =>
      exists svn g hkroot mack svn' g' hkroot' mack',
        subframe_received h svn g hkroot mack /\ subframe_received h svn' g' hkroot' mack' /\
        nth 1 hkroot 0 = nth 1 hkroot' 0 /\ nth 1 hkroot 0 mod 16 = Z.of_nat i /\
        stored = skipn 2 hkroot /\ received = skipn 2 hkroot' /\ stored <> received
  (* "feed with id, block id and block", "new DSM id" and "block is already stored, not storing",
     "storing block": from a subframe that was received *)
  | LgFeedDsm id i block =>
      exists svn g hkroot mack, subframe_received h svn g hkroot mack /\
        id = nth 1 hkroot 0 / 16 /\ i = nth 1 hkroot 0 mod 16 /\ block = skipn 2 hkroot
  | LgNewDsm id _ =>
      exists svn g hkroot mack, subframe_received h svn g hkroot mack /\ id = nth 1 hkroot 0 / 16
  | LgBlockAlreadyStored i | LgBlockStored i =>
      exists svn g hkroot mack, subframe_received h svn g hkroot mack /\ Z.of_nat i = nth 1 hkroot 0 mod 16
  (* "storing MACK", "no room for MACK": it was received in the subframe given *)
  | LgMackStored mack svn g | LgNoRoomForMack mack svn g =>
      exists hkroot, subframe_received h svn g hkroot mack
  (* "reserved NB value in DSM": of the first block *)
  | LgReservedNb nb t =>
      exists svn g hkroot mack, subframe_received h svn g hkroot mack /\
        nth 1 hkroot 0 mod 16 = 0 /\ nb = nth 2 hkroot 0 / 16 /\
        match t with
        | DsmKroot => nth 1 hkroot 0 / 16 < 12 /\ reserved nb_dk_table nb
        | DsmPkr => 12 <= nth 1 hkroot 0 / 16 /\ reserved nb_dp_table nb
        end
  (* "verified KROOT with public key id" *)
  | LgKrootVerified pkid => exists hd f kr, kroot_was_verified root user h hd f kr /\ kf_pkid f = pkid
  (* "could not verify KROOT": with the trusted public key that the DSM-KROOT names, for the
     reason given *)
  | LgKrootError e =>
      exists id d pk svn g hkroot mack, id < 12 /\ dsm_received h id d /\
        subframe_received h svn g hkroot mack /\
        trusted_pubkey root user h pk /\ pk_id pk = nth 0 d 0 mod 16 /\
        ((forall k, pk_key pk = VkP521 k -> feature_p521 = true) ->
         kroot_error_documented (nth 0 hkroot 0) d (pk_key pk) e)
  (* "selecting next public key to authenticate KROOT" *)
  | LgNextPubkeySelected =>
      exists id d pk, id < 12 /\ dsm_received h id d /\ trusted_pubkey root user h pk /\ pk_id pk = nth 0 d 0 mod 16
  (* "could not verify KROOT because public key with id is not available": it is not the one given
     by the user, or that one has been replaced by one with a higher id *)
  | LgNoPubkeyWithId pkid =>
      (exists id d, id < 12 /\ dsm_received h id d /\ pkid = nth 0 d 0 mod 16) /\
      (alerted root user h \/
       forall pk, user = Some pk -> pk_id pk = pkid -> exists c, trusted_pubkey root user h c /\ pkid < pk_id c)
  (* "could not verify KROOT because no public key is available" *)
  | LgNoPubkey =>
      (exists id d, id < 12 /\ dsm_received h id d) /\ (user = None \/ alerted root user h)
  (* "storing KROOT", "overwriting slot with KROOT" *)
  | LgStoringKroot key _ | LgOverwritingKroot key _ =>
      exists hd f, kroot_was_verified root user h hd f key
  (* "revoking TESLA key" *)
  | LgRevokingKey key =>
      trusted_key root user h key /\
      exists hd f kr, kroot_was_verified root user h hd f kr /\ header_chain hd = chain_of key /\
        header_status hd = status_dont_use /\
        (header_cpks hd = cpks_chain_revoked \/ header_cpks hd = cpks_public_key_revoked)
  (* "received OSNMA Alert Message; deleting all cryptographic material" *)
  | LgAlert => alerted root user h
  (* "verified public key in DSM-PKR" *)
  | LgPubkeyVerified p =>
      exists f, pkr_was_verified root h f /\ (pf_npkt f = 1 \/ pf_npkt f = 3) /\ pkr_is_shown p f
  (* "received valid OSNMA Alert Message in DSM-PKR" *)
  | LgAlertVerified p => exists f, pkr_was_verified root h f /\ pf_npkt f = 4 /\ pkr_is_shown p f
  (* "reserved NPKT in DSM-PKR" *)
  | LgReservedNpkt _ =>
      exists id d, 12 <= id /\ dsm_received h id d /\ reserved npkt_table (nth 129 d 0 / 16)
  (* "could not verify public key", "could not verify OSNMA Alert Message": for the reason given *)
  | LgPubkeyError e =>
      exists r id d, root = Some r /\ 12 <= id /\ dsm_received h id d /\
        (nth 129 d 0 / 16 = 1 \/ nth 129 d 0 / 16 = 3) /\ pkr_error_documented r d e
  | LgAlertError e =>
      exists r id d, root = Some r /\ 12 <= id /\ dsm_received h id d /\
        nth 129 d 0 / 16 = 4 /\ pkr_error_documented r d e
  (* "could not verify public key (OSNMA Alert Message) because Merkle tree is not loaded" *)
  | LgNoTreeForKey =>
      (exists id d, 12 <= id /\ dsm_received h id d /\ (nth 129 d 0 / 16 = 1 \/ nth 129 d 0 / 16 = 3)) /\
      (root = None \/ alerted root user h)
  | LgNoTreeForAlert =>
      (exists id d, 12 <= id /\ dsm_received h id d /\ nth 129 d 0 / 16 = 4) /\
      (root = None \/ alerted root user h)
  (* "new TESLA key successfully validated by" *)
  | LgKeyValidated key current =>
      key_disclosed h key /\ trusted_key root user h current /\ trusted_key root user h key /\
      exists n, (0 < n)%nat /\ key_after current key n
  (* "could not validate TESLA key using" *)
  | LgKeyError key current e =>
      key_disclosed h key /\ trusted_key root user h current /\
      time_of (k_gst current) < time_of (k_gst key) /\
      (forall n, (n <= 3000)%nat -> ~ key_after current key n) /\ key_error_documented current key e
  (* "got a key in MACK which is older than our current valid key" *)
  | LgOldKey key current =>
      key_disclosed h key /\ trusted_key root user h current /\
      time_of (k_gst key) < time_of (k_gst current)
  (* "error validating MACK" *)
  | LgMackError prna g _ e =>
      exists hkroot mack key mkey held n, subframe_received h prna g hkroot mack /\
        trusted_key root user h key /\ key_disclosed h key /\
        trusted_key root user h held /\ k_chain mkey = k_chain held /\
        time_of (k_gst held) = time_of (k_gst mkey) + 30 * Z.of_nat n /\
        key_before (k_chain held) n (key_bytes held) (time_of (k_gst held)) (key_bytes mkey) /\
        seconds_after g (k_gst mkey) 30 /\
        ~ mack_valid (k_chain mkey) (key_bytes mkey) prna (time_of g) mack
                     (8 * ch_key_bytes (k_chain key)) (ch_tag_bits (k_chain key)) /\
        mack_error_documented (k_chain mkey) (key_bytes mkey) prna (time_of g) mack
                     (8 * ch_key_bytes (k_chain key)) (ch_tag_bits (k_chain key)) e
  (* "tag0 at", "tag at": the ADKD, COP and PRND of the tag *)
  | LgTag0 prna g cop => exists tag, tag_seen root user h prna g 0 30 prna 0 cop tag
  | LgTag prna j adkd g cop prnd =>
      exists v a tag, tag_seen root user h prna g j 30 v a cop tag /\ prnd_means v prnd /\ adkd_read a adkd
  (* "could not obtain PRND from tag": the PRND is reserved *)
  | LgNoPrnd t =>
      exists prna g j delay v a cop, tag_seen root user h prna g j delay v a cop (sh_tag t) /\
        (delay = 30 \/ delay = 330 /\ a = 12) /\
        prnd_means v PrndReserved /\ sh_prnd t = PrndReserved /\ adkd_read a (sh_adkd t)
  (* "invalid PRND for ADKD", "invalid PRND for Slow MAC tag": the one of the whole constellation *)
  | LgInvalidPrnd prnd adkd =>
      exists prna g j a cop tag, tag_seen root user h prna g j 30 255 a cop tag /\
        prnd = PrndConstellation /\ adkd_read a adkd /\ (a = 0 \/ a = 4)
  | LgInvalidPrndSlowMac prnd t =>
      exists prna g j cop, tag_seen root user h prna g j 330 255 12 cop (sh_tag t) /\
        prnd = PrndConstellation /\ sh_prnd t = PrndConstellation /\ sh_adkd t = AdkdSlowMac
  (* "reserved ADKD in tag" *)
  | LgReservedAdkd t =>
      exists prna g j v a cop, tag_seen root user h prna g j 30 v a cop (sh_tag t) /\
        prnd_means v (sh_prnd t) /\ adkd_read a AdkdReserved /\ sh_adkd t = AdkdReserved
  (* "correct (auth by)" *)
  | LgTagCorrect prnd adkd g j prna =>
      exists key k s cop tag bits, tag_received root user h prnd adkd g j prna key k s cop tag /\
        data_received h k prnd cop g bits /\
        tag_matches (k_chain key) (key_bytes key) prna (time_of g) s prnd bits tag j
  (* "wrong (auth by)" *)
  | LgTagWrong prnd adkd g j prna =>
      exists key k s cop tag bits, tag_received root user h prnd adkd g j prna key k s cop tag /\
        data_received h k prnd cop g bits /\
        ~ tag_matches (k_chain key) (key_bytes key) prna (time_of g) s prnd bits tag j
  (* "dummy tag correct", "dummy tag wrong": COP 0, data zero *)
  | LgDummyTagCorrect prnd adkd g j prna =>
      exists key k s tag, tag_received root user h prnd adkd g j prna key k s 0 tag /\
        tag_matches (k_chain key) (key_bytes key) prna (time_of g) s prnd (repeat false (data_length k)) tag j
  | LgDummyTagWrong prnd adkd g j prna =>
      exists key k s tag, tag_received root user h prnd adkd g j prna key k s 0 tag /\
        ~ tag_matches (k_chain key) (key_bytes key) prna (time_of g) s prnd (repeat false (data_length k)) tag j
  (* the NMA header of a verified KROOT: NMA status, chain id, chain and public key status *)
  | LgNmaHeader s c p =>
      exists hd f kr, kroot_was_verified root user h hd f kr /\
        In (hd / 64, s) nmas_table /\ c = hd / 16 mod 4 /\ In (hd / 2 mod 8, p) cpks_table
  (* "NMA Test Mode", "NMA status Don't Use" etc. *)
  | LgNmaStatus s =>
      exists hd f kr, kroot_was_verified root user h hd f kr /\ In (hd / 64, s) nmas_table
  (* "end of chain", "new public key" etc. *)
  | LgCpks p =>
      exists hd f kr, kroot_was_verified root user h hd f kr /\ In (hd / 2 mod 8, p) cpks_table
  (* "this chain is revoked", "a previous chain has been revoked"; the same for public keys.  It
     is this one unless the status is Test or Operational. *)
  | LgRevoked p this_one =>
      exists hd f kr, kroot_was_verified root user h hd f kr /\ In (hd / 2 mod 8, p) cpks_table /\
        (this_one = true <-> ~ (hd / 64 = 1 \/ hd / 64 = 2))
  (* "received public key has id, but our current public key has id" *)
  | LgPubkeyOlder new cur | LgPubkeyOlderThanNext new cur =>
      (exists f, pkr_was_verified root h f /\ pf_npkid f = new) /\
      (exists pk, trusted_pubkey root user h pk /\ pk_id pk = cur) /\ new < cur
  (* "overwriting next public key" *)
  | LgPubkeyOverwrites new next =>
      (exists f, pkr_was_verified root h f /\ pf_npkid f = new) /\
      (exists pk, trusted_pubkey root user h pk /\ pk_id pk = next) /\ next < new
  (* "revoking current public key", "revoking next public key": not written *)
  | LgRevokingCurrent _ _ | LgRevokingNext _ _ => False
  | _ => True
  end.

(** ** Counting *)

(** The line says that a tag for data of this kind of this satellite is correct. *)
Definition says_correct (k : nav_kind) (svn : Z) (m : message) : bool :=
  match m with
  | LgTagCorrect prnd adkd _ _ _ =>
      (prnd =? svn) &&
      match k, adkd with
      | Ced, AdkdInavCed | Ced, AdkdSlowMac | Timing, AdkdInavTiming => true
      | _, _ => false
      end
  | _ => false
  end.
Definition correct_lines (k : nav_kind) (svn : Z) (ls : lines) : Z :=
  Z.of_nat (length (filter (fun x => says_correct k svn (snd x)) ls)).

(** The level is Info or more. *)
Definition info_enabled (mx : option level) : Prop := mx = Some LInfo \/ mx = Some LDebug \/ mx = Some LTrace.

(** ** The line about a word *)

(** The line "storing INAV word type x for y" about this word received from this satellite is
    right: x is the word type, which is in the first six bits of the word, and y is the
    satellite. *)
Definition word_line_right (word : list Z) (svn : Z) (m : message) : Prop :=
  forall k x y, m = LgWord k x y -> x = ShownNumber (nth 0 word 0 / 4) /\ y = ShownSvn svn.
(** The two are exchanged. *)
Definition word_line_exchanged (word : list Z) (svn : Z) (m : message) : Prop :=
  forall k x y, m = LgWord k x y -> x = ShownSvn svn /\ y = ShownNumber (nth 0 word 0 / 4).
(** The word has data of this kind. *)
Definition has_data (k : nav_kind) (word : list Z) (b : band) : Prop :=
  let t := nth 0 word 0 / 4 in
  match k with Ced => 1 <= t <= 5 | Timing => b = E1B /\ (t = 6 \/ t = 10) end.

End Crypto.

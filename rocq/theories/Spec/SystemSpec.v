(** What it means for navigation data to be authenticated, in terms of everything that was fed
    to the receiver. *)
From Coq Require Import ZArith List Bool.
From Verif Require Import Model.Prelude Model.Params Model.Gst Model.Bitfields Model.Tesla Model.Merkle
  Model.Nav Model.Osnma
  Spec.TimeSpec Spec.CollectSpec Spec.NavSpec Spec.TeslaSpec Spec.KrootSpec Spec.MerkleSpec.
Import ListNotations.
Open Scope Z_scope.

(** ** What was fed *)

(** The OSNMA words fed, without the all-zero ones (which mean that the satellite does not
    transmit OSNMA), and the INAV words fed. *)
Definition osnma_words (h : list op) : list oword :=
  flat_map (fun x => match x with
                     | FeedOsnma d svn g => if forallb (Z.eqb 0) d then [] else [mkWord d svn g]
                     | FeedInav _ _ _ _ => []
                     end) h.
Definition inav_words (h : list op) : list nword :=
  flat_map (fun x => match x with
                     | FeedInav w svn g b => [mkNWord w svn g b]
                     | FeedOsnma _ _ _ => []
                     end) h.

(** The satellite of a call. *)
Definition op_svn (x : op) : Z :=
  match x with FeedInav _ svn _ _ => svn | FeedOsnma _ svn _ => svn end.

(** The time of a call. *)
Definition op_gst (x : op) : gst :=
  match x with FeedInav _ _ g _ => g | FeedOsnma _ _ g => g end.

(** The calls are in time order. *)
Definition in_time_order (h : list op) : Prop :=
  forall i j x y, (i <= j)%nat -> nth_error h i = Some x -> nth_error h j = Some y ->
    time_of (op_gst x) <= time_of (op_gst y).

(** The calls are in the order of their subframes; within a subframe they may be in any order. *)
Definition in_subframe_order (h : list op) : Prop :=
  forall i j x y, (i <= j)%nat -> nth_error h i = Some x -> nth_error h j = Some y ->
    time_of (subframe_of (op_gst x)) <= time_of (subframe_of (op_gst y)).

(** The 15 words of the subframe starting at [g] of a satellite were fed, in order; they
    carry this HKROOT message and this MACK message. *)
Definition subframe_received (h : list op) (svn : Z) (g : gst) (hkroot mack : list Z) : Prop :=
  exists ws, has_words svn 15 ws (osnma_words h) /\
    (forall w, In w ws -> subframe_of (w_gst w) = g) /\
    hkroot = hkroot_of ws /\ mack = mack_of ws.

(** The blocks of a DSM were received: each in the HKROOT message of some subframe, with the
    DSM id and block number in the second byte. *)
Definition dsm_received (h : list op) (id : Z) (d : list Z) : Prop :=
  exists blocks, d = concat blocks /\ blocks_needed id (nth 0 d 0) = Some (length blocks) /\
    forall i b, nth_error blocks i = Some b ->
      exists svn g hkroot mack, subframe_received h svn g hkroot mack /\
        nth 1 hkroot 0 = 16 * id + Z.of_nat i /\ skipn 2 hkroot = b.

(** The getter for each kind of data. *)
Definition getter {C : crypto} {B : build} {S : storage} (k : nav_kind)
  : osnma -> Z -> outcome (option nav_data) :=
  match k with Ced => get_ced_and_status | Timing => get_timing_parameters end.

(** ** INAV words grouped by subframe *)

(** The INAV words in stretches of the same subframe, oldest first: the subframe and the
    words fed during the stretch. *)
Definition push_nword (gs : list (gst * list nword)) (w : nword) : list (gst * list nword) :=
  match rev gs with
  | (g, l) :: older => if gst_eqb g (subframe_of (nw_gst w)) then rev older ++ [(g, l ++ [w])]
                       else gs ++ [(subframe_of (nw_gst w), [w])]
  | [] => [(subframe_of (nw_gst w), [w])]
  end.
Definition nav_stretches (ws : list nword) : list (gst * list nword) := fold_left push_nword ws [].

(** Position of the bits of field number [i] in the data. *)
Definition field_start (k : nav_kind) (i : nat) : nat :=
  list_sum (map (fun f => f_to f - f_from f)%nat (firstn i (icd_fields k))).
Definition field_bits (k : nav_kind) (i : nat) (bits : list bool) : list bool :=
  sub (field_start k i) (field_start k (i + 1)) bits.

(** A word of the satellite with these bits for field number [i]. *)
Definition gives_field (k : nav_kind) (svn : Z) (i : nat) (bits : list bool) (w : nword) : Prop :=
  nw_svn w = svn /\ exists f, nth_error (icd_fields k) i = Some f /\ carries k f w = true /\
    nw_bits w (f_from f) (f_to f) = field_bits k i bits.

(** The data is all there in stretch number [a], from words received in it or in the [cop]-1
    stretches before it. *)
Definition nav_seen (ws : list nword) (k : nav_kind) (svn : Z) (bits : list bool) (g : gst) (cop : Z)
  : Prop :=
  exists a l, nth_error (nav_stretches ws) a = Some (g, l) /\
    forall i, (i < length (icd_fields k))%nat ->
      exists b g' l' w, (b <= a)%nat /\ Z.of_nat a - Z.of_nat b < cop /\
        nth_error (nav_stretches ws) b = Some (g', l') /\ In w l' /\ gives_field k svn i bits w.

(** ** Trust *)

Section Crypto.
Context {C : crypto} {B : build}.

(** The public keys that may be used: the one given by the user, and those received in a
    DSM-PKR that leads to the Merkle tree root given by the user. *)
Definition trusted_pubkey (root : option (list Z)) (user : option public_key) (h : list op)
    (pk : public_key) : Prop :=
  user = Some pk \/
  exists r id d f, root = Some r /\ 12 <= id /\ dsm_received h id d /\
    pkr_layout d f /\ sha256 (path_input f 4) = r /\ pf_npkid f = pk_id pk /\
    match pk_key pk with
    | VkP256 k => pf_npkt f = 1 /\ p256_from_sec1 (pf_key f) = Some k
    | VkP521 k => pf_npkt f = 3 /\ p521_from_sec1 (pf_key f) = Some k
    end.

(** [kr] is the root key of a DSM-KROOT that was received, with the NMA header of a received
    HKROOT message, and verified with a trusted public key that has the id given in the
    DSM-KROOT. *)
Definition verified_root (root : option (list Z)) (user : option public_key) (h : list op)
    (kr : tkey) : Prop :=
  exists id d f pk svn g hkroot mack,
    id < 12 /\ dsm_received h id d /\ kroot_layout d f /\
    subframe_received h svn g hkroot mack /\
    trusted_pubkey root user h pk /\ pk_id pk = kf_pkid f /\
    kroot_verified (nth 0 hkroot 0) f (pk_key pk) /\ kroot_key f kr.

(** [key] is the key of its chain [n] subframes after [kr]. *)
Definition key_after (kr key : tkey) (n : nat) : Prop :=
  k_chain key = k_chain kr /\ time_of (k_gst key) = time_of (k_gst kr) + 30 * Z.of_nat n /\
  key_before (k_chain kr) n (key_bytes key) (time_of (k_gst key)) (key_bytes kr).

(** A TESLA key that leads to a verified root key. *)
Definition trusted_key (root : option (list Z)) (user : option public_key) (h : list op)
    (key : tkey) : Prop :=
  exists kr n, verified_root root user h kr /\ key_after kr key n.

(** ** Tags *)

(** Tag number [j] of the MACK message sent by [prna] at [t] with NMA status [s] is a tag for
    the data [bits] of satellite [svn].  Tag 0 is always about the CED of the transmitting
    satellite; its information field has no satellite and no ADKD. *)
Definition tag_at (c : chain) (key : list Z) (prna t : Z) (s : nma_status_t) (mack : list Z)
    (svn adkd cop : Z) (bits tag : list bool) (j : nat) : Prop :=
  let ts := ch_tag_bits c in
  let m := bits_of_bytes mack in
  ((ts + 16) * (j + 1) + 8 * ch_key_bytes c <= 480)%nat /\
    tag = sub ((ts + 16) * j) ((ts + 16) * j + ts) m /\
    match j with
    | O => svn = prna /\ adkd = 0 /\ (exists macseq, info_at m ts 0 = be 12 macseq ++ be 4 cop) /\
           tag_of (ch_mac c) key (tag_bits None prna t 1 s bits) tag
    | _ => info_at m ts j = be 8 svn ++ be 4 adkd ++ be 4 cop /\
           tag_of (ch_mac c) key (tag_bits (Some svn) prna t (Z.of_nat j + 1) s bits) tag
    end.

(** Some tag of the MACK message is a tag for the data. *)
Definition tag_in_mack (c : chain) (key : list Z) (prna t : Z) (s : nma_status_t) (mack : list Z)
    (svn adkd cop : Z) (bits tag : list bool) : Prop :=
  exists j, tag_at c key prna t s mack svn adkd cop bits tag j.

(** The NMA status is in the first two bits of the HKROOT message. *)
Definition status_of (hkroot : list Z) : nma_status_t :=
  match nth 0 hkroot 0 / 64 with
  | 0 => NmaReserved | 1 => NmaTest | 2 => NmaOperational | _ => NmaDontUse
  end.

(** Which data an ADKD is about, and after how many seconds its key is disclosed. *)
Definition adkd_means (adkd : Z) (k : nav_kind) (delay : Z) : Prop :=
  (adkd = 0 /\ k = Ced /\ delay = 30) \/ (adkd = 4 /\ k = Timing /\ delay = 30) \/
  (adkd = 12 /\ k = Ced /\ delay = 330).

(** Time arithmetic, on 16-bit week numbers. *)
Definition seconds_after (g g' : gst) (s : Z) : Prop :=
  gst_ok g /\ gst_ok g' /\ (time_of g + s - time_of g') mod (65536 * 604800) = 0.

(** The key is the contents of the key field of the MACK message. *)
Definition key_in_mack (mack : list Z) (key : tkey) : Prop :=
  let c := k_chain key in
  let n := ((480 - 8 * ch_key_bytes c) / (ch_tag_bits c + 16))%nat in
  bits_of_bytes (key_bytes key)
  = sub ((ch_tag_bits c + 16) * n) ((ch_tag_bits c + 16) * n + 8 * ch_key_bytes c)
        (bits_of_bytes mack).

(** The MACSEQ and the ADKD sequence of the MACK message were checked with the key [mkey] of
    the subframe after it, which is a trusted key or is computed from one. *)
Definition mack_checked (root : option (list Z)) (user : option public_key) (h : list op)
    (key : tkey) (prna : Z) (g : gst) (mack : list Z) : Prop :=
  exists mkey held n,
    trusted_key root user h held /\ k_chain mkey = k_chain held /\
    time_of (k_gst held) = time_of (k_gst mkey) + 30 * Z.of_nat n /\
    key_before (k_chain held) n (key_bytes held) (time_of (k_gst held)) (key_bytes mkey) /\
    seconds_after g (k_gst mkey) 30 /\
    mack_valid (k_chain mkey) (key_bytes mkey) prna (time_of g) mack
               (8 * ch_key_bytes (k_chain key)) (ch_tag_bits (k_chain key)).

(** With the last call of [h], the data [bits] of satellite [svn] was authenticated by [tag], a
    tag with this ADKD and COP of the MACK message of the subframe [g] sent by [prna]: the call
    completed a subframe that disclosed a trusted key; with it, the tag was verified, which came
    in the MACK message of an earlier subframe with status Test or Operational; and the data was
    there in the subframe [gn] before that one, from words not older than the COP allows. *)
Definition verified_by (root : option (list Z)) (user : option public_key) (h : list op)
    (k : nav_kind) (svn : Z) (bits tag : list bool) (adkd delay cop prna : Z) (gn g : gst)
    (key : tkey) : Prop :=
  exists prnk hkroot_k mack_k hkroot mack,
    (exists h0 d gk, h = h0 ++ [FeedOsnma d prnk gk] /\ subframe_of gk = k_gst key) /\
    subframe_received h prnk (k_gst key) hkroot_k mack_k /\ key_in_mack mack_k key /\
    trusted_key root user h key /\
    adkd_means adkd k delay /\ seconds_after g (k_gst key) delay /\
    subframe_received h prna g hkroot mack /\
    (status_of hkroot = NmaTest \/ status_of hkroot = NmaOperational) /\
    tag_in_mack (k_chain key) (key_bytes key) prna (time_of g) (status_of hkroot) mack
                svn adkd cop bits tag /\
    mack_checked root user h key prna g mack /\
    0 < cop < 16 /\
    seconds_after gn g 30 /\ nav_seen (inav_words h) k svn bits gn cop.

(** With [only_slow], only tags with ADKD 12 count. *)
Definition verified_now (root : option (list Z)) (user : option public_key) (only_slow : bool)
    (h : list op) (k : nav_kind) (svn : Z) (bits tag : list bool) : Prop :=
  exists adkd delay cop prna gn g key,
    verified_by root user h k svn bits tag adkd delay cop prna gn g key /\
    (only_slow = true -> adkd = 12).

(** The same at some point of the history. *)
Definition verified (root : option (list Z)) (user : option public_key) (only_slow : bool)
    (h : list op) (k : nav_kind) (svn : Z) (bits tag : list bool) : Prop :=
  exists h1 h2, h = h1 ++ h2 /\ verified_now root user only_slow h1 k svn bits tag.

(** The tag was verified, its subframe starts [delay] seconds (one subframe, or eleven for
    ADKD 12) before the subframe that disclosed its key, and all of the data came in words
    received before the subframe of the tag started. *)
Definition verified_in_time (root : option (list Z)) (user : option public_key)
    (h : list op) (k : nav_kind) (svn : Z) (bits tag : list bool) : Prop :=
  exists h1 h2 adkd delay cop prna gn g key, h = h1 ++ h2 /\
    verified_by root user h1 k svn bits tag adkd delay cop prna gn g key /\
    delay = (if adkd =? 12 then 330 else 30) /\
    time_of g + delay = time_of (k_gst key) /\ time_of gn + 30 = time_of g /\
    forall i, (i < length (icd_fields k))%nat ->
      exists w, In w (inav_words h1) /\ gives_field k svn i bits w /\ time_of (nw_gst w) < time_of g.

(** Data with [n] authentication bits: the bits are those of tags that were verified for exactly
    this data of this satellite, at least 40 in all; the counter stops at 65535. *)
Definition authenticated (root : option (list Z)) (user : option public_key) (only_slow : bool)
    (h : list op) (k : nav_kind) (svn : Z) (bits : list bool) (n : Z) : Prop :=
  40 <= n /\ exists tags, n = Z.min 65535 (Z.of_nat (length (concat tags))) /\
    forall tag, In tag tags -> verified root user only_slow h k svn bits tag.

End Crypto.

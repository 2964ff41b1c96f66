(** The calls that may panic. *)
From Coq Require Import ZArith List Bool.
From Verif Require Import Model.Prelude Model.Params Model.Gst Model.Bitfields Model.Tesla Model.Merkle
  Model.Dsm Model.MackStore Model.Nav Model.Osnma
  Spec.TimeSpec Spec.CollectSpec Spec.NavSpec Spec.TeslaSpec Spec.KrootSpec Spec.MerkleSpec Spec.MacltSpec
  Spec.KeySpec Spec.SystemSpec Spec.CompleteSpec.
Import ListNotations.
Open Scope Z_scope.

(** ** DSM messages that are completed *)

(** The DSM blocks of all the subframes that the words complete, in order. *)
Definition block_of (hkroot : list Z) : block := mkBlock (nth 1 hkroot 0) (skipn 2 hkroot).
Definition push_word (acc : list oword * list block) (w : oword) : list oword * list block :=
  (fst acc ++ [w],
   match expected_subframe (fst acc) w with
   | Some (hkroot, _, _) => snd acc ++ [block_of hkroot]
   | None => snd acc
   end).
Definition blocks_received (ws : list oword) : list block := snd (fold_left push_word ws ([], [])).

(** The DSM that is complete with the DSM block of this HKROOT message, received after the calls
    [h]: whether it is a DSM-PKR, and its contents. *)
Definition completed_dsm (h : list op) (hkroot : list Z) : option (bool * list Z) :=
  match expected_dsm (blocks_received (osnma_words h)) (block_of hkroot) with
  | Some (_, pkr, d) => Some (pkr, d)
  | None => None
  end.

(** ** DSM messages that make the receiver panic *)

(** The codes of the hash function, MAC function, key size and tag size of a DSM-KROOT have a
    meaning. *)
Definition codes_known (d : list Z) : Prop :=
  In (nth 1 d 0 / 4 mod 4) (map fst hash_table) /\ In (nth 1 d 0 mod 4) (map fst mac_table) /\
  In (nth 2 d 0 / 16) (map fst key_size_table) /\ In (nth 2 d 0 mod 16) (map fst tag_size_table).

Section Crypto.
Context {C : crypto} {B : build} {S : storage}.

(** A key of this type is used to verify signatures. *)
Definition key_supported (pk : verifying_key) : Prop :=
  match pk with VkP256 _ => True | VkP521 _ => feature_p521 = true end.

(** The signature is as long as signatures for the key, but its numbers are out of range. *)
Definition unreadable_signature (pk : verifying_key) (sig : list Z) : Prop :=
  match pk with
  | VkP256 _ => length sig = 64%nat /\ p256_sig_parses sig = false
  | VkP521 _ => length sig = 132%nat /\ p521_sig_parses sig = false
  end.

(** A DSM-KROOT with NMA header [hd] that panics when it is checked with the public key [pk]:
    one with known codes but whose number of blocks is not the one for its key size; one with
    the right padding and a signature out of range; or one that verifies but has a time that is
    not a time of week, or (if overflows are detected) the first subframe of all. *)
Definition kroot_panics (hd : Z) (d : list Z) (pk : verifying_key) : Prop :=
  codes_known d /\
  ((forall f, ~ kroot_layout d f) \/
   exists f m, kroot_layout d f /\ key_supported pk /\ kroot_signed hd f m /\
     kf_pad f = firstn (length (kf_pad f)) (sha256 (m ++ kf_sig f)) /\
     (unreadable_signature pk (kf_sig f) \/
      kroot_verified hd f pk /\
      (168 <= kf_towh f \/
       overflow_checks = true /\ 604800 * kf_wn f + 3600 * kf_towh f < 30))).

(** A DSM-PKR that panics when it is checked with the Merkle tree root: one that announces a
    P-521 key but is too short for it, or one that leads to the root but whose key is not a
    point of the curve. *)
Definition pkr_panics (root d : list Z) : Prop :=
  (nth 129 d 0 / 16 = 3 /\ (length d < 197)%nat) \/
  exists f, pkr_layout d f /\ sha256 (path_input f 4) = root /\
    (pf_npkt f = 1 /\ p256_from_sec1 (pf_key f) = None \/
     pf_npkt f = 3 /\ feature_p521 = true /\ p521_from_sec1 (pf_key f) = None).

(** The DSM panics in this state: the receiver holds a public key with the id that is in the
    DSM-KROOT, or a Merkle tree root. *)
Definition dsm_panics (o : osnma) (hd : Z) (pkr : bool) (d : list Z) : Prop :=
  if pkr then exists root, o_merkle o = Some root /\ pkr_panics root d
  else exists pk, held_pub (o_pub o) pk /\ pk_id pk = nth 0 d 0 mod 16 /\ kroot_panics hd d (pk_key pk).

(** ** Chains that may be used without panic *)

(** CMAC is used with keys of 16 bytes. *)
Definition mac_fits (c : chain) : Prop := ch_mac c = MacCmacAes -> ch_key_bytes c = 16%nat.

(** The flexible tags of the sequences of the chain [c] are among the tags of a MACK message with
    the sizes of the chain [c']. *)
Definition flx_fits (c c' : chain) : Prop :=
  forall half codes, icd_sequence (ch_maclt c) half = Some codes ->
    Forall (fun i => (i < (480 - 8 * ch_key_bytes c') / (ch_tag_bits c' + 16))%nat) (flx_positions codes).

(** ** Calls that do not panic *)

(** If the call completes a subframe, the time of the subframe is not in the first six minutes
    that can be represented (if overflows are detected), the DSM that it completes, if any, does
    not panic, and the chains of the keys then held can be used, all of them with all. *)
Definition harmless_call (h : list op) (o : osnma) (x : op) : Prop :=
  forall hkroot mack g, completes h x hkroot mack g ->
    (overflow_checks = true -> 360 <= time_of g) /\
    (forall pkr d, completed_dsm h hkroot = Some (pkr, d) -> ~ dsm_panics o (nth 0 hkroot 0) pkr d) /\
    (forall ks k k', keys_then o hkroot g ks -> held ks k -> held ks k' ->
       mac_fits (k_chain k) /\ flx_fits (k_chain k) (k_chain k')).

Definition harmless (o0 : osnma) (h : list op) : Prop :=
  forall h1 x h2 o, h = h1 ++ x :: h2 -> run o0 h1 = Ok o -> harmless_call h1 o x.

End Crypto.

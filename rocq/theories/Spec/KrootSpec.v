(** The DSM-KROOT message and the MACK message as described in the OSNMA ICD. *)
From Coq Require Import ZArith String List Bool.
From Verif Require Import Model.Prelude Model.Params Model.Bitfields Model.Tesla Model.Gst
  Spec.TimeSpec Spec.TeslaSpec Spec.MacltSpec.
Import ListNotations.
Open Scope list_scope.
Open Scope Z_scope.

(** ** DSM-KROOT *)

(** The fields of a DSM-KROOT message: numbers, and the bytes of the root key, the digital
    signature and the padding. *)
Record kroot_fields : Type := mkKF {
  kf_nb : Z; kf_pkid : Z;
  kf_cid : Z; kf_res1 : Z; kf_hf : Z; kf_mf : Z; kf_ks : Z; kf_ts : Z; kf_maclt : Z;
  kf_res2 : Z; kf_wn : Z; kf_towh : Z; kf_alpha : Z; kf_kroot : list Z;
  kf_sig : list Z; kf_pad : list Z
}.

(** The parameters, in order, with their widths. *)
Definition kroot_params (f : kroot_fields) : list (nat * Z) :=
  [(2%nat, kf_cid f); (2%nat, kf_res1 f); (2%nat, kf_hf f); (2%nat, kf_mf f); (4%nat, kf_ks f);
   (4%nat, kf_ts f); (8%nat, kf_maclt f); (4%nat, kf_res2 f); (12%nat, kf_wn f);
   (8%nat, kf_towh f); (48%nat, kf_alpha f)].

Definition written (ps : list (nat * Z)) : list bool := concat (map (fun p => be (fst p) (snd p)) ps).
Definition in_width (p : nat * Z) : Prop := 0 <= snd p < 2 ^ Z.of_nat (fst p).

(** Meaning of the codes. *)
Definition key_size_table : list (Z * nat) :=
  [(0, 96%nat); (1, 104%nat); (2, 112%nat); (3, 120%nat); (4, 128%nat); (5, 160%nat);
   (6, 192%nat); (7, 224%nat); (8, 256%nat)].
Definition tag_size_table : list (Z * nat) := 
  [(5, 20%nat); (6, 24%nat); (7, 28%nat); (8, 32%nat); (9, 40%nat)].
Definition hash_table : list (Z * hash_fn) := [(0, HashSha256); (2, HashSha3_256)].
Definition mac_table : list (Z * mac_fn) := [(0, MacHmacSha256); (1, MacCmacAes)].

(** [d] is the message with fields [f]: blocks of 13 bytes filled with the least padding. *)
Record kroot_layout (d : list Z) (f : kroot_fields) : Prop := {
  kl_bits : bits_of_bytes d
            = written ((4%nat, kf_nb f) :: (4%nat, kf_pkid f) :: kroot_params f)
              ++ bits_of_bytes (kf_kroot f) ++ bits_of_bytes (kf_sig f) ++ bits_of_bytes (kf_pad f);
  kl_width : Forall in_width ((4%nat, kf_nb f) :: (4%nat, kf_pkid f) :: kroot_params f);
  kl_bytes : Forall is_byte (kf_kroot f) /\ Forall is_byte (kf_sig f) /\ Forall is_byte (kf_pad f);
  kl_kroot : In (kf_ks f, (8 * length (kf_kroot f))%nat) key_size_table;
  kl_sig : (length (kf_sig f) = 64 \/ length (kf_sig f) = 132)%nat;
  kl_pad : (length (kf_pad f) < 13)%nat /\ exists n, (length d = 13 * n)%nat
}.

Section Crypto.
Context {C : crypto}.

(** What is signed: the NMA header, the parameters and the root key. *)
Definition kroot_signed (nma_header : Z) (f : kroot_fields) (m : list Z) : Prop :=
  encodes m (be 8 nma_header ++ written (kroot_params f) ++ bits_of_bytes (kf_kroot f)).

(** The padding is the start of the hash of the signed message followed by the signature, and
    the signature is right. *)
Definition kroot_verified (nma_header : Z) (f : kroot_fields) (pk : verifying_key) : Prop :=
  exists m, kroot_signed nma_header f m /\
    kf_pad f = firstn (length (kf_pad f)) (sha256 (m ++ kf_sig f)) /\
    match pk with
    | VkP256 k => length (kf_sig f) = 64%nat /\ p256_sig_parses (kf_sig f) = true /\
                  p256_verify k m (kf_sig f) = true
    | VkP521 k => length (kf_sig f) = 132%nat /\ p521_sig_parses (kf_sig f) = true /\
                  p521_verify k m (kf_sig f) = true
    end.

(** The key [k] has the parameters of [f]; it is the key of the subframe before the hour
    [kf_towh f] of the week. *)
Record kroot_key (f : kroot_fields) (k : tkey) : Prop := {
  kk_id : ch_id (k_chain k) = kf_cid f;
  kk_hash : In (kf_hf f, ch_hash (k_chain k)) hash_table;
  kk_mac : In (kf_mf f, ch_mac (k_chain k)) mac_table;
  kk_ks : ch_key_bytes (k_chain k) = length (kf_kroot f);
  kk_ts : In (kf_ts f, ch_tag_bits (k_chain k)) tag_size_table;
  kk_maclt : ch_maclt (k_chain k) = kf_maclt f;
  kk_alpha : ch_alpha (k_chain k) = kf_alpha f;
  kk_bytes : k_data k = kf_kroot f ++ repeat 0 (32 - length (kf_kroot f));
  kk_towh : kf_towh f < 168;
  kk_time : time_of (k_gst k) = (604800 * kf_wn f + 3600 * kf_towh f - 30) mod (65536 * 604800)
}.

(** ** MACK *)

(** Positions of the flexible tags in a sequence of the look-up table. *)
Definition flx_positions (codes : list string) : list nat :=
  filter (fun i => match nth_error codes i with Some c => String.eqb c "FLX" | None => false end)
         (seq 0 (List.length codes)).

(** The 16 bits after tag [j] of a message with tags of [ts] bits. *)
Definition info_at (bits : list bool) (ts j : nat) : list bool :=
  sub ((ts + 16) * j + ts) ((ts + 16) * (j + 1)) bits.

(** What an entry of the table requires of a tag sent by the satellite [prna]. *)
Definition code_allows (code : string) (prna prnd adkd : Z) : Prop :=
  (code = "FLX" \/
   1 <= prnd <= 36 /\
   (code = "00S" /\ adkd = 0 /\ prnd = prna \/ code = "00E" /\ adkd = 0 \/
    code = "04S" /\ adkd = 4 /\ prnd = prna \/
    code = "12S" /\ adkd = 12 /\ prnd = prna \/ code = "12E" /\ adkd = 12))%string.

(** The MACK message [data] sent by [prna] at [t] is valid for the chain and key. *)
Definition mack_valid (c : chain) (key : list Z) (prna t : Z) (data : list Z) (ks ts : nat) : Prop :=
  let bits := bits_of_bytes data in
  let num_tags := ((480 - ks) / (ts + 16))%nat in
  exists codes,
    icd_sequence (ch_maclt c) (Z.to_nat (t / 30 mod 2)) = Some codes /\
    Forall (fun i => (i < num_tags)%nat) (flx_positions codes) /\
    tag_of (ch_mac c) key
      (be 8 prna ++ gst_field t ++ concat (map (info_at bits ts) (flx_positions codes)))
      (sub ts (ts + 12) bits) /\
    forall j, (1 <= j < num_tags)%nat ->
      exists code prnd adkd cop,
        nth_error codes j = Some code /\ 0 <= prnd < 256 /\ 0 <= adkd < 16 /\
        info_at bits ts j = be 8 prnd ++ be 4 adkd ++ be 4 cop /\
        code_allows code prna prnd adkd.

End Crypto.

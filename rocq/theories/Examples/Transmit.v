(** A transmitter for the examples, written from the OSNMA ICD and independent of the model:
    DSM-KROOT and DSM-PKR messages, MACK messages, and the calls with which a receiver is fed. *)
From Coq Require Import ZArith String List Bool.
From Verif Require Import Model.Prelude Model.Params Model.Gst Model.Bitfields Model.Tesla Model.Merkle
  Model.Nav Model.Osnma Spec.SystemSpec Examples.Sha256 Examples.Vectors Examples.Demo Examples.Toy.
Import ListNotations.
Open Scope list_scope.
Open Scope Z_scope.

(** ** Chains *)

Definition bytes_be (n : nat) (v : Z) : list Z := map (fun i => v / 256 ^ Z.of_nat (n - 1 - i) mod 256) (seq 0 n).
(** 12 bits of week number and 20 bits of time of week. *)
Definition gst_bytes (t : Z) : list Z := bytes_be 4 (t / 604800 mod 4096 * 1048576 + t mod 604800).
Definition gst_at (t : Z) : gst := mkGst (t / 604800) (t mod 604800).

(** A chain with keys of 16 bytes and tags of 40 bits: its id, its last key and the time of it. *)
Record tx_chain : Type := mkTx { tx_id : Z; tx_last : list Z; tx_time : Z }.
Definition tx_alpha (c : tx_chain) : list Z := [37; 211; 150; 77; 163; tx_id c].
Fixpoint tx_down (alpha : list Z) (n : nat) (k : list Z) (t : Z) : list Z :=
  match n with
  | O => k
  | S n => tx_down alpha n (firstn 16 (toy_sha256 (k ++ gst_bytes (t - 30) ++ alpha))) (t - 30)
  end.
Definition tx_key (c : tx_chain) (t : Z) : list Z :=
  tx_down (tx_alpha c) (Z.to_nat ((tx_time c - t) / 30)) (tx_last c) (tx_time c).

(** ** DSM-KROOT *)

(** The root key is that of the subframe before [t], the start of an hour. *)
Definition kroot_signed_part (c : tx_chain) (t : Z) : list Z :=
  [tx_id c * 64; 4 * 16 + 9; 33] ++ bytes_be 2 (t / 604800 mod 4096) ++ [t mod 604800 / 3600] ++ tx_alpha c
  ++ tx_key c (t - 30).
Definition kroot_msg (hd : Z) (pk : list Z) (pkid : Z) (c : tx_chain) (t : Z) : list Z :=
  let m := hd :: kroot_signed_part c t in
  let sig := toy_sign pk m in
  let d := (2 * 16 + pkid) :: kroot_signed_part c t ++ sig in
  d ++ firstn (104 - List.length d) (toy_sha256 (m ++ sig)).

(** ** DSM-PKR *)

(** The leaves are type and id, followed by the key. *)
Definition level_up (l : list (list Z)) : list (list Z) :=
  map (fun i => toy_sha256 (nth (2 * i) l [] ++ nth (2 * i + 1) l [])) (seq 0 (List.length l / 2)).
Fixpoint levels (n : nat) (l : list (list Z)) : list (list (list Z)) :=
  match n with O => [l] | S n => l :: levels n (level_up l) end.
Definition tx_tree (leaves : list (list Z)) : list (list (list Z)) := levels 4 (map toy_sha256 leaves).
Definition tx_root (leaves : list (list Z)) : list Z := nth 0 (nth 4 (tx_tree leaves) []) [].
Definition sibling (i : nat) : nat := if Nat.even i then S i else (i - 1)%nat.
Definition pkr_msg (leaves : list (list Z)) (m : nat) : list Z :=
  let tree := tx_tree leaves in
  let d := (7 * 16 + Z.of_nat m) :: nth (sibling m) (nth 0 tree []) [] ++ nth (sibling (m / 2)) (nth 1 tree []) []
           ++ nth (sibling (m / 4)) (nth 2 tree []) [] ++ nth (sibling (m / 8)) (nth 3 tree []) [] ++ nth m leaves [] in
  d ++ repeat 0 (169 - List.length d).

(** ** MACK *)

Definition tx_tag (key : list Z) (prnd : option Z) (prna t ctr : Z) (data : list bool) : list Z :=
  let head := (match prnd with Some p => [p] | None => [] end) ++ [prna] ++ gst_bytes t ++ [ctr] in
  let bits := bits_of_bytes head ++ [true; false] ++ data in
  let padded := bits ++ repeat false ((8 - List.length bits mod 8) mod 8) in
  firstn 5 (toy_hmac key (bytes_of_bits padded)).
(** The tags after the first one: satellite, ADKD, COP, data. *)
Definition tx_mack (c : tx_chain) (svn t : Z) (own : list bool) (tags : list (Z * Z * Z * list bool)) : list Z :=
  let key := tx_key c (t + 30) in
  let macseq := toy_hmac key (svn :: gst_bytes t) in
  tx_tag key None svn t 1 own ++ [nth 0 macseq 0; nth 1 macseq 0 / 16 * 16 + 1]
  ++ concat (map (fun i => match nth_error tags i with
                           | Some (prnd, adkd, cop, data) =>
                               tx_tag (if adkd =? 12 then tx_key c (t + 330) else key) (Some prnd) svn t
                                      (Z.of_nat i + 2) data ++ [prnd; adkd * 16 + cop]
                           | None => [] end) (seq 0 5))
  ++ tx_key c t ++ [0; 0].
Definition tx_ced (words : list (list Z)) : list bool :=
  let b i := bits_of_bytes (nth i words []) in
  sub 6 126 (b 0%nat) ++ sub 6 126 (b 1%nat) ++ sub 6 128 (b 2%nat) ++ sub 6 126 (b 3%nat) ++ sub 6 73 (b 4%nat).
Definition tx_timing (words : list (list Z)) : list bool :=
  let b i := bits_of_bytes (nth i words []) in sub 6 105 (b 5%nat) ++ sub 86 128 (b 6%nat).
(** A MACK message of satellite 1 about satellites 1 and 2 with the words of the example. *)
Definition tx_mack1 (c : tx_chain) (t : Z) : list Z :=
  tx_mack c 1 t (tx_ced demo_nav1)
    [(2, 0, 1, tx_ced demo_nav2); (1, 4, 1, tx_timing demo_nav1); (2, 0, 0, repeat false 549);
     (1, 12, 1, tx_ced demo_nav1); (2, 0, 1, tx_ced demo_nav2)].
(** A MACK message of which only the key matters. *)
Definition tx_mack0 (c : tx_chain) (t : Z) : list Z := repeat 5 42 ++ tx_key c t ++ [5; 5].

(** ** Calls *)

(** A subframe at [t] of some satellites, each with its HKROOT and MACK message. *)
Definition tx_subframe (t : Z) (l : list (Z * list Z * list Z)) : list op :=
  concat (map (fun i => map (fun '(svn, hkroot, mack) =>
    FeedOsnma (nth i hkroot 0 :: sub (4 * i) (4 * i + 4) mack) svn (gst_at (t + 2 * Z.of_nat i))) l) (seq 0 15)).
Definition tx_block (hd id : Z) (dsm : list Z) (i : nat) : list Z :=
  hd :: (16 * id + Z.of_nat i) :: sub (13 * i) (13 * i + 13) dsm.
(** A whole DSM in one subframe, a block from each satellite. *)
Definition tx_dsm (t hd id : Z) (dsm : list Z) (mack : Z -> list Z) : list op :=
  tx_subframe t (map (fun i => (Z.of_nat i + 1, tx_block hd id dsm i, mack (Z.of_nat i + 1)))
                     (seq 0 (List.length dsm / 13))).
(** One subframe of satellite 1 with the first block of a DSM. *)
Definition tx_one (t hd id : Z) (dsm mack : list Z) : list op := tx_subframe t [(1, tx_block hd id dsm 0, mack)].
(** The words of the example, of satellites 1 and 2, in the subframe at [t]. *)
Definition tx_nav (t : Z) : list op :=
  concat (map (fun i => [FeedInav (nth i demo_nav1 []) 1 (gst_at (t + 2 * Z.of_nat i)) E1B;
                         FeedInav (nth i demo_nav2 []) 2 (gst_at (t + 2 * Z.of_nat i)) E1B]) (seq 0 7)).

(** ** Keys of the examples *)

Definition tx_t0 : Z := 1200 * 604800 + 7200.
Definition pk_bytes (i : Z) : list Z := 2 :: toy_sha256 [112; 107; i].
Definition tx_pub (i : Z) : public_key := mkPub (VkP256 (pk_bytes i)) i.
Definition chain1 : tx_chain := mkTx 1 (firstn 16 (toy_sha256 [1])) (tx_t0 + 900).
Definition chain2 : tx_chain := mkTx 2 (firstn 16 (toy_sha256 [2])) (tx_t0 + 4500).
(** 16 leaves: public keys 1 to 15, and an alert message. *)
Definition tx_leaves : list (list Z) :=
  map (fun i => (16 + Z.of_nat i) :: pk_bytes (Z.of_nat i)) (seq 1 15) ++ [4 * 16 :: toy_sha256 [97] ++ repeat 7 7].

(** NMA headers: status, chain in force, CPKS. *)
Definition tx_header (status cid cpks : Z) : Z := 64 * status + 16 * cid + 2 * cpks.

(** The receiver accepts the nominal sequence. *)
Definition tx_nominal : list op :=
Eval vm_compute in (  tx_nav (tx_t0 - 30)
  ++ tx_dsm tx_t0 (tx_header 2 1 1) 7 (kroot_msg (tx_header 2 1 1) (pk_bytes 3) 3 chain1 tx_t0)
       (fun svn => if svn =? 1 then tx_mack1 chain1 tx_t0 else tx_mack0 chain1 tx_t0)
  ++ tx_one (tx_t0 + 30) (tx_header 2 1 1) 7 (kroot_msg (tx_header 2 1 1) (pk_bytes 3) 3 chain1 tx_t0)
       (tx_mack1 chain1 (tx_t0 + 30))).
Definition tx_get (o : outcome osnma) (k : nav_kind) (svn : Z) : outcome (option (Z * gst)) :=
  o <- o ;; x <- getter k o svn ;; Ok (option_map (fun d => (nd_authbits d, nd_gst d)) x).
Example tx_nominal_ced : tx_get (run (osnma_new None (Some (tx_pub 3)) false) tx_nominal) Ced 2
  = Ok (Some (80, gst_at (tx_t0 - 30))).
Proof. vm_compute. reflexivity. Qed.

(** What is held, without the keys themselves: Merkle root?, ids of public keys, ids and times of
    TESLA keys, chain in force. *)
Definition tx_held (o : outcome osnma) :=
  o <- o ;;
  Ok (match o_merkle o with Some _ => true | None => false end,
      (option_map pk_id (ps_current (o_pub o)), option_map pk_id (ps_next (o_pub o))),
      (option_map (fun k => (ch_id (k_chain k), k_gst k)) (ks_k0 (o_keys o)),
       option_map (fun k => (ch_id (k_chain k), k_gst k)) (ks_k1 (o_keys o))), ks_cif (o_keys o)).
Example tx_nominal_held : tx_held (run (osnma_new None (Some (tx_pub 3)) false) tx_nominal)
  = Ok (false, (Some 3, None), (Some (1, gst_at (tx_t0 + 30)), None), Some (mkCif 1 None)).
Proof. vm_compute. reflexivity. Qed.
(** A public key through the Merkle tree. *)
Example tx_pkr_held : tx_held (run (osnma_new (Some (tx_root tx_leaves)) (Some (tx_pub 3)) false)
   (tx_dsm tx_t0 (tx_header 2 1 4) 13 (pkr_msg tx_leaves 3) (fun _ => tx_mack0 chain1 tx_t0)))
  = Ok (true, (Some 3, Some 4), (None, None), None).
Proof. vm_compute. reflexivity. Qed.
(** The alert message. *)
Example tx_alert_held : tx_held (run (osnma_new (Some (tx_root tx_leaves)) (Some (tx_pub 3)) false)
   (tx_dsm tx_t0 (tx_header 3 1 7) 13 (pkr_msg tx_leaves 15) (fun _ => tx_mack0 chain1 tx_t0)))
  = Ok (false, (None, None), (None, None), None).
Proof. vm_compute. reflexivity. Qed.

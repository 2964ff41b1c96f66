(** SHA-256 (FIPS 180-4) and HMAC-SHA-256 (RFC 2104), executable.  Not part of the model: they
    are used to run the model on the repository's test vectors and in examples. *)
From Coq Require Import ZArith String Ascii List Bool.
From Verif Require Import Model.Prelude Model.Params.
Import ListNotations.
Open Scope list_scope.
Open Scope Z_scope.

Definition w32 (x : Z) : Z := Z.land x 4294967295.
Definition rotr (n x : Z) : Z := Z.lor (Z.shiftr x n) (w32 (Z.shiftl x (32 - n))).
Definition xor3 (a b c : Z) : Z := Z.lxor a (Z.lxor b c).
Definition bsig0 x := xor3 (rotr 2 x) (rotr 13 x) (rotr 22 x).
Definition bsig1 x := xor3 (rotr 6 x) (rotr 11 x) (rotr 25 x).
Definition ssig0 x := xor3 (rotr 7 x) (rotr 18 x) (Z.shiftr x 3).
Definition ssig1 x := xor3 (rotr 17 x) (rotr 19 x) (Z.shiftr x 10).
Definition ch x y z := Z.lxor (Z.land x y) (Z.land (4294967295 - x) z).
Definition maj x y z := xor3 (Z.land x y) (Z.land x z) (Z.land y z).

Definition sha_k : list Z := [
  1116352408; 1899447441; 3049323471; 3921009573; 961987163; 1508970993; 2453635748; 2870763221;
  3624381080; 310598401; 607225278; 1426881987; 1925078388; 2162078206; 2614888103; 3248222580;
  3835390401; 4022224774; 264347078; 604807628; 770255983; 1249150122; 1555081692; 1996064986;
  2554220882; 2821834349; 2952996808; 3210313671; 3336571891; 3584528711; 113926993; 338241895;
  666307205; 773529912; 1294757372; 1396182291; 1695183700; 1986661051; 2177026350; 2456956037;
  2730485921; 2820302411; 3259730800; 3345764771; 3516065817; 3600352804; 4094571909; 275423344;
  430227734; 506948616; 659060556; 883997877; 958139571; 1322822218; 1537002063; 1747873779;
  1955562222; 2024104815; 2227730452; 2361852424; 2428436474; 2756734187; 3204031479; 3329325298].

Definition sha_h0 : list Z := [
  1779033703; 3144134277; 1013904242; 2773480762; 1359893119; 2600822924; 528734635; 1541459225].

(** The message schedule: the last 16 words, newest first. *)
Definition next_w (ws : list Z) : Z :=
  w32 (ssig1 (nth 1 ws 0) + nth 6 ws 0 + ssig0 (nth 14 ws 0) + nth 15 ws 0).

Fixpoint schedule (n : nat) (ws : list Z) : list Z :=
  match n with
  | O => []
  | S n' => let w := next_w ws in w :: schedule n' (w :: ws)
  end.

Definition sha_round (st : list Z) (kw : Z * Z) : list Z :=
  match st with
  | [a; b; c; d; e; f; g; h] =>
      let t1 := h + bsig1 e + ch e f g + fst kw + snd kw in
      let t2 := bsig0 a + maj a b c in
      [w32 (t1 + t2); a; b; c; w32 (d + t1); e; f; g]
  | _ => st
  end.

Fixpoint words_of (l : list Z) : list Z :=
  match l with
  | a :: b :: c :: d :: l' => (((a * 256 + b) * 256 + c) * 256 + d) :: words_of l'
  | _ => []
  end.

Definition sha_block (st block : list Z) : list Z :=
  let ws := words_of block in
  let w := ws ++ schedule 48 (rev ws) in
  map (fun p => w32 (fst p + snd p)) (combine st (fold_left sha_round (combine sha_k w) st)).

Fixpoint sha_blocks (n : nat) (l st : list Z) : list Z :=
  match n with
  | O => st
  | S n' => sha_blocks n' (skipn 64 l) (sha_block st (firstn 64 l))
  end.

Definition be_bytes (n : nat) (v : Z) : list Z :=
  map (fun i => Z.land (Z.shiftr v (8 * Z.of_nat i)) 255) (rev (seq 0 n)).

Definition sha_pad (m : list Z) : list Z :=
  let l := length m in
  m ++ 128 :: repeat 0 ((119 - l mod 64) mod 64)%nat ++ be_bytes 8 (8 * Z.of_nat l).

Definition real_sha256 (m : list Z) : list Z :=
  let p := sha_pad m in flat_map (be_bytes 4) (sha_blocks (length p / 64) p sha_h0).

Definition real_hmac_sha256 (key m : list Z) : list Z :=
  let k := if (length key <=? 64)%nat then key else real_sha256 key in
  let k := k ++ repeat 0 (64 - length k)%nat in
  real_sha256 (map (Z.lxor 92) k ++ real_sha256 (map (Z.lxor 54) k ++ m)).

(** Hexadecimal literals; blanks are skipped. *)
Definition hex_digit (c : ascii) : option Z :=
  let n := Z.of_nat (nat_of_ascii c) in
  if (48 <=? n) && (n <=? 57) then Some (n - 48)
  else if (97 <=? n) && (n <=? 102) then Some (n - 87)
  else if (65 <=? n) && (n <=? 70) then Some (n - 55)
  else None.
Fixpoint hex_digits (s : string) : list Z :=
  match s with
  | EmptyString => []
  | String c s' => match hex_digit c with Some d => d :: hex_digits s' | None => hex_digits s' end
  end.
Fixpoint pair_up (l : list Z) : list Z :=
  match l with
  | a :: b :: l' => 16 * a + b :: pair_up l'
  | _ => []
  end.
Definition hex (s : string) : list Z := pair_up (hex_digits s).
Fixpoint ascii_bytes (s : string) : list Z :=
  match s with EmptyString => [] | String c s' => Z.of_nat (nat_of_ascii c) :: ascii_bytes s' end.

(** FIPS 180-4 and RFC 4231 examples. *)
Example sha256_abc : real_sha256 (ascii_bytes "abc")
  = hex "ba7816bf 8f01cfea 414140de 5dae2223 b00361a3 96177a9c b410ff61 f20015ad".
Proof. vm_compute. reflexivity. Qed.
Example sha256_two_blocks :
  real_sha256 (ascii_bytes "abcdbcdecdefdefgefghfghighijhijkijkljklmklmnlmnomnopnopq")
  = hex "248d6a61 d20638b8 e5c02693 0c3e6039 a33ce459 64ff2167 f6ecedd4 19db06c1".
Proof. vm_compute. reflexivity. Qed.
Example hmac_rfc4231_2 : real_hmac_sha256 (ascii_bytes "Jefe") (ascii_bytes "what do ya want for nothing?")
  = hex "5bdcc146bf60754e6a042426089575c75a003f089d2739839dec58b964ec3843".
Proof. vm_compute. reflexivity. Qed.

(** ** Primitives for the examples *)

(** A signature scheme that anyone can compute, to build signed examples. *)
Definition demo_sign (pk m : list Z) : list Z := real_sha256 (pk ++ m) ++ real_sha256 (m ++ pk).

(** SHA-256 and HMAC are the real ones; the others are stand-ins of the right sizes. *)
Definition demo_crypto : crypto := {|
  sha256 := real_sha256;
  sha3_256 := fun m => real_sha256 (51 :: m);
  hmac_sha256 := real_hmac_sha256;
  cmac_aes128 := fun k m => firstn 16 (real_hmac_sha256 (67 :: k) m);
  vk256 := list Z;
  vk521 := list Z;
  p256_from_sec1 := fun b => if (length b =? 33)%nat then Some b else None;
  p521_from_sec1 := fun b => if (length b =? 67)%nat then Some b else None;
  p256_sig_parses := fun s => negb (forallb (Z.eqb 0) s);
  p521_sig_parses := fun s => negb (forallb (Z.eqb 0) s);
  p256_verify := fun pk m s => bytes_eqb s (demo_sign pk m);
  p521_verify := fun pk m s => bytes_eqb s (demo_sign pk m ++ demo_sign (1 :: pk) m ++ [0; 1; 2; 3])
|}.

Lemma be_bytes_ok n v : bytes_ok n (be_bytes n v).
Proof.
  unfold be_bytes. split; [rewrite map_length, rev_length, seq_length; reflexivity|].
  apply Forall_forall. intros x Hx. apply in_map_iff in Hx. destruct Hx as (i & <- & _).
  unfold is_byte. change 255 with (Z.ones 8). rewrite Z.land_ones by discriminate.
  apply Z.mod_pos_bound. reflexivity.
Qed.

Lemma length_sha_round st kw : length st = 8%nat -> length (sha_round st kw) = 8%nat.
Proof. destruct st as [|a [|b [|c [|d [|e [|f [|g [|h [|i st]]]]]]]]]; intros H; try discriminate H; reflexivity. Qed.

Lemma length_sha_rounds kws : forall st, length st = 8%nat -> length (fold_left sha_round kws st) = 8%nat.
Proof. induction kws as [|kw kws IH]; intros st H; cbn [fold_left]; auto. apply IH, length_sha_round, H. Qed.

Lemma length_sha_blocks n : forall l st, length st = 8%nat -> length (sha_blocks n l st) = 8%nat.
Proof.
  induction n as [|n IH]; intros l st H; cbn [sha_blocks]; auto. apply IH. unfold sha_block.
  rewrite map_length, combine_length, length_sha_rounds, H by auto. reflexivity.
Qed.

Lemma real_sha256_ok m : bytes_ok 32 (real_sha256 m).
Proof.
  unfold real_sha256. set (st := sha_blocks _ _ _).
  assert (H : length st = 8%nat) by (apply length_sha_blocks; reflexivity).
  assert (G : forall l, bytes_ok (4 * length l) (flat_map (be_bytes 4) l)).
  { induction l as [|x l IH]; [split; [reflexivity|constructor]|]. cbn [flat_map length].
    destruct (be_bytes_ok 4 x) as (A & A'). destruct IH as (B & B'). split.
    - rewrite app_length, A, B. rewrite Nat.mul_succ_r. apply Nat.add_comm.
    - apply Forall_app; auto. }
  specialize (G st). rewrite H in G. exact G.
Qed.

Lemma real_hmac_ok k m : bytes_ok 32 (real_hmac_sha256 k m).
Proof. apply real_sha256_ok. Qed.

Lemma demo_crypto_ok : crypto_ok demo_crypto.
Proof.
  repeat split; intros; cbn [demo_crypto sha256 sha3_256 hmac_sha256 cmac_aes128];
    try apply real_sha256_ok; try apply real_hmac_ok.
  - rewrite firstn_length. rewrite (proj1 (real_hmac_ok _ _)). reflexivity.
  - pose proof (proj2 (real_hmac_ok (67 :: k) m)) as H. set (x := real_hmac_sha256 _ _) in *.
    rewrite Forall_forall in *. intros y Hy. apply H.
    rewrite <- (firstn_skipn 16 x). apply in_or_app. now left.
Qed.

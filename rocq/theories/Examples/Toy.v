(** Cheap stand-ins for all the cryptographic primitives.  They satisfy everything that the
    theorems assume of the primitives (sizes only), and they make long histories quick to
    compute.  Nothing about their strength is assumed or needed: examples made with them show
    that the hypotheses of a theorem can be met, or are the witness of a refutation.  The
    histories of Examples.Demo use SHA-256 and HMAC-SHA-256 instead. *)
From Coq Require Import ZArith String List Bool Lia.
From Verif Require Import Model.Prelude Model.Params Model.Gst Examples.Sha256.
Import ListNotations.
Open Scope list_scope.
Open Scope Z_scope.

Definition w64 (x : Z) : Z := Z.land x 18446744073709551615.
Definition toy_absorb (m : list Z) : Z := fold_left (fun a b => w64 (a * 65599 + b + 1)) m 77.
Definition toy_sha256 (m : list Z) : list Z :=
  let h := toy_absorb m in
  flat_map (fun c => be_bytes 8 (w64 (h * c)))
    [11400714819323198485; 14029467366897019727; 1609587929392839161; 9650029242287828579].
Definition toy_hmac (k m : list Z) : list Z := toy_sha256 (54 :: k ++ 92 :: m).
Definition toy_sign (pk m : list Z) : list Z := toy_sha256 (pk ++ m) ++ toy_sha256 (m ++ pk).

Definition toy_crypto : crypto := {|
  sha256 := toy_sha256;
  sha3_256 := fun m => toy_sha256 (51 :: m);
  hmac_sha256 := toy_hmac;
  cmac_aes128 := fun k m => firstn 16 (toy_hmac (67 :: k) m);
  vk256 := list Z;
  vk521 := list Z;
  p256_from_sec1 := fun b => if (List.length b =? 33)%nat then Some b else None;
  p521_from_sec1 := fun b => if (List.length b =? 67)%nat then Some b else None;
  p256_sig_parses := fun s => negb (forallb (Z.eqb 0) s);
  p521_sig_parses := fun s => negb (forallb (Z.eqb 0) s);
  p256_verify := fun pk m s => bytes_eqb s (toy_sign pk m);
  p521_verify := fun pk m s => bytes_eqb s (toy_sign pk m ++ toy_sign (1 :: pk) m ++ [0; 1; 2; 3])
|}.

Lemma toy_sha256_ok m : bytes_ok 32 (toy_sha256 m).
Proof.
  unfold toy_sha256. generalize (toy_absorb m). intros h. cbn [flat_map].
  repeat match goal with |- context [be_bytes 8 (w64 ?x)] => generalize (w64 x); intros ? end.
  split.
  - rewrite !app_length, !(proj1 (be_bytes_ok 8 _)). reflexivity.
  - rewrite !Forall_app. repeat split; try apply be_bytes_ok. constructor.
Qed.

Lemma toy_crypto_ok : crypto_ok toy_crypto.
Proof.
  repeat split; intros; cbn [toy_crypto sha256 sha3_256 hmac_sha256 cmac_aes128]; try apply toy_sha256_ok.
  - unfold toy_hmac. pose proof (proj2 (toy_sha256_ok (54 :: (67 :: k) ++ 92 :: m))) as H. set (x := toy_sha256 _) in *.
    rewrite Forall_forall in *. intros y Hy. apply H.
    rewrite <- (firstn_skipn 16 x). apply in_or_app. now left.
Qed.

Global Existing Instance toy_crypto.

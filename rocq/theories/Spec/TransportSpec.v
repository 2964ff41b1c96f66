(** Specification of the Galmon transport. *)
From Coq Require Import ZArith List Bool.
From Verif Require Import Model.Prelude Model.Transport.
Import ListNotations.
Open Scope Z_scope.

Section Codec.
Context {M : Type} {K : codec M}.

(** The packets that can be framed: 16 bits for the length. *)
Definition fits (p : M) : Prop := Z.of_nat (length (encode p)) < 65536.
(** The packets that can also be decoded again. *)
Definition readable (p : M) : Prop := fits p /\ decode (encode p) = Some p.

(** A packet on the wire: "bert", the length with the high byte first, the contents. *)
Definition frame (p : M) : list Z :=
  [98; 101; 114; 116] ++ [Z.of_nat (length (encode p)) / 256; Z.of_nat (length (encode p)) mod 256] ++ encode p.

(** Calls in a row, with all their results. *)
Fixpoint writes (k : sink) (ps : list M) : outcome (list (result Z io_error) * sink) :=
  match ps with
  | [] => Ok ([], k)
  | p :: ps => '(r, k) <- write_packet k p ;; '(rs, k) <- writes k ps ;; Ok (r :: rs, k)
  end.
Fixpoint reads (t : reader) (n : nat) : outcome (list (result (option M) io_error)) :=
  match n with
  | O => Ok []
  | S n => '(r, t) <- read_packet t ;; rs <- reads t n ;; Ok (r :: rs)
  end.

End Codec.

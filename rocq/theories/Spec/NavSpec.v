(** Specification of navigation data: which bits of which INAV words it is made of. *)
From Coq Require Import ZArith List Bool.
From Verif Require Import Model.Params Model.Gst Model.Nav.
Import ListNotations.
Open Scope Z_scope.

(** An INAV word: 16 bytes, sent by a satellite at a time on a band. *)
Record nword : Type := mkNWord { nw_data : list Z; nw_svn : Z; nw_gst : gst; nw_band : band }.

(** Bit number [n] of a word, most significant bit of each byte first. *)
Definition nw_bit (w : nword) (n : nat) : bool :=
  Z.testbit (nth (Nat.div n 8) (nw_data w) 0) (Z.of_nat (7 - Nat.modulo n 8)).
Definition nw_bits (w : nword) (from to : nat) : list bool :=
  map (nw_bit w) (seq from (to - from)).

(** The word type is the first six bits. *)
Definition nw_type (w : nword) : Z := nth 0 (nw_data w) 0 / 4.

(** The ICD defines the data covered by ADKD 0 and ADKD 4 as the concatenation of these bits
    [from, to) of words of these types, in this order. *)
Record field : Type := mkField { f_type : Z; f_from : nat; f_to : nat }.
Definition icd_fields (k : nav_kind) : list field :=
  match k with
  | Ced => [mkField 1 6 126; mkField 2 6 126; mkField 3 6 128; mkField 4 6 126; mkField 5 6 73]
  | Timing => [mkField 6 6 105; mkField 10 86 128]
  end.

(** Words 6 and 10 are only used from E1-B. *)
Definition carries (k : nav_kind) (f : field) (w : nword) : bool :=
  (nw_type w =? f_type f) &&
  match k, nw_band w with Timing, E5B => false | _, _ => true end.

(** The last word of a list that carries a field. *)
Definition latest (k : nav_kind) (f : field) (ws : list nword) : option nword :=
  find (carries k f) (rev ws).

(** The data given by a list of words, if all the fields have been received. *)
Fixpoint icd_data_from (k : nav_kind) (fs : list field) (ws : list nword) : option (list bool) :=
  match fs with
  | [] => Some []
  | f :: fs' => match latest k f ws, icd_data_from k fs' ws with
                | Some w, Some l => Some (nw_bits w (f_from f) (f_to f) ++ l)
                | _, _ => None
                end
  end.
Definition icd_data (k : nav_kind) (ws : list nword) : option (list bool) :=
  icd_data_from k (icd_fields k) ws.

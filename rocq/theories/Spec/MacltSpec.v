(** The MAC look-up table as printed in the OSNMA SIS ICD.

    A sequence lists the tags of a MACK message in order, starting with the
    self-authentication tag 0 (always 00S).  A tag is written as two digits of ADKD and the
    letter S (authenticates the transmitting satellite) or E (another satellite), or FLX. *)
From Coq Require Import ZArith List Bool String.
Import ListNotations.
Open Scope string_scope.

(** The two sequences (first and second half of the GST minute) of each MACLT id. *)
Definition icd_maclt : list (Z * (list string * list string)) := [
  (27%Z, (["00S"; "00E"; "00E"; "00E"; "12S"; "00E"], ["00S"; "00E"; "00E"; "04S"; "12S"; "00E"]));
  (28%Z, (["00S"; "00E"; "00E"; "00E"; "00S"; "00E"; "00E"; "12S"; "00E"; "00E"],
          ["00S"; "00E"; "00E"; "00S"; "00E"; "00E"; "04S"; "12S"; "00E"; "00E"]));
  (31%Z, (["00S"; "00E"; "00E"; "12S"; "00E"], ["00S"; "00E"; "00E"; "12S"; "04S"]));
  (33%Z, (["00S"; "00E"; "04S"; "00E"; "12S"; "00E"], ["00S"; "00E"; "00E"; "12S"; "00E"; "12E"]));
  (34%Z, (["00S"; "FLX"; "04S"; "FLX"; "12S"; "00E"], ["00S"; "FLX"; "00E"; "12S"; "00E"; "12E"]));
  (35%Z, (["00S"; "FLX"; "04S"; "FLX"; "12S"; "FLX"], ["00S"; "FLX"; "FLX"; "12S"; "FLX"; "FLX"]));
  (36%Z, (["00S"; "FLX"; "04S"; "FLX"; "12S"], ["00S"; "FLX"; "00E"; "12S"; "12E"]));
  (37%Z, (["00S"; "00E"; "04S"; "00E"; "12S"], ["00S"; "00E"; "00E"; "12S"; "12E"]));
  (38%Z, (["00S"; "FLX"; "04S"; "FLX"; "12S"], ["00S"; "FLX"; "FLX"; "12S"; "FLX"]));
  (39%Z, (["00S"; "FLX"; "04S"; "FLX"], ["00S"; "FLX"; "00E"; "12S"]));
  (40%Z, (["00S"; "00E"; "04S"; "12S"], ["00S"; "00E"; "00E"; "12E"]));
  (41%Z, (["00S"; "FLX"; "04S"; "FLX"], ["00S"; "FLX"; "FLX"; "12S"]))
].

(** The sequence of an id for a half minute: 0 for the first one, 1 for the second one. *)
Fixpoint lookup_id (id : Z) (t : list (Z * (list string * list string)))
  : option (list string * list string) :=
  match t with
  | [] => None
  | (i, s) :: t' => if Z.eq_dec i id then Some s else lookup_id id t'
  end.
Definition icd_sequence (id : Z) (half : nat) : option (list string) :=
  match lookup_id id icd_maclt, half with
  | Some (s, _), 0%nat => Some s
  | Some (_, s), 1%nat => Some s
  | _, _ => None
  end.

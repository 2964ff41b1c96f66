(** Model of [filename_to_gst] of galileo-osnma/src/bin/osnma-test-vectors-to-galmon.rs: the date in
    the name of a file of test vectors.

    The date is parsed by [NaiveDateTime::parse_from_str] of the crate chrono (0.4.43 in
    Cargo.lock), whose source is not in /repo: this is a model of what its documentation says of
    the format, simplified in that years have at most 9 digits after a sign and that only ASCII
    white space is skipped. *)
From Coq Require Import ZArith String List Bool.
From Verif Require Import Model.Prelude Model.Params Model.Gst Model.Transport Model.Apps Model.Serial Model.TestVectors.
Import ListNotations.
Open Scope list_scope.
Open Scope Z_scope.

(** ** chrono *)

(** A number of at most [n] digits: the number so far and whether there has been a digit. *)
Fixpoint scan_digits (n : nat) (acc : Z) (some : bool) (s : list Z) : option (Z * list Z) :=
  match n, s with
  | S n, c :: r =>
      if (48 <=? c) && (c <=? 57) then scan_digits n (10 * acc + (c - 48)) true r
      else if some then Some (acc, s) else None
  | _, _ => if some then Some (acc, s) else None
  end.
Fixpoint skip_space (s : list Z) : list Z :=
  match s with
  | c :: r => if is_space c then skip_space r else s
  | [] => []
  end.
(** [%d], [%H], [%M], [%S]: white space and one or two digits. *)
Definition scan_two (s : list Z) : option (Z * list Z) := scan_digits 2 0 false (skip_space s).
(** [%Y]: up to four digits, or a sign and any number of digits. *)
Definition scan_year (s : list Z) : option (Z * list Z) :=
  match skip_space s with
  | c :: r =>
      if c =? 45 then match scan_digits 9 0 false r with Some (y, r) => Some (- y, r) | None => None end
      else if c =? 43 then scan_digits 9 0 false r
      else scan_digits 4 0 false (c :: r)
  | [] => None
  end.
(** [%b]: the first three letters of the name of a month, in upper or lower case. *)
Definition lower (c : Z) : Z := if (65 <=? c) && (c <=? 90) then c + 32 else c.
Definition month_names : list (list Z) :=
  map text ["jan"; "feb"; "mar"; "apr"; "may"; "jun"; "jul"; "aug"; "sep"; "oct"; "nov"; "dec"]%string.
Definition scan_month (s : list Z) : option (Z * list Z) :=
  match position (bytes_eqb (map lower (firstn 3 s))) month_names with
  | Some i => Some (Z.of_nat i + 1, skipn 3 s)
  | None => None
  end.
(** Text of the format. *)
Fixpoint scan_text (t s : list Z) : option (list Z) :=
  match t, s with
  | [], _ => Some s
  | a :: t, b :: s => if a =? b then scan_text t s else None
  | _ :: _, [] => None
  end.

(** The calendar. *)
Definition is_leap (y : Z) : bool := (y mod 4 =? 0) && (negb (y mod 100 =? 0) || (y mod 400 =? 0)).
Definition days_in_month (y m : Z) : Z :=
  match m with
  | 2 => if is_leap y then 29 else 28
  | 4 | 6 | 9 | 11 => 30
  | _ => 31
  end.
(** Days from 1 January of the year 1, and from 1 January of the same year. *)
Definition days_before_year (y : Z) : Z := 365 * (y - 1) + (y - 1) / 4 - (y - 1) / 100 + (y - 1) / 400.
Definition days_before_month (y m : Z) : Z :=
  nth (Z.to_nat (m - 1)) [0; 31; 59; 90; 120; 151; 181; 212; 243; 273; 304; 334] 0
  + (if (3 <=? m) && is_leap y then 1 else 0).
(** [and_utc().timestamp()]: seconds since 1 January 1970.  The second 60 is a leap second and
    counts as 59. *)
Definition timestamp (y m d h mi s : Z) : Z :=
  86400 * (days_before_year y + days_before_month y m + (d - 1) - 719162) + 3600 * h + 60 * mi + Z.min s 59.

(** [NaiveDateTime::parse_from_str(filename, "%d_%b_%Y_GST_%H_%M_%S.csv")] and the [timestamp] of
    the result, osnma-test-vectors-to-galmon.rs:27-28. *)
Definition parse_date (name : list Z) : option Z :=
  let bind_ {A D} (x : option A) (f : A -> option D) := match x with Some a => f a | None => None end in
  bind_ (scan_two name) (fun '(d, r) =>
  bind_ (scan_text (text "_") r) (fun r =>
  bind_ (scan_month r) (fun '(m, r) =>
  bind_ (scan_text (text "_") r) (fun r =>
  bind_ (scan_year r) (fun '(y, r) =>
  bind_ (scan_text (text "_GST_") r) (fun r =>
  bind_ (scan_two r) (fun '(h, r) =>
  bind_ (scan_text (text "_") r) (fun r =>
  bind_ (scan_two r) (fun '(mi, r) =>
  bind_ (scan_text (text "_") r) (fun r =>
  bind_ (scan_two r) (fun '(s, r) =>
  bind_ (scan_text (text ".csv") r) (fun r =>
  match r with
  | [] => if (1 <=? d) && (d <=? days_in_month y m) && (-262143 <=? y) && (y <=? 262142) &&
             (h <=? 23) && (mi <=? 59) && (s <=? 60)
          then Some (timestamp y m d h mi s) else None
  | _ => None
  end)))))))))))).

(** [filename_to_gst], osnma-test-vectors-to-galmon.rs:26-35. *)
Definition filename_to_gst (name : list Z) : outcome (result gst unit) :=
  match parse_date name with
  | None => Ok (RErr tt)
  | Some t => g <- vectors_start t ;; Ok (ROk g)
  end.

(** [main], osnma-test-vectors-to-galmon.rs:113-150, with the name and the contents of the file. *)
Definition vectors_program {B : build} {K : codec message} (name : list Z) (file : option (list Z)) (k : sink)
  : outcome (result unit unit * sink) :=
  vectors_main (parse_date name) file k.

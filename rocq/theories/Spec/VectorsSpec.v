(** Specification of the conversion of OSNMA test vectors. *)
From Coq Require Import ZArith List Bool.
From Verif Require Import Model.Prelude Model.Params Model.Gst Model.Nav Model.Osnma Model.Apps
  Spec.TimeSpec Spec.CollectSpec Spec.SystemSpec Spec.AppsSpec.
Import ListNotations.
Open Scope Z_scope.

(** ** Pages *)

(** What is in a nominal page of 240 bits (OS SIS ICD, 4.3.2.3): the INAV word, the OSNMA data
    (the field Reserved 1), SAR data, spare bits, CRC, SSP (the field Reserved 2), and the bits
    that carry no data: the even/odd flags, page types and tails. *)
Record page : Type := mkPage {
  pg_word : list Z; pg_osnma : list Z; pg_sar : list bool; pg_spare : list bool; pg_crc : list Z; pg_ssp : Z;
  pg_even : list bool; pg_even_tail : list bool; pg_odd : list bool; pg_odd_tail : list bool }.

Definition page_ok (p : page) : Prop :=
  Forall is_byte (pg_word p) /\ length (pg_word p) = 16%nat /\
  Forall is_byte (pg_osnma p) /\ length (pg_osnma p) = 5%nat /\
  length (pg_sar p) = 22%nat /\ length (pg_spare p) = 2%nat /\
  Forall is_byte (pg_crc p) /\ length (pg_crc p) = 3%nat /\ is_byte (pg_ssp p) /\
  length (pg_even p) = 2%nat /\ length (pg_even_tail p) = 6%nat /\
  length (pg_odd p) = 2%nat /\ length (pg_odd_tail p) = 6%nat.

(** The even part has the first 112 bits of the word, the odd part has the others and all the
    rest. *)
Definition page_bits (p : page) : list bool :=
  (pg_even p ++ firstn 112 (bits_of_bytes (pg_word p)) ++ pg_even_tail p) ++
  (pg_odd p ++ skipn 112 (bits_of_bytes (pg_word p)) ++ bits_of_bytes (pg_osnma p) ++
   pg_sar p ++ pg_spare p ++ bits_of_bytes (pg_crc p) ++ bits_of_bytes [pg_ssp p] ++ pg_odd_tail p).
(** The same as 30 bytes. *)
Definition page_bytes (p : page) : list Z := bytes_of_bits (page_bits p).

(** ** The file *)

(** The file has these lines.  A line ends with LF or CR LF, or it is the last one, not
    empty. *)
Inductive lines_of : list Z -> list (list Z) -> Prop :=
| lines_none : lines_of [] []
| lines_last l : l <> [] -> ~ In 10 l -> lines_of l [l]
| lines_lf l s ls : ~ In 10 l -> (forall l', l <> l' ++ [13]) -> lines_of s ls -> lines_of (l ++ [10] ++ s) (l :: ls)
| lines_crlf l s ls : ~ In 10 l -> lines_of s ls -> lines_of (l ++ [13; 10] ++ s) (l :: ls).

(** Decimal numbers of 32 bits, possibly with a plus sign. *)
Definition number_text (s : list Z) (n : Z) : Prop :=
  exists ds, (s = ds \/ s = 43 :: ds) /\ ds <> [] /\ Forall (fun c => 48 <= c <= 57) ds /\
    n = fold_left (fun v c => 10 * v + (c - 48)) ds 0 /\ n < 2 ^ 32.

(** Bytes with two hexadecimal digits each. *)
Definition hex_char (c d : Z) : Prop :=
  (0 <= d < 10 /\ c = 48 + d) \/ (10 <= d < 16 /\ (c = 97 + (d - 10) \/ c = 65 + (d - 10))).
Inductive hex_text : list Z -> list Z -> Prop :=
| hex_none : hex_text [] []
| hex_more c1 c2 d1 d2 s l : hex_char c1 d1 -> hex_char c2 d2 -> hex_text s l ->
    hex_text (c1 :: c2 :: s) (16 * d1 + d2 :: l).

(** A satellite and its pages. *)
Definition row : Type := (Z * list page)%type.

(** A line: the number of the satellite, some field, the pages, and maybe more fields. *)
Definition line_says (line : list Z) (r : row) : Prop :=
  exists number field data rest,
    line = number ++ [44] ++ field ++ [44] ++ data ++ rest /\
    ~ In 44 number /\ ~ In 44 field /\ ~ In 44 data /\ (rest = [] \/ exists more, rest = 44 :: more) /\
    number_text number (fst r) /\ Forall page_ok (snd r) /\ hex_text data (concat (map page_bytes (snd r))).

(** The file: a header and a line for each satellite. *)
Definition file_says (file : list Z) (rows : list row) : Prop :=
  exists header lines, lines_of file (header :: lines) /\ Forall2 line_says lines rows.

(** ** What is written *)

(** The page number [n] of a satellite. *)
Definition nth_page (n : nat) (r : row) : list (nat * Z * page) :=
  match nth_error (snd r) n with Some p => [(n, fst r, p)] | None => [] end.
(** The first pages of all the satellites, then their second pages, and so on. *)
Definition longest (rows : list row) : nat := list_max (map (fun r => length (snd r)) rows).
Definition schedule (rows : list row) : list (nat * Z * page) :=
  flat_map (fun n => flat_map (nth_page n) rows) (seq 0 (longest rows)).

(** The packet for a page, [start] is the time of the first pages. *)
Definition page_time (start : Z) (x : nat * Z * page) : Z := start + 2 * Z.of_nat (fst (fst x)).
Definition page_packet (start : Z) (x : nat * Z * page) : message :=
  let '(n, svn, p) := x in
  let t := start + 2 * Z.of_nat n in
  mkMessage 0 3 0 0
    (Some (mkInav (t / 604800) (t mod 604800) 2 svn (pg_word p) (Some 1) (Some (pg_osnma p)) (Some [pg_ssp p])
       (Some (bytes_of_bits (pg_sar p ++ pg_spare p))) (Some [load_be (pg_spare p)]) (Some (pg_crc p)) (Some (pg_ssp p)))).

(** All the pages of all satellites, in the order of the file. *)
Definition all_pages (rows : list row) : list (nat * Z * page) :=
  flat_map (fun r => map (fun x => (fst x, fst r, snd x)) (combine (seq 0 (length (snd r))) (snd r))) rows.

(** What galmon-osnma has to feed to the library for a page: the word and the OSNMA data, unless
    it is a dummy page (word type 63). *)
Definition page_calls (start : Z) (x : nat * Z * page) : list op :=
  let '(n, svn, p) := x in
  let g := gst_at (start + 2 * Z.of_nat n) in
  if nth 0 (pg_word p) 0 / 4 =? 63 then []
  else [FeedInav (pg_word p) svn g E1B; FeedOsnma (pg_osnma p) svn g].

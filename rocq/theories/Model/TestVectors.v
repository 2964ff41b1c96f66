(** Model of galileo-osnma/src/bin/osnma-test-vectors-to-galmon.rs.

    The command line is left out.  The result of parsing the date in the name of the file (27) is
    a parameter here; the parsing is in FileName.v.  The errors are not told apart. *)
From Coq Require Import ZArith List Bool.
From Verif Require Import Model.Prelude Model.Params Model.Gst Model.Transport Model.Apps Model.Serial.
Import ListNotations.
Open Scope list_scope.
Open Scope Z_scope.

(** ** Text, as a list of bytes *)

(** [str::split] with a character; [field] is the field so far. *)
Fixpoint split_char (sep : Z) (field s : list Z) : list (list Z) :=
  match s with
  | [] => [field]
  | c :: s => if c =? sep then field :: split_char sep [] s else split_char sep (field ++ [c]) s
  end.

(** [str::lines]; [line] is the line so far. *)
Definition strip_cr (line : list Z) : list Z :=
  match rev line with
  | c :: r => if c =? cr then rev r else line
  | [] => []
  end.
Fixpoint str_lines (line s : list Z) : list (list Z) :=
  match s with
  | [] => match line with [] => [] | _ => [line] end
  | c :: s => if c =? lf then strip_cr line :: str_lines [] s else str_lines (line ++ [c]) s
  end.

(** ** Conversion *)

(** [filename_to_gst], osnma-test-vectors-to-galmon.rs:26-35, after the date has been parsed: [t]
    are the seconds since the start of 1970. *)
Definition vectors_start (t : Z) : outcome gst :=
  let gst_seconds := t - 935280000 in
  let wn := Z.quot gst_seconds 604800 in
  let tow := gst_seconds - wn * 604800 in
  assert_ ((0 <=? wn) && (wn <? 65536)) ;;;
  assert_ ((0 <=? tow) && (tow <? 4294967296)) ;;;
  gst_new wn tow.

Section Build.
Context {B : build}.

(** The closure that makes a message of a page of 30 bytes, 49-106.  Wherever a [BitVec] is
    turned into bytes, its length is a multiple of 8. *)
Definition page_message (svn : Z) (g : gst) (page : list Z) : message :=
  let page := bits_of_bytes page in
  let contents := bytes_of_bits (sub 2 (2 + 112) page ++ sub 122 (122 + 16) page) in
  let reserved1 := bytes_of_bits (sub (120 + 2 + 16) (120 + 2 + 16 + 40) page) in
  let reserved2 := bytes_of_bits (sub (240 - 8 - 6) (240 - 6) page) in
  let ssp := nth 0 reserved2 0 in
  let sar := bytes_of_bits (sub (120 + 2 + 16 + 40) (120 + 2 + 16 + 40 + 24) page) in
  let spare := [load_be (sub (120 + 2 + 16 + 40 + 22) (120 + 2 + 16 + 40 + 22 + 2) page)] in
  let crc := bytes_of_bits (sub (240 - 8 - 6 - 24) (240 - 8 - 6) page) in
  mkMessage 0 3 0 0
    (Some (mkInav (g_wn g) (g_tow g) 2 svn contents (Some 1) (Some reserved1) (Some reserved2) (Some sar)
             (Some spare) (Some crc) (Some ssp))).

(** [data.chunks_exact(30).map(...)], 47-108; [fuel] is the length of [data]. *)
Fixpoint pages_messages (fuel : nat) (svn : Z) (g : gst) (data : list Z) : outcome (list message) :=
  match fuel with
  | O => Ok []
  | S fuel =>
      if (length data <? 30)%nat then Ok []
      else
        g' <- add_seconds g 2 ;;
        ms <- pages_messages fuel svn g' (skipn 30 data) ;;
        Ok (page_message svn g (firstn 30 data) :: ms)
  end.

(** [csv_line_to_pages], 37-111. *)
Definition csv_line_to_pages (line : list Z) (start : gst) : outcome (result (list message) unit) :=
  match split_char 44 [] line with
  | svn :: rest =>
      match parse 4294967295 svn with
      | None => Ok (RErr tt)
      | Some svn =>
          match rest with
          | _ :: data :: _ =>
              match hex_decode data with
              | None => Ok (RErr tt)
              | Some data =>
                  if negb (length data mod 30 =? 0)%nat then Ok (RErr tt)
                  else ms <- pages_messages (length data) svn start data ;; Ok (ROk ms)
              end
          | _ => Ok (RErr tt)
          end
      end
  | [] => Ok (RErr tt)
  end.

(** The loop over the lines, 129-132. *)
Fixpoint csv_pages (lines : list (list Z)) (start : gst) : outcome (result (list (list message)) unit) :=
  match lines with
  | [] => Ok (ROk [])
  | line :: lines =>
      r <- csv_line_to_pages line start ;;
      match r with
      | RErr e => Ok (RErr e)
      | ROk ms =>
          r <- csv_pages lines start ;;
          Ok (match r with ROk l => ROk (ms :: l) | RErr e => RErr e end)
      end
  end.

Context {K : codec message}.

(** [for svn_pages in &pages], 140-145: whether the program goes on, and [has_pages]. *)
Fixpoint write_pages (page_num : nat) (pages : list (list message)) (has_pages : bool) (k : sink)
  : outcome (result bool unit * sink) :=
  match pages with
  | [] => Ok (ROk has_pages, k)
  | svn_pages :: pages =>
      match nth_error svn_pages page_num with
      | Some page =>
          '(r, k) <- write_packet k page ;;
          match r with
          | ROk _ => write_pages page_num pages true k
          | RErr _ => Ok (RErr tt, k)
          end
      | None => write_pages page_num pages has_pages k
      end
  end.

(** [while has_pages], 136-147; [fuel] is more than the number of pages of any line. *)
Fixpoint write_rounds (fuel page_num : nat) (pages : list (list message)) (k : sink) : outcome (result unit unit * sink) :=
  match fuel with
  | O => Ok (ROk tt, k)
  | S fuel =>
      '(r, k) <- write_pages page_num pages false k ;;
      match r with
      | RErr _ => Ok (RErr tt, k)
      | ROk true => write_rounds fuel (S page_num) pages k
      | ROk false => Ok (ROk tt, k)
      end
  end.

(** [main], 113-150, where [t] is the time in the name of the file and [file] what is in the
    file, if they are valid. *)
Definition vectors_main (t : option Z) (file : option (list Z)) (k : sink) : outcome (result unit unit * sink) :=
  match t with
  | None => Ok (RErr tt, k)
  | Some t =>
      start <- vectors_start t ;;
      match file with
      | None => Ok (RErr tt, k)
      | Some file =>
          match str_lines [] file with
          | [] => Ok (RErr tt, k)
          | _ :: lines =>
              r <- csv_pages lines start ;;
              match r with
              | RErr _ => Ok (RErr tt, k)
              | ROk pages => write_rounds (S (list_max (map (length (A := message)) pages))) 0 pages k
              end
          end
      end
  end.

End Build.

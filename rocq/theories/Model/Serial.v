(** Model of the serial line between galileo-osnma/src/bin/osnma-longan-nano-client.rs and the
    firmware osnma-longan-nano/src/main.rs: the lines that the client sends, what the firmware
    does with the bytes that it receives, and the two running side by side.

    Opening the port and the set-up of the board are left out; the constants with the keys are in
    Model.Config. *)
From Coq Require Import ZArith String Ascii List Bool.
From Verif Require Import Model.Prelude Model.Params Model.Gst Model.Svn Model.Merkle Model.Nav Model.Osnma Model.Transport Model.Apps.
Import ListNotations.
Open Scope list_scope.
Open Scope Z_scope.

(** ** Text *)

(** The bytes of a string literal. *)
Definition text (s : string) : list Z := map (fun c => Z.of_nat (nat_of_ascii c)) (list_ascii_of_string s).
Definition lf : Z := 10.
Definition cr : Z := 13.
Definition crlf : list Z := [cr; lf].

(** [Display] of the unsigned integer types, at most 20 digits. *)
Fixpoint digits (fuel : nat) (n : Z) : list Z :=
  match fuel with
  | O => []
  | S fuel => (if n <? 10 then [] else digits fuel (n / 10)) ++ [48 + n mod 10]
  end.
Definition decimal (n : Z) : list Z := digits 20 n.
(** [Display] of [Svn], svn.rs:82-86: two digits. *)
Definition display_svn (svn : Z) : list Z := text "E" ++ [48 + svn / 10; 48 + svn mod 10].

(** [hex::encode] *)
Definition hex_digit (d : Z) : Z := if d <? 10 then 48 + d else 87 + d.
Definition hex_encode (l : list Z) : list Z := flat_map (fun b => [hex_digit (b / 16); hex_digit (b mod 16)]) l.

(** [hex::decode_to_slice] for a text of twice the size of the slice; [None] is an error. *)
Definition hex_value (c : Z) : option Z :=
  if (48 <=? c) && (c <=? 57) then Some (c - 48)
  else if (97 <=? c) && (c <=? 102) then Some (c - 87)
  else if (65 <=? c) && (c <=? 70) then Some (c - 55)
  else None.
Fixpoint hex_decode (s : list Z) : option (list Z) :=
  match s with
  | [] => Some []
  | [_] => None
  | a :: b :: s =>
      match hex_value a, hex_value b, hex_decode s with
      | Some a, Some b, Some l => Some (16 * a + b :: l)
      | _, _, _ => None
      end
  end.

(** [str::parse] for an unsigned integer type with largest value [max]; [None] is an error. *)
Fixpoint parse_digits (max acc : Z) (s : list Z) : option Z :=
  match s with
  | [] => Some acc
  | c :: s =>
      if (48 <=? c) && (c <=? 57) then
        let acc := 10 * acc + (c - 48) in
        if acc <=? max then parse_digits max acc s else None
      else None
  end.
Definition parse (max : Z) (s : list Z) : option Z :=
  match s with
  | [] => None
  | c :: r =>
      if c =? 43 then match r with [] => None | _ => parse_digits max 0 r end
      else parse_digits max 0 s
  end.

(** [str::split_whitespace] for ASCII; [word] is the word so far. *)
Definition is_space (c : Z) : bool := ((9 <=? c) && (c <=? 13)) || (c =? 32).
Fixpoint split_words (word s : list Z) : list (list Z) :=
  match s with
  | [] => match word with [] => [] | _ => [word] end
  | c :: s =>
      if is_space c then match word with [] => split_words [] s | _ => word :: split_words [] s end
      else split_words (word ++ [c]) s
  end.

(** ** The client *)

(** [Serial::send_common], osnma-longan-nano-client.rs:44-58. *)
Definition send_common (svn : Z) (g : gst) (b : band) : list Z :=
  decimal svn ++ text " " ++ decimal (g_wn g) ++ text " " ++ decimal (g_tow g) ++ text " " ++
  (match b with E1B => text "1" | E5B => text "5" end) ++ text " ".
(** [Serial::send_inav] and [Serial::send_osnma], osnma-longan-nano-client.rs:60-76. *)
Definition send_line (data : list Z) (svn : Z) (g : gst) (b : band) : list Z :=
  send_common svn g b ++ hex_encode data ++ crlf.

Section Build.
Context {B : build}.

(** The loop body of the client, osnma-longan-nano-client.rs:87-141: the lines that it sends, each
    after having received [READY].  [usize::try_from] does not fail for a [u32].
    [osnma_data[..].try_into()] is evaluated after the first line is sent; it is here a panic
    before it. *)
Definition client_lines (a : app_vars) (m : message) : outcome (app_vars * list (list Z)) :=
  match m_gi m with
  | None => Ok (a, [])
  | Some p =>
      match p_sigid p with
      | None => Ok (a, [])
      | Some sigid =>
          '(a, time) <- accept a p ;;
          match time with
          | None => Ok (a, [])
          | Some g =>
              match band_of_sigid sigid with
              | None => Ok (a, [])
              | Some b =>
                  w0 <- index (p_contents p) 0 ;;
                  if w0 / 4 =? 63 then Ok (a, [])
                  else
                    word <- to_array 16 (p_contents p) ;;
                    match p_reserved1 p with
                    | None => Ok (a, [send_line word (p_sv p) g b])
                    | Some d =>
                        d <- to_array 5 d ;;
                        Ok (a, [send_line word (p_sv p) g b; send_line d (p_sv p) g b])
                    end
              end
          end
      end
  end.
Fixpoint client_all_lines (a : app_vars) (ms : list message) : outcome (app_vars * list (list Z)) :=
  match ms with
  | [] => Ok (a, [])
  | m :: ms =>
      '(a, l) <- client_lines a m ;;
      '(a, l') <- client_all_lines a ms ;;
      Ok (a, l ++ l')
  end.

(** ** The firmware *)

Context {C : crypto} {S : storage}.

(** One byte in [Board::rx_line], main.rs:57-72, [buf] is the part of the buffer that is filled:
    the new buffer, and whether the function returns. *)
Definition rx_byte (buf : list Z) (c : Z) : list Z * bool :=
  if c =? lf then (buf, false)
  else if c =? cr then (buf, true)
  else (buf ++ [c], (length buf + 1 =? 256)%nat).

(** [OsnmaInterface::process_line], main.rs:89-120, with what is written.  Lines with bytes of
    128 or more are simplified: they are all taken to panic, also those that are valid UTF-8. *)
Definition process_line (o : osnma) (line : list Z) : outcome (osnma * list Z) :=
  assert_ (forallb (fun c => c <? 128) line) ;;;
  let words := split_words [] line in
  w <- index words 0 ;; n <- unwrap (parse (2 ^ 32 - 1) w) ;; svn <- unwrap (svn_try_from n) ;;
  w <- index words 1 ;; wn <- unwrap (parse 65535 w) ;;
  w <- index words 2 ;; tow <- unwrap (parse (2 ^ 32 - 1) w) ;;
  w <- index words 3 ;; band_num <- unwrap (parse 255 w) ;;
  b <- (if band_num =? 1 then Ok E1B else if band_num =? 5 then Ok E5B else Panic) ;;
  g <- gst_new wn tow ;;
  data <- index words 4 ;;
  let out := display_svn svn ++ text " WN " ++ decimal wn ++ text " TOW " ++ decimal tow ++ text " E" ++
             decimal band_num ++ text "B " in
  if (length data =? 32)%nat then
    inav <- unwrap (hex_decode data) ;;
    o <- feed_inav o inav svn g b ;;
    Ok (o, out ++ text "INAV" ++ crlf)
  else if (length data =? 10)%nat then
    d <- unwrap (hex_decode data) ;;
    o <- feed_osnma o d svn g ;;
    Ok (o, out ++ text "OSNMA" ++ crlf)
  else Ok (o, out).

(** One of the two loops of [OsnmaInterface::print_auth_status], main.rs:122-154. *)
Definition print_loop (get : Z -> outcome (option nav_data)) : outcome (list Z) :=
  out <- fold_outcome (fun out svn =>
    d <- get svn ;;
    Ok (match d with
        | Some d => out ++ text " " ++ display_svn svn ++ text " TOW " ++ decimal (g_tow (nd_gst d))
        | None => out
        end)) svn_iter [] ;;
  Ok (match out with [] => text " NONE" | _ => out end).
Definition print_auth_status (o : osnma) : outcome (list Z) :=
  timing <- print_loop (get_timing_parameters o) ;;
  ced <- print_loop (get_ced_and_status o) ;;
  Ok (text "AUTH ADKD=4" ++ timing ++ crlf ++ text "AUTH ADKD=0" ++ ced ++ crlf).
(** [OsnmaInterface::ready], main.rs:156-158. *)
Definition ready : list Z := text "READY" ++ crlf.

(** The firmware while it waits for a byte in [rx_line]. *)
Record firmware : Type := mkFirmware { f_osnma : osnma; f_buf : list Z }.

(** [OsnmaInterface::spin], main.rs:160-165, seen from one byte that is received to the next: what
    is written until the firmware waits for a byte again, with [ready] of the next [spin]. *)
Definition firmware_byte (f : firmware) (c : Z) : outcome (firmware * list Z) :=
  let '(buf, done) := rx_byte (f_buf f) c in
  if done then
    '(o, out) <- process_line (f_osnma f) buf ;;
    status <- print_auth_status o ;;
    Ok (mkFirmware o [], out ++ status ++ ready)
  else Ok (mkFirmware (f_osnma f) buf, []).

(** All the bytes, with everything that is written. *)
Fixpoint firmware_bytes (f : firmware) (s : list Z) : outcome (firmware * list Z) :=
  match s with
  | [] => Ok (f, [])
  | c :: s =>
      '(f, out) <- firmware_byte f c ;;
      '(f, out') <- firmware_bytes f s ;;
      Ok (f, out ++ out')
  end.

(** ** Both together *)

(** The client waits for [READY], has read part of a line and has lines to send; or it sends
    the rest of a line, and has more lines to send; osnma-longan-nano-client.rs:34-42, 134-139. *)
Inductive client : Type :=
| Waiting (read : list Z) (lines : list (list Z))
| Sending (rest : list Z) (lines : list (list Z)).

(** The firmware is writing, or it waits for a byte, or it has panicked. *)
Inductive board : Type :=
| Writing (out : list Z) (f : firmware)
| Reading (f : firmware)
| Halted.

(** [u_down] are the bytes on the way from the client to the firmware, [u_up] in the other
    direction. *)
Record line_state : Type := mkLine { u_client : client; u_down : list Z; u_up : list Z; u_board : board }.

(** At the start, before the first [READY]. *)
Definition line_new (lines : list (list Z)) (o : osnma) : line_state :=
  mkLine (Sending [] lines) [] [] (Writing ready (mkFirmware o [])).

(** One step of one of the two, for one byte. *)
Inductive line_step : line_state -> line_state -> Prop :=
| client_wait l lines down up b :
    line_step (mkLine (Sending [] (l :: lines)) down up b) (mkLine (Waiting [] (l :: lines)) down up b)
| client_send c rest lines down up b :
    line_step (mkLine (Sending (c :: rest) lines) down up b) (mkLine (Sending rest lines) (down ++ [c]) up b)
| client_read c read lines down up b : c <> lf ->
    line_step (mkLine (Waiting read lines) down (c :: up) b) (mkLine (Waiting (read ++ [c]) lines) down up b)
| client_other read lines down up b : read ++ [lf] <> ready ->
    line_step (mkLine (Waiting read lines) down (lf :: up) b) (mkLine (Waiting [] lines) down up b)
| client_ready read l lines down up b : read ++ [lf] = ready ->
    line_step (mkLine (Waiting read (l :: lines)) down (lf :: up) b) (mkLine (Sending l lines) down up b)
| board_write c out f k down up :
    line_step (mkLine k down up (Writing (c :: out) f))
              (mkLine k down (up ++ [c]) (match out with [] => Reading f | _ => Writing out f end))
| board_read c k down up f f' out : firmware_byte f c = Ok (f', out) ->
    line_step (mkLine k (c :: down) up (Reading f))
              (mkLine k down up (match out with [] => Reading f' | _ => Writing out f' end))
| board_halt c k down up f : firmware_byte f c = Panic ->
    line_step (mkLine k (c :: down) up (Reading f)) (mkLine k down up Halted).

Inductive line_steps : line_state -> line_state -> Prop :=
| steps_none u : line_steps u u
| steps_more u v w : line_steps u v -> line_step v w -> line_steps u w.

End Build.

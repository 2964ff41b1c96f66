(** Model of the Galmon transport, galileo-osnma/src/galmon/mod.rs:20-149, and of
    galileo-osnma/src/bin/galmon-filter-inav.rs.

    The protobuf messages and their encoding (the prost crate and the generated module
    [navmon], mod.rs:8-18) are a parameter here; they are in Model.Protobuf.  Logging is left
    out. *)
From Coq Require Import ZArith List Bool.
From Verif Require Import Model.Prelude.
Import ListNotations.
Open Scope Z_scope.

(** ** Streams *)

(** The kinds of [std::io::Error] that are told apart. *)
Inductive io_error : Type := UnexpectedEof | InvalidData | OtherError.

(** A [Read]: the bytes that are still to come, and how it ends: with the end of the file or
    with an error. *)
Record source : Type := mkSource { s_bytes : list Z; s_fails : bool }.

(** [Read::read_exact] into a slice of [n] bytes: the bytes that are written into the slice,
    from its start, and whether it was filled. *)
Definition read_exact (s : source) (n : nat) : result unit io_error * list Z * source :=
  if (n <=? length (s_bytes s))%nat
  then (ROk tt, firstn n (s_bytes s), mkSource (skipn n (s_bytes s)) (s_fails s))
  else (RErr (if s_fails s then OtherError else UnexpectedEof), s_bytes s, mkSource [] (s_fails s)).

(** A [Write]: the bytes written, and how many it can still take before it fails, if it does. *)
Record sink : Type := mkSink { k_bytes : list Z; k_room : option nat }.

(** [Write::write_all]. *)
Definition write_all (k : sink) (l : list Z) : result unit io_error * sink :=
  match k_room k with
  | None => (ROk tt, mkSink (k_bytes k ++ l) None)
  | Some r => if (length l <=? r)%nat then (ROk tt, mkSink (k_bytes k ++ l) (Some (r - length l)%nat))
              else (RErr OtherError, mkSink (k_bytes k ++ firstn r l) (Some 0%nat))
  end.

(** ** The transport *)

(** [NavMonMessage::encode] and [NavMonMessage::decode].  [encoded_len] is the length of what
    [encode] writes. *)
Class codec (M : Type) : Type := { encode : M -> list Z; decode : list Z -> option M }.

(** The ASCII bytes of "bert", mod.rs:63, 121. *)
Definition magic : list Z := [98; 101; 114; 116].

Section Codec.
Context {M : Type} {K : codec M}.

(** [struct ReadTransport], mod.rs:32-35, and [ReadTransport::new], mod.rs:39-44. *)
Record reader : Type := mkReader { r_read : source; r_buffer : list Z }.
Definition reader_new (s : source) : reader := mkReader s (repeat 0 2048).

(** [BytesMut::resize] to a larger size. *)
Definition resize (l : list Z) (n : nat) : list Z := l ++ repeat 0 (n - length l).

(** [ReadTransport::read_packet], mod.rs:51-89. *)
Definition read_packet (t : reader) : outcome (result (option M) io_error * reader) :=
  _ <- slice (r_buffer t) 0 6 ;;
  let '(r, got, s) := read_exact (r_read t) 6 in
  let t := mkReader s (put 0 got (r_buffer t)) in
  match r with
  | RErr UnexpectedEof => Ok (ROk None, t)
  | RErr e => Ok (RErr e, t)
  | ROk _ =>
      m <- slice (r_buffer t) 0 4 ;;
      if negb (bytes_eqb m magic) then Ok (RErr InvalidData, t)
      else
        l <- slice (r_buffer t) 4 6 ;;
        let size := Z.to_nat (nth 0 l 0 * 256 + nth 1 l 0) in
        let buffer := if (length (r_buffer t) <? size)%nat then resize (r_buffer t) size else r_buffer t in
        _ <- slice buffer 0 size ;;
        let '(r, got, s) := read_exact (r_read t) size in
        let t := mkReader s (put 0 got buffer) in
        match r with
        | RErr e => Ok (RErr e, t)
        | ROk _ =>
            frame <- slice (r_buffer t) 0 size ;;
            match decode frame with
            | Some f => Ok (ROk (Some f), t)
            | None => Ok (RErr InvalidData, t)
            end
        end
  end.

(** [WriteTransport::write_packet], mod.rs:113-148.  The buffer is cleared before each packet
    and grows as needed, so that it is only a local variable here; [encode] cannot fail
    because a [BytesMut] has room for anything. *)
Definition write_packet (k : sink) (p : M) : outcome (result Z io_error * sink) :=
  let size := Z.of_nat (length (encode p)) in
  _ <- assert_ (size <? 65536) ;;
  let buffer := magic ++ [size / 256; size mod 256] ++ encode p in
  let '(r, k) := write_all k buffer in
  Ok (match r with ROk _ => ROk (Z.of_nat (length buffer)) | RErr e => RErr e end, k).

(** ** Programs *)

(** A loop [while let Some(packet) = read.read_packet()? { body }]: [fuel] bounds the number of
    packets; a packet takes at least 6 bytes from the stream, so that the length of the stream
    is enough.  The body changes a state; an error of it ends the program. *)
Fixpoint read_loop {T} (fuel : nat) (body : T -> M -> outcome (result unit io_error * T)) (t : reader) (x : T)
  : outcome (result unit io_error * T) :=
  match fuel with
  | O => Ok (ROk tt, x)
  | S fuel =>
      '(r, t) <- read_packet t ;;
      match r with
      | RErr e => Ok (RErr e, x)
      | ROk None => Ok (ROk tt, x)
      | ROk (Some p) =>
          '(r, x) <- body x p ;;
          match r with
          | ROk _ => read_loop fuel body t x
          | RErr e => Ok (RErr e, x)
          end
      end
  end.
Definition read_fuel (s : source) : nat := S (length (s_bytes s)).

(** [main] of galmon-filter-inav.rs:6-16; [has_inav] tells if the field [gi] is there. *)
Definition filter_main (has_inav : M -> bool) (s : source) (k : sink) : outcome (result unit io_error * sink) :=
  read_loop (read_fuel s)
    (fun k p =>
       if has_inav p then
         '(r, k) <- write_packet k p ;;
         Ok (match r with ROk _ => ROk tt | RErr e => RErr e end, k)
       else Ok (ROk tt, k))
    (reader_new s) k.

End Codec.

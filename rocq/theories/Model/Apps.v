(** Model of the programs that read a Galmon stream and feed it to the library:
    galileo-osnma/src/bin/galmon-osnma.rs, and the choice of packets of
    galileo-osnma/src/bin/osnma-longan-nano-client.rs.

    The command line and the loading of the keys are in Model.Config; the text of the log messages
    is left out.  What the log says about authenticated data is kept as a list of events. *)
From Coq Require Import ZArith List Bool.
From Verif Require Import Model.Prelude Model.Params Model.Gst Model.Svn Model.Merkle Model.Nav Model.Osnma Model.Transport.
Import ListNotations.
Open Scope Z_scope.

(** ** Messages *)

(** [GalileoInav] in the generated module [navmon] (galmon/mod.rs:8-18); the numbers are [u32]. *)
Record galileo_inav : Type := mkInav {
  p_wn : Z; p_tow : Z; p_id : Z; p_sv : Z; p_contents : list Z; p_sigid : option Z;
  p_reserved1 : option (list Z); p_reserved2 : option (list Z); p_sar : option (list Z);
  p_spare : option (list Z); p_crc : option (list Z); p_ssp : option Z }.

(** [NavMonMessage]; the parts that no modelled program looks at are left out. *)
Record message : Type := mkMessage {
  m_source_id : Z; m_type : Z; m_utc_seconds : Z; m_utc_nanoseconds : Z; m_gi : option galileo_inav }.

(** [<[u8; n]>::try_from] and [<&[u8; n]>::try_from] *)
Definition to_array (n : nat) (l : list Z) : outcome (list Z) :=
  if (length l =? n)%nat then Ok l else Panic.
(** [u16::try_from(v).unwrap()] for a [u32] *)
Definition to_u16 (v : Z) : outcome Z := if v <? 65536 then Ok v else Panic.

Section Build.
Context {B : build}.

(** ** The choice of packets *)

(** The variables [current_subframe] and [last_tow_mod_30], galmon-osnma.rs:96-97 and
    osnma-longan-nano-client.rs:84-85. *)
Record app_vars : Type := mkApp { a_current : option gst; a_last : Z }.
Definition app_new : app_vars := mkApp None 0.

(** The part of the loop that is the same in both programs, galmon-osnma.rs:100-147 and
    osnma-longan-nano-client.rs:88-121: the time of the packet, or [None] to leave it out. *)
Definition accept (a : app_vars) (p : galileo_inav) : outcome (app_vars * option gst) :=
  let tow := p_tow p mod 604800 in
  w1 <- to_u16 (p_wn p) ;;
  w2 <- to_u16 (p_tow p / 604800) ;;
  wn <- u16_arith overflow_checks (w1 + w2) ;;
  let tow := if (tow mod 30 =? 15) && (19 <=? a_last a) then tow + (29 - 15) else tow in
  let last := tow mod 30 in
  g <- gst_new wn tow ;;
  if match a_current a with Some current => gst_ltb (gst_subframe g) current | None => false end
  then Ok (mkApp (a_current a) last, None)
  else Ok (mkApp (Some (gst_subframe g)) last, Some g).

(** galmon-osnma.rs:149-156, osnma-longan-nano-client.rs:123-129. *)
Definition band_of_sigid (sigid : Z) : option band :=
  if sigid =? 1 then Some E1B else if sigid =? 5 then Some E5B else None.

(** The loop body of galmon-osnma.rs up to the calls that feed the library, 99-174: the calls.
    [osnma_data[..].try_into()] is evaluated after the call of [feed_inav]; if it panics, that
    call does not matter any more. *)
Definition galmon_calls (a : app_vars) (m : message) : outcome (app_vars * list op) :=
  match m_gi m with
  | None => Ok (a, [])
  | Some p =>
      match p_sigid p with
      | None => Ok (a, [])
      | Some sigid =>
          '(a, time) <- accept a p ;;
          match time with
          | None => Ok (a, [])
          | Some g =>
              svn <- unwrap (svn_try_from (p_sv p)) ;;
              match band_of_sigid sigid with
              | None => Ok (a, [])
              | Some b =>
                  w0 <- index (p_contents p) 0 ;;
                  if w0 / 4 =? 63 then Ok (a, [])
                  else
                    word <- to_array 16 (p_contents p) ;;
                    match p_reserved1 p with
                    | None => Ok (a, [FeedInav word svn g b])
                    | Some d =>
                        d <- to_array 5 d ;;
                        Ok (a, [FeedInav word svn g b; FeedOsnma d svn g])
                    end
              end
          end
      end
  end.

(** All the calls for a sequence of messages. *)
Fixpoint galmon_all_calls (a : app_vars) (ms : list message) : outcome (app_vars * list op) :=
  match ms with
  | [] => Ok (a, [])
  | m :: ms =>
      '(a, l) <- galmon_calls a m ;;
      '(a, l') <- galmon_all_calls a ms ;;
      Ok (a, l ++ l')
  end.

(** ** galmon-osnma *)

(** A log message "new CED and status for ... authenticated" or "new timing parameters for ...
    authenticated", galmon-osnma.rs:187-193, 206-211; the data is added. *)
Record event : Type := mkEvent { v_kind : nav_kind; v_svn : Z; v_authbits : Z; v_gst : gst; v_data : list bool }.

Context {C : crypto} {S : storage}.

(** The variables of [main], galmon-osnma.rs:81-97, and what was logged.  The arrays are kept
    as bits. *)
Record galmon : Type := mkGalmon {
  z_app : app_vars; z_osnma : osnma;
  z_ced : list (option (list bool)); z_timing : list (option (list bool));
  z_log : list event }.
Definition galmon_new (o : osnma) : galmon :=
  mkGalmon app_new o (repeat None num_svns) (repeat None num_svns) [].

(** What is logged about one kind of data of a satellite, galmon-osnma.rs:178-196 and 197-214:
    the array of what was seen last and the log. *)
Definition log_data (k : nav_kind) (size : nat) (svn : Z) (data : option nav_data)
    (t : list (option (list bool)) * list event) : outcome (list (option (list bool)) * list event) :=
  match data with
  | None => Ok t
  | Some d =>
      let '(table, log) := t in
      bits <- copy_from (repeat false size) 0 (length (nd_data d)) (nd_data d) ;;
      last <- index table (Z.to_nat svn - 1) ;;
      if match last with Some l => bits_eqb l bits | None => false end then Ok (table, log)
      else
        table <- set_index table (Z.to_nat svn - 1) (Some bits) ;;
        Ok (table, log ++ [mkEvent k svn (nd_authbits d) (nd_gst d) (nd_data d)])
  end.

(** The loop over the satellites, galmon-osnma.rs:176-215. *)
Definition log_svn (o : osnma) (z : galmon) (svn : Z) : outcome galmon :=
  ced <- get_ced_and_status o svn ;;
  '(tc, log) <- log_data Ced (69 * 8) svn ced (z_ced z, z_log z) ;;
  timing <- get_timing_parameters o svn ;;
  '(ti, log) <- log_data Timing (18 * 8) svn timing (z_timing z, log) ;;
  Ok (mkGalmon (z_app z) (z_osnma z) tc ti log).

(** The loop body, galmon-osnma.rs:99-217. *)
Definition galmon_step (z : galmon) (m : message) : outcome galmon :=
  '(a, calls) <- galmon_calls (z_app z) m ;;
  let z := mkGalmon a (z_osnma z) (z_ced z) (z_timing z) (z_log z) in
  match calls with
  | [] => Ok z
  | _ =>
      o <- run (z_osnma z) calls ;;
      fold_outcome (log_svn o) svn_iter (mkGalmon a o (z_ced z) (z_timing z) (z_log z))
  end.

(** The loop of [main], galmon-osnma.rs:99-219, on standard input. *)
Definition galmon_main {K : codec message} (o : osnma) (s : source) : outcome (result unit io_error * galmon) :=
  read_loop (read_fuel s) (fun z m => z <- galmon_step z m ;; Ok (ROk tt, z)) (reader_new s) (galmon_new o).

End Build.

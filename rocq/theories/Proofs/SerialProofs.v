(** The serial line between the client and the firmware. *)
From Coq Require Import ZArith String List Bool Lia ZifyBool ZifyNat.
From Verif Require Import Model.Prelude Model.Params Model.Gst Model.Svn Model.Merkle Model.Nav Model.Osnma Model.Transport Model.Apps Model.Serial
  Spec.TimeSpec Spec.CollectSpec Spec.NavSpec Spec.SystemSpec Spec.SerialSpec Proofs.Base.
Import ListNotations.
Open Scope list_scope.
Open Scope Z_scope.
Ltac Zify.zify_post_hook ::= Z.div_mod_to_equations.

(** ** Numbers *)

Definition is_digit (c : Z) : Prop := 48 <= c <= 57.
Lemma digits_digits fuel : forall n, Forall is_digit (digits fuel n).
Proof.
  induction fuel as [|fuel IH]; intros n; cbn [digits]; [constructor|].
  apply Forall_app. split; [|constructor; [unfold is_digit; lia|constructor]].
  destruct (n <? 10); [constructor|]. apply IH.
Qed.
Lemma parse_digits_snoc max s c : forall acc,
  parse_digits max acc (s ++ [c]) =
  match parse_digits max acc s with
  | Some a => if (48 <=? c) && (c <=? 57) then if 10 * a + (c - 48) <=? max then Some (10 * a + (c - 48)) else None else None
  | None => None
  end.
Proof.
  induction s as [|d s IH]; intros acc; cbn [app parse_digits].
  - destruct ((48 <=? c) && (c <=? 57)); reflexivity.
  - destruct ((48 <=? d) && (d <=? 57)); [|reflexivity]. destruct (10 * acc + (d - 48) <=? max); [|reflexivity]. apply IH.
Qed.
Lemma parse_digits_digits max fuel : forall n, 0 <= n <= max -> n < 10 ^ Z.of_nat fuel -> (0 < fuel)%nat ->
  parse_digits max 0 (digits fuel n) = Some n.
Proof.
  induction fuel as [|fuel IH]; intros n Hn Hlt Hf; [lia|]. cbn [digits]. rewrite parse_digits_snoc.
  assert (E : parse_digits max 0 (if n <? 10 then [] else digits fuel (n / 10)) = Some (n / 10)).
  { destruct (n <? 10) eqn:E.
    - cbn [parse_digits]. f_equal. lia.
    - rewrite Nat2Z.inj_succ, Z.pow_succ_r in Hlt by lia.
      assert (0 < fuel)%nat. { destruct fuel; [|lia]. change (10 ^ Z.of_nat 0) with 1 in Hlt. lia. }
      apply IH; lia. }
  rewrite E. destruct ((48 <=? 48 + n mod 10) && (48 + n mod 10 <=? 57)) eqn:E2; [|lia].
  destruct (10 * (n / 10) + (48 + n mod 10 - 48) <=? max) eqn:E3; [f_equal; lia|lia].
Qed.
Lemma digits_length fuel : forall n k, 0 <= n < 10 ^ Z.of_nat k -> (1 <= k)%nat -> (length (digits fuel n) <= k)%nat.
Proof.
  induction fuel as [|fuel IH]; intros n k Hn Hk; cbn [digits]; [cbn; lia|]. rewrite app_length. cbn [length].
  destruct (n <? 10) eqn:E; [cbn [length]; lia|].
  destruct k as [|k]; [lia|]. rewrite Nat2Z.inj_succ, Z.pow_succ_r in Hn by lia.
  assert (1 <= k)%nat. { destruct k; [|lia]. change (10 ^ Z.of_nat 0) with 1 in Hn. lia. }
  specialize (IH (n / 10) k). lia.
Qed.
Lemma digits_nonempty fuel n : digits (S fuel) n <> [].
Proof. cbn [digits]. destruct (if n <? 10 then [] else digits fuel (n / 10)); discriminate. Qed.
Lemma parse_decimal max n : 0 <= n <= max -> n < 2 ^ 64 -> parse max (decimal n) = Some n.
Proof.
  intros Hn Hlt. unfold parse, decimal.
  assert (Hp : parse_digits max 0 (digits 20 n) = Some n).
  { apply parse_digits_digits; [lia| |lia]. change (10 ^ Z.of_nat 20) with 100000000000000000000. lia. }
  pose proof (digits_nonempty 19 n) as He. pose proof (digits_digits 20 n) as Hd.
  destruct (digits 20 n) as [|c r]; [congruence|]. apply Forall_inv in Hd. unfold is_digit in Hd.
  replace (c =? 43) with false by lia. exact Hp.
Qed.

(** ** Hexadecimal *)

Definition is_hex (c : Z) : Prop := 48 <= c <= 57 \/ 97 <= c <= 102.
Lemma hex_digit_hex d : 0 <= d < 16 -> is_hex (hex_digit d).
Proof. unfold hex_digit, is_hex. destruct (d <? 10) eqn:E; lia. Qed.
Lemma hex_value_digit d : 0 <= d < 16 -> hex_value (hex_digit d) = Some d.
Proof.
  intros H. unfold hex_value, hex_digit. destruct (d <? 10) eqn:E.
  - destruct ((48 <=? 48 + d) && (48 + d <=? 57)) eqn:E1; [f_equal; lia|lia].
  - destruct ((48 <=? 87 + d) && (87 + d <=? 57)) eqn:E1; [lia|].
    destruct ((97 <=? 87 + d) && (87 + d <=? 102)) eqn:E2; [f_equal; lia|lia].
Qed.
Lemma hex_encode_hex l : Forall is_byte l -> Forall is_hex (hex_encode l).
Proof.
  unfold hex_encode. induction 1 as [|b l Hb _ IH]; cbn [flat_map app]; [constructor|]. unfold is_byte in Hb.
  constructor; [apply hex_digit_hex; lia|]. constructor; [apply hex_digit_hex; lia|exact IH].
Qed.
Lemma hex_decode_encode l : Forall is_byte l -> hex_decode (hex_encode l) = Some l.
Proof.
  unfold hex_encode. induction 1 as [|b l Hb _ IH]; cbn [flat_map app hex_decode]; [reflexivity|]. unfold is_byte in Hb.
  rewrite !hex_value_digit, IH by lia. do 2 f_equal. lia.
Qed.
Lemma hex_encode_length l : length (hex_encode l) = (2 * length l)%nat.
Proof. unfold hex_encode. induction l as [|b l IH]; cbn [flat_map app length]; lia. Qed.

(** ** Words *)

(** What is in the words of a line. *)
Definition plain (c : Z) : Prop := 33 <= c < 128.
Lemma split_plain s : forall w, Forall plain s -> split_words w s = match w ++ s with [] => [] | _ => [w ++ s] end.
Proof.
  induction s as [|c s IH]; intros w Hs; cbn [split_words].
  - rewrite app_nil_r. reflexivity.
  - apply Forall_cons_iff in Hs. destruct Hs as [Hc Hs]. unfold plain in Hc.
    replace (is_space c) with false by (unfold is_space; lia). rewrite (IH _ Hs), <- app_assoc. reflexivity.
Qed.
Lemma split_space s r : forall w, Forall plain s -> w ++ s <> [] -> split_words w (s ++ 32 :: r) = (w ++ s) :: split_words [] r.
Proof.
  induction s as [|c s IH]; intros w Hs Hne; cbn [app split_words].
  - rewrite app_nil_r in *. change (is_space 32) with true. cbv iota. destruct w; [congruence|reflexivity].
  - apply Forall_cons_iff in Hs. destruct Hs as [Hc Hs]. unfold plain in Hc.
    replace (is_space c) with false by (unfold is_space; lia).
    rewrite IH; [|exact Hs|destruct w; discriminate]. now rewrite <- app_assoc.
Qed.
Lemma digit_plain l : Forall is_digit l -> Forall plain l.
Proof. apply Forall_impl. unfold is_digit, plain. lia. Qed.
Lemma hex_plain l : Forall is_hex l -> Forall plain l.
Proof. apply Forall_impl. unfold is_hex, plain. lia. Qed.
Lemma decimal_plain n : Forall plain (decimal n).
Proof. now apply digit_plain, digits_digits. Qed.
Lemma decimal_nonempty n : decimal n <> [].
Proof. apply digits_nonempty. Qed.

(** The line without its end. *)
Definition band_text (b : band) : list Z := match b with E1B => text "1" | E5B => text "5" end.
Definition line_body (data : list Z) (svn : Z) (g : gst) (b : band) : list Z :=
  decimal svn ++ 32 :: decimal (g_wn g) ++ 32 :: decimal (g_tow g) ++ 32 :: band_text b ++ 32 :: hex_encode data.
Lemma send_line_body data svn g b : send_line data svn g b = line_body data svn g b ++ [cr; lf].
Proof.
  unfold send_line, send_common, line_body. change (text " ") with [32]. fold (band_text b). unfold crlf.
  rewrite <- !app_assoc. cbn [app]. rewrite <- !app_assoc. cbn [app]. rewrite <- !app_assoc. cbn [app].
  rewrite <- !app_assoc. cbn [app]. reflexivity.
Qed.
Lemma line_body_ascii data svn g b : 0 <= svn -> gst_ok g -> Forall is_byte data ->
  Forall (fun c => 32 <= c < 128) (line_body data svn g b).
Proof.
  intros Hs Hg Hd. unfold gst_ok in Hg. unfold line_body.
  assert (W : forall l, Forall plain l -> Forall (fun c => 32 <= c < 128) l) by (intros l; apply Forall_impl; unfold plain; lia).
  assert (Hb : Forall plain (band_text b)) by (destruct b; repeat constructor; vm_compute; congruence).
  assert (Hh : Forall plain (hex_encode data)) by now apply hex_plain, hex_encode_hex.
  assert (H1 : Forall plain (decimal svn)) by (apply decimal_plain).
  assert (H2 : Forall plain (decimal (g_wn g))) by (apply decimal_plain).
  assert (H3 : Forall plain (decimal (g_tow g))) by (apply decimal_plain).
  apply W in Hb, Hh, H1, H2, H3.
  repeat (rewrite Forall_app || rewrite Forall_cons_iff). repeat match goal with |- _ /\ _ => split end; assumption || lia.
Qed.
Lemma line_body_words data svn g b : 0 <= svn -> gst_ok g -> Forall is_byte data -> data <> [] ->
  split_words [] (line_body data svn g b) = [decimal svn; decimal (g_wn g); decimal (g_tow g); band_text b; hex_encode data].
Proof.
  intros Hs Hg Hd Hne. unfold gst_ok in Hg. unfold line_body.
  assert (Hb : Forall plain (band_text b)) by (destruct b; repeat constructor; vm_compute; congruence).
  rewrite split_space by (try apply decimal_nonempty; apply decimal_plain).
  rewrite split_space by (try apply decimal_nonempty; apply decimal_plain).
  rewrite split_space by (try apply decimal_nonempty; apply decimal_plain).
  rewrite split_space; [|exact Hb|destruct b; discriminate].
  rewrite split_plain by now apply hex_plain, hex_encode_hex. cbn [app].
  assert (hex_encode data <> []) by (destruct data; [congruence|discriminate]).
  destruct (hex_encode data); [congruence|reflexivity].
Qed.
Lemma line_body_length data svn g b : 0 <= svn < 2 ^ 32 -> gst_ok g -> (length data <= 16)%nat ->
  (length (line_body data svn g b) <= 58)%nat.
Proof.
  intros Hs Hg Hd. unfold gst_ok in Hg. unfold line_body.
  repeat (rewrite app_length; cbn [length]). rewrite hex_encode_length.
  assert (length (decimal svn) <= 10)%nat by (apply digits_length; [change (10 ^ Z.of_nat 10) with 10000000000; lia|lia]).
  assert (length (decimal (g_wn g)) <= 5)%nat by (apply digits_length; [change (10 ^ Z.of_nat 5) with 100000; lia|lia]).
  assert (length (decimal (g_tow g)) <= 6)%nat by (apply digits_length; [change (10 ^ Z.of_nat 6) with 1000000; lia|lia]).
  assert (length (band_text b) = 1%nat) by (destruct b; reflexivity). lia.
Qed.

Section Crypto.
Context {C : crypto} {B : build} {S : storage}.

(** ** What the firmware does with a line *)

Definition op_svn (x : op) : Z := match x with FeedInav _ svn _ _ => svn | FeedOsnma _ svn _ => svn end.
Definition op_text (x : op) (b : band) : list Z :=
  display_svn (op_svn x) ++ text " WN " ++ decimal (g_wn (op_gst x)) ++ text " TOW " ++ decimal (g_tow (op_gst x)) ++ text " E" ++
             band_text b ++ text "B " ++ (match x with FeedInav _ _ _ _ => text "INAV" | FeedOsnma _ _ _ => text "OSNMA" end) ++ crlf.
Definition op_band (x : op) (b : band) : Prop := match x with FeedInav _ _ _ b' => b' = b | FeedOsnma _ _ _ => True end.
Definition op_data (x : op) : list Z := match x with FeedInav w _ _ _ => w | FeedOsnma d _ _ => d end.
Definition op_body (x : op) (b : band) : list Z := line_body (op_data x) (op_svn x) (op_gst x) b.

Lemma band_parse b : parse 255 (band_text b) = Some (match b with E1B => 1 | E5B => 5 end).
Proof. destruct b; reflexivity. Qed.
Lemma process_line_op o x b : op_ok x -> op_band x b ->
  process_line o (op_body x b) = (o' <- step o x ;; Ok (o', op_text x b)).
Proof.
  intros Hx Hb. unfold process_line.
  assert (Hdata : Forall is_byte (op_data x) /\ op_data x <> [] /\ svn_ok (op_svn x) /\ gst_ok (op_gst x)).
  { destruct x as [w s g b'|d s g]; cbn [op_data op_svn op_gst op_ok] in *.
    - destruct Hx as ((H0 & H1) & H2 & H3). split; [exact H1|]. split; [destruct w; discriminate|]. now split.
    - destruct Hx as ((H0 & H1) & H2 & H3). split; [exact H1|]. split; [destruct d; discriminate|]. now split. }
  destruct Hdata as (Hbyte & Hne & Hsvn & Hg). unfold op_body.
  assert (Hs : 0 <= op_svn x) by (unfold svn_ok in Hsvn; lia).
  rewrite (line_body_words _ _ _ b Hs Hg Hbyte Hne).
  replace (forallb (fun c => c <? 128) (line_body (op_data x) (op_svn x) (op_gst x) b)) with true.
  2: { symmetry. apply forallb_forall. intros c Hc.
       pose proof (line_body_ascii (op_data x) (op_svn x) (op_gst x) b Hs Hg Hbyte) as Ha. rewrite Forall_forall in Ha. specialize (Ha c Hc). cbv beta in Ha. lia. }
  unfold index. cbn [assert_ bind nth_error unwrap].
  unfold svn_ok in Hsvn. unfold gst_ok in Hg.
  rewrite !parse_decimal by lia. cbn [bind unwrap]. unfold svn_try_from. change (Z.of_nat num_svns) with 36.
  replace ((1 <=? op_svn x) && (op_svn x <=? 36)) with true by lia. cbn [bind unwrap].
  rewrite band_parse. cbn [bind unwrap].
  replace (if (match b with E1B => 1 | E5B => 5 end) =? 1 then Ok E1B else if (match b with E1B => 1 | E5B => 5 end) =? 5 then Ok E5B else Panic)
    with (Ok b) by (destruct b; reflexivity). cbn [bind]. unfold gst_new, secs_in_week.
  replace (g_tow (op_gst x) <? 604800) with true by lia. cbn [assert_ bind].
  replace (mkGst (g_wn (op_gst x)) (g_tow (op_gst x))) with (op_gst x) by (destruct (op_gst x); reflexivity).
  rewrite hex_encode_length.
  assert (Et : decimal (match b with E1B => 1 | E5B => 5 end) = band_text b) by (destruct b; reflexivity). rewrite Et.
  destruct x as [w s g b'|d s g]; cbn [op_data op_svn op_gst op_ok op_band step] in *.
  - subst b'. destruct Hx as ((H1 & _) & _). rewrite H1. cbn [Nat.eqb Nat.mul Nat.add]. rewrite hex_decode_encode by assumption. cbn [bind unwrap].
    destruct (feed_inav o w s g b) as [o'|]; [|reflexivity]. cbn [bind]. unfold op_text. cbn [op_svn op_gst]. now rewrite <- !app_assoc.
  - destruct Hx as ((H1 & _) & _). rewrite H1. cbn [Nat.eqb Nat.mul Nat.add]. rewrite hex_decode_encode by assumption. cbn [bind unwrap].
    destruct (feed_osnma o d s g) as [o'|]; [|reflexivity]. cbn [bind]. unfold op_text. cbn [op_svn op_gst]. now rewrite <- !app_assoc.
Qed.

(** ** What the firmware writes *)

Lemma text_plain_lf t : forallb (fun c => negb (c =? 10)) (text t) = true -> ~ In lf (text t).
Proof. intros H Hi. rewrite forallb_forall in H. specialize (H _ Hi). discriminate H. Qed.
Lemma plain_lf l : Forall plain l -> ~ In lf l.
Proof. rewrite Forall_forall. intros H Hi. specialize (H _ Hi). unfold plain, lf in H. lia. Qed.
Lemma not_in_app {A} (x : A) l l' : ~ In x l -> ~ In x l' -> ~ In x (l ++ l').
Proof. rewrite in_app_iff. tauto. Qed.
Lemma display_svn_lf svn : 0 <= svn -> ~ In lf (display_svn svn).
Proof.
  intros H. unfold display_svn. apply not_in_app; [now apply text_plain_lf|]. unfold lf. intros [H1|[H1|[]]]; lia.
Qed.

Lemma print_loop_spec get :
  (exists out, print_loop get = Ok out /\ ~ In lf out) \/
  (print_loop get = Panic /\ exists svn, 1 <= svn <= 36 /\ get svn = Panic).
Proof.
  unfold print_loop.
  assert (Hit : forall svn, In svn svn_iter -> 1 <= svn <= 36).
  { intros svn H. unfold svn_iter in H. apply in_map_iff in H. destruct H as (k & <- & Hk). apply in_seq in Hk. change num_svns with 36%nat in Hk. lia. }
  assert (H : forall l acc, (forall svn, In svn l -> 1 <= svn <= 36) -> ~ In lf acc ->
    let r := fold_outcome (fun out svn => d <- get svn ;;
      Ok (match d with Some d => out ++ text " " ++ display_svn svn ++ text " TOW " ++ decimal (g_tow (nd_gst d)) | None => out end)) l acc in
    (exists out, r = Ok out /\ ~ In lf out) \/ (r = Panic /\ exists svn, 1 <= svn <= 36 /\ get svn = Panic)).
  { induction l as [|svn l IH]; intros acc Hl Hacc; cbv zeta; cbn [fold_outcome].
    - left. exists acc. auto.
    - pose proof (Hl svn (or_introl eq_refl)) as Hs.
      destruct (get svn) as [d|] eqn:E; cbn [bind].
      2: { right. split; [reflexivity|]. exists svn. auto. }
      apply IH; [intros s Hin; apply Hl; now right|].
      destruct d as [d|]; [|exact Hacc].
      apply not_in_app; [exact Hacc|]. apply not_in_app; [now apply text_plain_lf|]. apply not_in_app; [apply display_svn_lf; lia|].
      apply not_in_app; [now apply text_plain_lf|]. apply plain_lf, decimal_plain. }
  destruct (H svn_iter [] Hit (@in_nil _ _)) as [(out & -> & Ho)|(-> & Hp)].
  - left. cbn [bind]. eexists. split; [reflexivity|]. destruct out; [now apply text_plain_lf|exact Ho].
  - right. auto.
Qed.

(** Text that ends with the only [READY] line in it. *)
Definition other_line (l : list Z) : Prop := exists b, l = b ++ [lf] /\ ~ In lf b /\ l <> ready.
Definition until_ready (t : list Z) : Prop := exists ls, t = concat ls ++ ready /\ Forall other_line ls.

Lemma op_text_line x b : op_ok x -> other_line (op_text x b).
Proof.
  intros Hx. unfold op_text, crlf.
  assert (Hs : 0 <= op_svn x /\ gst_ok (op_gst x)).
  { destruct x as [w s g b'|d s g]; cbn [op_svn op_gst op_ok] in *; destruct Hx as (_ & H2 & H3); split; try exact H3; lia. }
  destruct Hs as (Hs & Hg). unfold gst_ok in Hg.
  exists (display_svn (op_svn x) ++ text " WN " ++ decimal (g_wn (op_gst x)) ++ text " TOW " ++ decimal (g_tow (op_gst x)) ++ text " E" ++
    band_text b ++ text "B " ++ (match x with FeedInav _ _ _ _ => text "INAV" | FeedOsnma _ _ _ => text "OSNMA" end) ++ [cr]).
  split; [rewrite <- !app_assoc; reflexivity|].
  split; [|discriminate].
  apply not_in_app; [now apply display_svn_lf|]. apply not_in_app; [now apply text_plain_lf|].
  apply not_in_app; [apply plain_lf, decimal_plain|]. apply not_in_app; [now apply text_plain_lf|].
  apply not_in_app; [apply plain_lf, decimal_plain|]. apply not_in_app; [now apply text_plain_lf|].
  apply not_in_app; [destruct b; now apply text_plain_lf|]. apply not_in_app; [now apply text_plain_lf|].
  apply not_in_app; [destruct x; now apply text_plain_lf|]. intros [H|[]]; discriminate H.
Qed.
Lemma print_auth_status_spec o :
  (exists l1 l2, print_auth_status o = Ok (l1 ++ l2) /\ other_line l1 /\ other_line l2) \/
  (print_auth_status o = Panic /\ exists k svn, 1 <= svn <= 36 /\ getter k o svn = Panic).
Proof.
  unfold print_auth_status.
  destruct (print_loop_spec (get_timing_parameters o)) as [(t & -> & Ht)|(-> & svn & Hs & Hp)].
  2: { right. split; [reflexivity|]. exists Timing, svn. auto. }
  cbn [bind].
  destruct (print_loop_spec (get_ced_and_status o)) as [(c & -> & Hc)|(-> & svn & Hs & Hp)].
  2: { right. split; [reflexivity|]. exists Ced, svn. auto. }
  cbn [bind]. left. exists (text "AUTH ADKD=4" ++ t ++ crlf), (text "AUTH ADKD=0" ++ c ++ crlf).
  split; [now rewrite <- !app_assoc|]. unfold crlf. split.
  - exists (text "AUTH ADKD=4" ++ t ++ [cr]). split; [now rewrite <- !app_assoc|]. split; [|discriminate].
    repeat apply not_in_app; try assumption; [now apply text_plain_lf|intros [H|[]]; discriminate H].
  - exists (text "AUTH ADKD=0" ++ c ++ [cr]). split; [now rewrite <- !app_assoc|]. split; [|discriminate].
    repeat apply not_in_app; try assumption; [now apply text_plain_lf|intros [H|[]]; discriminate H].
Qed.

(** ** Bytes *)

Definition ordinary (c : Z) : Prop := 32 <= c < 128.
Lemma firmware_byte_ordinary o buf c : ordinary c -> (length buf < 255)%nat ->
  firmware_byte (mkFirmware o buf) c = Ok (mkFirmware o (buf ++ [c]), []).
Proof.
  intros Hc Hl. unfold firmware_byte, rx_byte, ordinary, lf, cr in *. cbn [f_buf f_osnma].
  replace (c =? 10) with false by lia. replace (c =? 13) with false by lia.
  replace (length buf + 1 =? 256)%nat with false by lia. reflexivity.
Qed.
Lemma firmware_byte_lf f : firmware_byte f lf = Ok (f, []).
Proof. destruct f as [o buf]. reflexivity. Qed.
Lemma firmware_bytes_ordinary o s : forall buf, Forall ordinary s -> (length buf + length s < 256)%nat ->
  firmware_bytes (mkFirmware o buf) s = Ok (mkFirmware o (buf ++ s), []).
Proof.
  induction s as [|c s IH]; intros buf Hs Hl; cbn [firmware_bytes length] in *; [now rewrite app_nil_r|].
  apply Forall_cons_iff in Hs. destruct Hs as [Hc Hs]. rewrite firmware_byte_ordinary by (try assumption; lia). cbn [bind].
  rewrite IH by (try assumption; rewrite app_length; cbn [length]; lia). cbn [bind app]. now rewrite <- app_assoc.
Qed.
Lemma firmware_bytes_app s1 : forall f s2, firmware_bytes f (s1 ++ s2) =
  ('(f1, o1) <- firmware_bytes f s1 ;; '(f2, o2) <- firmware_bytes f1 s2 ;; Ok (f2, o1 ++ o2)).
Proof.
  induction s1 as [|c s1 IH]; intros f s2; cbn [app firmware_bytes bind].
  - destruct (firmware_bytes f s2) as [[? ?]|]; reflexivity.
  - destruct (firmware_byte f c) as [[f' out]|]; [|reflexivity]. cbn [bind]. rewrite IH.
    destruct (firmware_bytes f' s1) as [[f1 o1]|]; [|reflexivity]. cbn [bind].
    destruct (firmware_bytes f1 s2) as [[f2 o2]|]; [|reflexivity]. cbn [bind]. now rewrite app_assoc.
Qed.

Lemma op_body_ordinary x b : op_ok x -> Forall ordinary (op_body x b) /\ (length (op_body x b) <= 58)%nat.
Proof.
  intros Hx. unfold op_body.
  assert (H : Forall is_byte (op_data x) /\ (length (op_data x) <= 16)%nat /\ 1 <= op_svn x <= 36 /\ gst_ok (op_gst x)).
  { destruct x as [w s g b'|d s g]; cbn [op_data op_svn op_gst op_ok] in *; destruct Hx as ((H0 & H1) & H2 & H3);
      (split; [exact H1|]); (split; [lia|]); now split. }
  destruct H as (H1 & H2 & H3 & H4). split; [apply line_body_ascii; auto; lia|]. apply line_body_length; auto; lia.
Qed.
Lemma carries_body x line : carries x line -> exists b, op_band x b /\ line = op_body x b ++ [cr; lf].
Proof.
  destruct x as [w s g b|d s g]; cbn [carries].
  - intros ->. exists b. split; [reflexivity|]. apply send_line_body.
  - intros (b & ->). exists b. split; [exact I|]. apply send_line_body.
Qed.
Lemma firmware_byte_cr o x b : op_ok x -> op_band x b ->
  firmware_byte (mkFirmware o (op_body x b)) cr =
  (o' <- step o x ;; status <- print_auth_status o' ;; Ok (mkFirmware o' [], op_text x b ++ status ++ ready)).
Proof.
  intros Hx Hb. unfold firmware_byte, rx_byte. change (cr =? lf) with false. change (cr =? cr) with true. cbv iota. cbn [f_buf f_osnma].
  rewrite process_line_op by assumption. destruct (step o x) as [o'|]; reflexivity.
Qed.
Lemma firmware_line o x line : op_ok x -> carries x line -> exists out,
  firmware_bytes (mkFirmware o []) line =
  (o' <- step o x ;; status <- print_auth_status o' ;; Ok (mkFirmware o' [], out ++ status ++ ready)).
Proof.
  intros Hx Hc. destruct (carries_body x line Hc) as (b & Hb & ->). exists (op_text x b).
  destruct (op_body_ordinary x b Hx) as (Ho & Hl). rewrite firmware_bytes_app, firmware_bytes_ordinary by (cbn [length]; auto; lia).
  cbn [bind app firmware_bytes]. rewrite (firmware_byte_cr o x b Hx Hb).
  destruct (step o x) as [o'|]; [|reflexivity]. cbn [bind].
  destruct (print_auth_status o') as [t|]; [|reflexivity]. cbn [bind]. rewrite firmware_byte_lf. cbn [bind]. now rewrite !app_nil_r.
Qed.

(** ** Many lines *)

Lemma library_panics_cons o x o' calls : step o x = Ok o' -> library_panics o' calls -> library_panics o (x :: calls).
Proof.
  intros Hs (n & Hn & Hp). exists (Datatypes.S n). split; [cbn [length]; lia|]. cbn [plus firstn].
  unfold run in *. cbn [fold_outcome]. rewrite Hs. exact Hp.
Qed.
Lemma firmware_lines calls lines : Forall2 carries calls lines -> Forall op_ok calls -> forall o,
  (exists o' out, run o calls = Ok o' /\ firmware_bytes (mkFirmware o []) (concat lines) = Ok (mkFirmware o' [], out)) \/
  (firmware_bytes (mkFirmware o []) (concat lines) = Panic /\ library_panics o calls).
Proof.
  induction 1 as [|x line calls lines Hc _ IH]; intros Hops o; cbn [concat].
  - left. exists o, []. split; reflexivity.
  - apply Forall_cons_iff in Hops. destruct Hops as [Hx Hops]. rewrite firmware_bytes_app.
    destruct (firmware_line o x line Hx Hc) as (out & ->).
    destruct (step o x) as [o1|] eqn:Es; cbn [bind].
    2: { right. split; [reflexivity|]. exists 0%nat. split; [cbn [length]; lia|]. left. unfold run. cbn [plus firstn fold_outcome]. now rewrite Es. }
    destruct (print_auth_status_spec o1) as [(l1 & l2 & -> & _)|(-> & k & svn & Hsvn & Hk)]; cbn [bind].
    2: { right. split; [reflexivity|]. exists 0%nat. split; [cbn [length]; lia|]. right. exists o1, k, svn. unfold run. cbn [plus firstn fold_outcome]. rewrite Es. auto. }
    destruct (IH Hops o1) as [(o' & out' & Hr & ->)|(-> & Hp)]; cbn [bind].
    + left. eexists o', _. split; [|reflexivity]. unfold run in *. cbn [fold_outcome]. rewrite Es. exact Hr.
    + right. split; [reflexivity|]. now apply library_panics_cons with o1.
Qed.

(** A satellite that does not exist. *)
Lemma firmware_bad_svn o data svn g b : 0 <= svn < 2 ^ 32 -> ~ 1 <= svn <= 36 -> gst_ok g -> Forall is_byte data ->
  (0 < length data <= 16)%nat -> firmware_bytes (mkFirmware o []) (send_line data svn g b) = Panic.
Proof.
  intros Hs Hbad Hg Hd Hl. rewrite send_line_body, firmware_bytes_app.
  pose proof (line_body_length data svn g b Hs Hg (proj2 Hl)) as Hlen.
  rewrite firmware_bytes_ordinary; [|apply line_body_ascii; auto; lia|cbn [length]; lia]. cbn [bind app firmware_bytes].
  unfold firmware_byte at 1, rx_byte. change (cr =? lf) with false. change (cr =? cr) with true. cbv iota. cbn [f_buf f_osnma].
  assert (Hne : data <> []) by (intros ->; cbn in Hl; lia).
  unfold process_line. rewrite line_body_words by (auto; lia).
  destruct (assert_ _); [|reflexivity]. cbn [bind]. unfold index. cbn [nth_error unwrap bind].
  rewrite parse_decimal by lia. cbn [unwrap bind]. unfold svn_try_from. change (Z.of_nat num_svns) with 36.
  replace ((1 <=? svn) && (svn <=? 36)) with false by lia. reflexivity.
Qed.

(** ** The client *)

Lemma client_calls a m a' calls : galmon_calls a m = Ok (a', calls) ->
  exists lines, client_lines a m = Ok (a', lines) /\ Forall2 carries calls lines.
Proof.
  unfold galmon_calls, client_lines. intros H.
  destruct (m_gi m) as [p|]; [|exists []; split; [congruence|]; replace calls with (@nil op) by congruence; constructor].
  destruct (p_sigid p) as [sigid|]; [|exists []; split; [congruence|]; replace calls with (@nil op) by congruence; constructor].
  destruct (accept a p) as [[a1 time]|]; [|discriminate]. cbn [bind] in *.
  destruct time as [g|]; [|exists []; split; [congruence|]; replace calls with (@nil op) by congruence; constructor].
  unfold svn_try_from in H. destruct (_ && _); [|discriminate]. cbn [unwrap bind] in H.
  destruct (band_of_sigid sigid) as [b|]; [|exists []; split; [congruence|]; replace calls with (@nil op) by congruence; constructor].
  destruct (index (p_contents p) 0) as [w0|]; [|discriminate]. cbn [bind] in *.
  destruct (w0 / 4 =? 63); [exists []; split; [congruence|]; replace calls with (@nil op) by congruence; constructor|].
  destruct (to_array 16 (p_contents p)) as [word|]; [|discriminate]. cbn [bind] in *.
  destruct (p_reserved1 p) as [d|].
  - destruct (to_array 5 d) as [d'|]; [|discriminate]. cbn [bind] in *. eexists. split; [f_equal; f_equal; congruence|].
    replace calls with [FeedInav word (p_sv p) g b; FeedOsnma d' (p_sv p) g] by congruence.
    constructor; [reflexivity|]. constructor; [exists b; reflexivity|constructor].
  - eexists. split; [f_equal; f_equal; congruence|]. replace calls with [FeedInav word (p_sv p) g b] by congruence. constructor; [reflexivity|constructor].
Qed.
Lemma client_all_calls ms : forall a a' calls, galmon_all_calls a ms = Ok (a', calls) ->
  exists lines, client_all_lines a ms = Ok (a', lines) /\ Forall2 carries calls lines.
Proof.
  induction ms as [|m ms IH]; intros a a' calls H; cbn [galmon_all_calls client_all_lines] in *.
  - exists []. split; [congruence|]. replace calls with (@nil op) by congruence. constructor.
  - destruct (galmon_calls a m) as [[a1 l1]|] eqn:E1; [|discriminate]. cbn [bind] in H.
    destruct (client_calls _ _ _ _ E1) as (lines1 & -> & H1). cbn [bind].
    destruct (galmon_all_calls a1 ms) as [[a2 l2]|] eqn:E2; [|discriminate]. cbn [bind] in H.
    destruct (IH _ _ _ E2) as (lines2 & -> & H2). cbn [bind]. exists (lines1 ++ lines2). split; [congruence|].
    replace calls with (l1 ++ l2) by congruence. now apply Forall2_app.
Qed.

(** ** Both together *)

Lemma lf_split (a b r r' : list Z) : ~ In lf a -> ~ In lf b -> a ++ lf :: r = b ++ lf :: r' -> a = b /\ r = r'.
Proof.
  revert b. induction a as [|c a IH]; intros [|d b] Ha Hb E; cbn [app] in E.
  - split; congruence.
  - exfalso. apply Hb. left. congruence.
  - exfalso. apply Ha. left. congruence.
  - assert (c = d) by congruence. subst d. assert (E' : a ++ lf :: r = b ++ lf :: r') by congruence.
    destruct (IH b) as [-> ->]; auto; intros H; [apply Ha|apply Hb]; now right.
Qed.
Lemma ready_split : ready = (text "READY" ++ [cr]) ++ [lf].
Proof. reflexivity. Qed.
Lemma ready_no_lf : ~ In lf (text "READY" ++ [cr]).
Proof. apply not_in_app; [now apply text_plain_lf|intros [H|[]]; discriminate H]. Qed.

Lemma forall2_nth {A B'} (P : A -> B' -> Prop) l l' : Forall2 P l l' -> forall n x, nth_error l n = Some x ->
  exists y, nth_error l' n = Some y /\ P x y.
Proof.
  induction 1 as [|a b l l' Hab _ IH]; intros [|n] x H; cbn [nth_error] in *; try discriminate; [|now apply IH].
  exists b. split; [reflexivity|congruence].
Qed.
Lemma forall2_length {A B'} (P : A -> B' -> Prop) l l' : Forall2 P l l' -> length l' = length l.
Proof. induction 1; cbn [length]; congruence. Qed.
Lemma firstn_snoc {A} (l : list A) : forall n x, nth_error l n = Some x -> firstn (n + 1) l = firstn n l ++ [x].
Proof.
  induction l as [|y l IH]; intros [|n] x H; cbn [nth_error plus firstn app] in *; try discriminate.
  - f_equal. congruence.
  - f_equal. now apply IH.
Qed.
Lemma skipn_cons {A} (ls : list A) : forall n l rest, skipn n ls = l :: rest -> nth_error ls n = Some l /\ skipn (n + 1) ls = rest.
Proof.
  induction ls as [|y ls IH]; intros [|n] l rest H; cbn [skipn nth_error plus] in *; try discriminate; [|now apply IH].
  split; congruence.
Qed.
Lemma run_then l x o : forall o1, run o1 l = Ok o -> run o1 (l ++ [x]) = step o x.
Proof.
  unfold run. induction l as [|y l IH]; intros o1; cbn [app fold_outcome].
  - intros H. replace o1 with o by congruence. destruct (step o x); reflexivity.
  - destruct (step o1 y); [|discriminate]. apply IH.
Qed.

Section Line.
Variables (o0 : osnma) (calls : list op) (lines : list (list Z)).
Hypothesis Hcarry : Forall2 carries calls lines.
Hypothesis Hops : Forall op_ok calls.

(** A line is on its way, or being received: nothing comes back. *)
Definition phase_send (n : nat) (o : osnma) (u : line_state) : Prop :=
  exists x b buf t rest pre,
    nth_error calls n = Some x /\ op_band x b /\ op_body x b = buf ++ t /\
    (pre = [] \/ pre = [lf] /\ buf = []) /\
    (u_client u = Sending rest (skipn (n + 1) lines) \/
     u_client u = Waiting [] (skipn (n + 1) lines) /\ rest = [] /\ (n + 1 < length lines)%nat) /\
    u_down u ++ rest = pre ++ t ++ [cr; lf] /\
    u_up u = [] /\ u_board u = Reading (mkFirmware o buf).
(** The line was received; the client sends its last byte or waits. *)
Definition phase_wait (n : nat) (o : osnma) (u : line_state) : Prop :=
  exists out acc rest,
    (u_client u = Sending rest (skipn n lines) /\ acc = [] \/
     u_client u = Waiting acc (skipn n lines) /\ rest = [] /\ (n < length lines)%nat) /\
    (u_down u ++ rest = [] \/ u_down u ++ rest = [lf]) /\
    (u_board u = Writing out (mkFirmware o []) /\ out <> [] \/ u_board u = Reading (mkFirmware o []) /\ out = []) /\
    ~ In lf acc /\ until_ready (acc ++ u_up u ++ out).
Definition line_inv (u : line_state) : Prop :=
  (u_board u = Halted /\ library_panics o0 calls) \/
  exists n o, (n <= length calls)%nat /\ run o0 (firstn n calls) = Ok o /\ (phase_send n o u \/ phase_wait n o u).

Lemma line_inv_new : line_inv (line_new lines o0).
Proof.
  right. exists 0%nat, o0. split; [lia|]. split; [reflexivity|]. right. exists ready, [], [].
  unfold line_new. cbn [u_client u_down u_up u_board skipn app]. split; [left; auto|]. split; [now left|].
  split; [left; split; [reflexivity|discriminate]|]. split; [intros []|]. exists []. split; [reflexivity|constructor].
Qed.

Lemma carried n x : nth_error calls n = Some x -> op_ok x /\ exists line, nth_error lines n = Some line /\ carries x line.
Proof.
  intros H. split; [rewrite Forall_forall in Hops; apply Hops; eapply nth_error_In; eassumption|].
  exact (forall2_nth _ _ _ Hcarry n x H).
Qed.
Lemma carried_lines : length lines = length calls.
Proof. exact (forall2_length _ _ _ Hcarry). Qed.
Lemma run_firstn n x o : nth_error calls n = Some x -> run o0 (firstn n calls) = Ok o ->
  run o0 (firstn (n + 1) calls) = step o x.
Proof.
  intros Hx Hr. rewrite (firstn_snoc _ _ _ Hx). now apply run_then.
Qed.

(** The client reads the end of a line. *)
Lemma until_lf acc t : ~ In lf acc -> until_ready (acc ++ lf :: t) ->
  (acc ++ [lf] = ready /\ t = []) \/ (acc ++ [lf] <> ready /\ until_ready t).
Proof.
  intros Ha (ls & E & Hl). destruct ls as [|l ls]; cbn [concat app] in E.
  - rewrite ready_split in E. destruct (lf_split _ _ _ _ Ha ready_no_lf E) as [-> ->]. left. split; reflexivity.
  - apply Forall_cons_iff in Hl. destruct Hl as ((b & -> & Hb & Hne) & Hl). rewrite <- !app_assoc in E. cbn [app] in E.
    destruct (lf_split _ _ _ _ Ha Hb E) as [-> ->]. right. split; [exact Hne|]. exists ls. auto.
Qed.


Lemma skipn_nil n : skipn n lines = [] -> (length lines <= n)%nat.
Proof. intros H. rewrite <- (firstn_skipn n lines), H, app_nil_r. apply firstn_le_length. Qed.
Lemma board_out out f :
  (match out with [] => Reading f | _ => Writing out f end = Writing out f /\ out <> []) \/
  (match out with [] => Reading f | _ => Writing out f end = Reading f /\ out = []).
Proof. destruct out; [right; auto|left; split; [reflexivity|discriminate]]. Qed.

Lemma line_inv_step u v : line_inv u -> line_step u v -> line_inv v.
Proof.
  intros [(Hb & Hp)|(n & o & Hn & Hr & Hph)] Hs.
  { destruct Hs; cbn [u_board] in *; try discriminate Hb; left; cbn [u_board]; auto. }
  pose proof carried_lines as HL.
  destruct Hph as [(x & b & buf & t & rest & pre & Hx & Hband & Hbody & Hpre & Hcl & Hdown & Hup & Hbd)|(out & acc & rest & Hcl & Hdown & Hbd & Hacc & Hrdy)].
  - (* a line is on its way *)
    destruct (carried n x Hx) as (Hok & _). destruct (op_body_ordinary x b Hok) as (Hord & Hlen).
    assert (Hn1 : (n < length calls)%nat) by (apply nth_error_Some; congruence).
    destruct Hs as [l ls down up bd|c r ls down up bd|c rd ls down up bd Hc|rd ls down up bd Hrd|rd l ls down up bd Hrd
                   |c w f k down up|c k down up f f' w Hf|c k down up f Hf];
      cbn [u_client u_down u_up u_board] in *; try discriminate Hup; try discriminate Hbd.
    + (* client_wait *)
      destruct Hcl as [Hcl|(Hcl & _)]; [|discriminate Hcl]. assert (rest = []) by congruence. subst rest.
      assert (Hsk : skipn (n + 1) lines = l :: ls) by congruence.
      right. exists n, o. split; [lia|]. split; [exact Hr|]. left. exists x, b, buf, t, [], pre.
      cbn [u_client u_down u_up u_board]. repeat (split; [assumption|]). split; [|auto].
      right. split; [congruence|]. split; [reflexivity|].
      destruct (Nat.lt_ge_cases (n + 1) (length lines)) as [H|H]; [exact H|]. rewrite skipn_all2 in Hsk by lia. discriminate Hsk.
    + (* client_send *)
      destruct Hcl as [Hcl|(Hcl & _)]; [|discriminate Hcl]. assert (rest = c :: r) by congruence. subst rest.
      right. exists n, o. split; [lia|]. split; [exact Hr|]. left. exists x, b, buf, t, r, pre.
      cbn [u_client u_down u_up u_board]. repeat (split; [assumption|]). split; [left; congruence|].
      split; [rewrite <- app_assoc; exact Hdown|]. auto.
    + (* board_read *)
      assert (Ef : f = mkFirmware o buf) by congruence. subst f. clear Hbd.
      destruct Hpre as [->|[-> ->]]; cbn [app] in Hdown.
      * destruct t as [|d t]; cbn [app] in Hdown.
        -- (* the end of the line *)
           assert (c = cr) by congruence. subst c. assert (Hd : down ++ rest = [lf]) by congruence. clear Hdown.
           rewrite app_nil_r in Hbody. subst buf. rewrite (firmware_byte_cr o x b Hok Hband) in Hf.
           pose proof (run_firstn n x o Hx Hr) as Hr1. destruct (step o x) as [o'|]; [|discriminate Hf]. cbn [bind] in Hf.
           destruct (print_auth_status_spec o') as [(l1 & l2 & E & H1 & H2)|(E & _)]; rewrite E in Hf; [|discriminate Hf]. cbn [bind] in Hf.
           assert (f' = mkFirmware o' []) by congruence. assert (w = op_text x b ++ (l1 ++ l2) ++ ready) by congruence. clear Hf. subst f'.
           right. exists (n + 1)%nat, o'. split; [lia|]. split; [exact Hr1|]. right. exists w, [], rest.
           cbn [u_client u_down u_up u_board app].
           split. { destruct Hcl as [Hcl|(Hcl & -> & Hl)]; [left; auto|right; auto]. }
           split; [now right|]. split; [apply board_out|]. split; [intros []|].
           exists [op_text x b; l1; l2]. cbn [concat]. split; [subst w up; cbn [app]; rewrite ?app_nil_r; now rewrite <- !app_assoc|].
           repeat constructor; try assumption. now apply op_text_line.
        -- assert (c = d) by congruence. subst d. assert (Hd : down ++ rest = t ++ [cr; lf]) by congruence. clear Hdown.
           rewrite Hbody in Hord, Hlen. apply Forall_app in Hord. destruct Hord as [_ Hord]. apply Forall_cons_iff in Hord. destruct Hord as [Hc _].
           rewrite app_length in Hlen. cbn [length] in Hlen.
           rewrite firmware_byte_ordinary in Hf by (auto; lia). assert (f' = mkFirmware o (buf ++ [c])) by congruence. assert (w = []) by congruence. subst f' w.
           right. exists n, o. split; [lia|]. split; [exact Hr|]. left. exists x, b, (buf ++ [c]), t, rest, [].
           cbn [u_client u_down u_up u_board app]. repeat (split; [assumption|]). split; [rewrite <- app_assoc; exact Hbody|].
           split; [now left|]. split; [exact Hcl|]. auto.
      * assert (c = lf) by congruence. subst c. assert (Hd : down ++ rest = t ++ [cr; lf]) by congruence. clear Hdown.
        rewrite firmware_byte_lf in Hf. assert (f' = mkFirmware o []) by congruence. assert (w = []) by congruence. subst f' w.
        right. exists n, o. split; [lia|]. split; [exact Hr|]. left. exists x, b, [], t, rest, [].
        cbn [u_client u_down u_up u_board app]. repeat (split; [assumption|]). split; [now left|]. split; [exact Hcl|]. auto.
    + (* board_halt *)
      assert (Ef : f = mkFirmware o buf) by congruence. subst f. clear Hbd.
      left. cbn [u_board]. split; [reflexivity|].
      destruct Hpre as [->|[-> ->]]; cbn [app] in Hdown.
      * destruct t as [|d t]; cbn [app] in Hdown.
        -- assert (c = cr) by congruence. subst c. rewrite app_nil_r in Hbody. subst buf. rewrite (firmware_byte_cr o x b Hok Hband) in Hf.
           exists n. split; [exact Hn1|]. rewrite (run_firstn n x o Hx Hr). destruct (step o x) as [o'|]; [|now left]. cbn [bind] in Hf. right.
           destruct (print_auth_status_spec o') as [(l1 & l2 & E & _)|(_ & k' & svn & H1 & H2)]; [rewrite E in Hf; discriminate Hf|].
           exists o', k', svn. auto.
        -- exfalso. assert (c = d) by congruence. subst d.
           rewrite Hbody in Hord, Hlen. apply Forall_app in Hord. destruct Hord as [_ Hord]. apply Forall_cons_iff in Hord. destruct Hord as [Hc _].
           rewrite app_length in Hlen. cbn [length] in Hlen. rewrite firmware_byte_ordinary in Hf by (auto; lia). discriminate Hf.
      * assert (c = lf) by congruence. subst c. rewrite firmware_byte_lf in Hf. discriminate Hf.
  - (* the client waits *)
    destruct Hs as [l ls down up bd|c r ls down up bd|c rd ls down up bd Hc|rd ls down up bd Hrd|rd l ls down up bd Hrd
                   |c w f k down up|c k down up f f' w Hf|c k down up f Hf];
      cbn [u_client u_down u_up u_board] in *.
    + (* client_wait *)
      destruct Hcl as [(Hcl & ->)|(Hcl & _)]; [|discriminate Hcl]. assert (rest = []) by congruence. subst rest.
      assert (Hsk : skipn n lines = l :: ls) by congruence.
      right. exists n, o. split; [lia|]. split; [exact Hr|]. right. exists out, [], [].
      cbn [u_client u_down u_up u_board]. split; [|auto]. right. split; [congruence|]. split; [reflexivity|].
      destruct (Nat.lt_ge_cases n (length lines)) as [H|H]; [exact H|]. rewrite skipn_all2 in Hsk by lia. discriminate Hsk.
    + (* client_send *)
      destruct Hcl as [(Hcl & ->)|(Hcl & _)]; [|discriminate Hcl]. assert (rest = c :: r) by congruence. subst rest.
      right. exists n, o. split; [lia|]. split; [exact Hr|]. right. exists out, [], r.
      cbn [u_client u_down u_up u_board]. split; [left; split; [congruence|reflexivity]|].
      rewrite <- app_assoc. cbn [app]. auto.
    + (* client_read *)
      destruct Hcl as [(Hcl & _)|(Hcl & -> & Hl)]; [discriminate Hcl|]. assert (rd = acc) by congruence. subst rd.
      right. exists n, o. split; [lia|]. split; [exact Hr|]. right. exists out, (acc ++ [c]), [].
      cbn [u_client u_down u_up u_board]. split; [right; split; [congruence|auto]|]. split; [exact Hdown|]. split; [exact Hbd|].
      split; [apply not_in_app; [exact Hacc|intros [H|[]]; congruence]|]. rewrite <- app_assoc. exact Hrdy.
    + (* client_other *)
      destruct Hcl as [(Hcl & _)|(Hcl & -> & Hl)]; [discriminate Hcl|]. assert (rd = acc) by congruence. subst rd.
      destruct (until_lf acc (up ++ out) Hacc Hrdy) as [(E & _)|(_ & Hrdy')]; [congruence|].
      right. exists n, o. split; [lia|]. split; [exact Hr|]. right. exists out, [], [].
      cbn [u_client u_down u_up u_board]. split; [right; split; [congruence|auto]|]. split; [exact Hdown|]. split; [exact Hbd|].
      split; [intros []|exact Hrdy'].
    + (* client_ready *)
      destruct Hcl as [(Hcl & _)|(Hcl & -> & Hl)]; [discriminate Hcl|]. assert (rd = acc) by congruence. subst rd.
      destruct (until_lf acc (up ++ out) Hacc Hrdy) as [(_ & E)|(E & _)]; [|congruence].
      apply app_eq_nil in E. destruct E as [-> ->].
      destruct Hbd as [(_ & Hbd)|(Hbd & _)]; [congruence|].
      assert (Hsk : skipn n lines = l :: ls) by congruence. destruct (skipn_cons _ _ _ _ Hsk) as [Hnl Hsk'].
      destruct (nth_error calls n) as [x|] eqn:Hx; [|apply nth_error_None in Hx; lia].
      destruct (carried n x Hx) as (Hok & line & Hline & Hcar). assert (line = l) by congruence. subst line.
      destruct (carries_body x l Hcar) as (b & Hband & ->). rewrite app_nil_r in Hdown.
      right. exists n, o. split; [lia|]. split; [exact Hr|]. left. exists x, b, [], (op_body x b), (op_body x b ++ [cr; lf]), down.
      cbn [u_client u_down u_up u_board]. split; [exact Hx|]. split; [exact Hband|]. split; [reflexivity|].
      split; [destruct Hdown as [->| ->]; [now left|now right]|]. split; [left; congruence|]. auto.
    + (* board_write *)
      destruct Hbd as [(Hbd & Hne)|(Hbd & _)]; [|discriminate Hbd].
      assert (out = c :: w) by congruence. assert (f = mkFirmware o []) by congruence. subst out f.
      right. exists n, o. split; [lia|]. split; [exact Hr|]. right. exists w, acc, rest.
      cbn [u_client u_down u_up u_board]. split; [exact Hcl|]. split; [exact Hdown|]. split; [apply board_out|]. split; [exact Hacc|].
      rewrite <- app_assoc. exact Hrdy.
    + (* board_read *)
      destruct Hbd as [(Hbd & _)|(Hbd & ->)]; [discriminate Hbd|]. assert (f = mkFirmware o []) by congruence. subst f.
      assert (c = lf /\ down ++ rest = []).
      { cbn [app] in Hdown. destruct Hdown as [H|H]; [discriminate H|]. split; congruence. }
      destruct H as [-> Hd]. rewrite firmware_byte_lf in Hf. assert (f' = mkFirmware o []) by congruence. assert (w = []) by congruence. subst f' w.
      right. exists n, o. split; [lia|]. split; [exact Hr|]. right. exists [], acc, rest.
      cbn [u_client u_down u_up u_board]. split; [exact Hcl|]. split; [now left|]. split; [right; auto|]. auto.
    + (* board_halt *)
      exfalso. destruct Hbd as [(Hbd & _)|(Hbd & ->)]; [discriminate Hbd|]. assert (f = mkFirmware o []) by congruence. subst f.
      assert (c = lf). { cbn [app] in Hdown. destruct Hdown as [H|H]; [discriminate H|congruence]. }
      subst c. rewrite firmware_byte_lf in Hf. discriminate Hf.
Qed.

Lemma line_inv_steps u : line_steps (line_new lines o0) u -> line_inv u.
Proof. intros H. remember (line_new lines o0) as s. induction H as [|s v w _ IH Hs]; [subst; apply line_inv_new|]. now apply line_inv_step with v; [apply IH|]. Qed.

(** *** No more than one byte comes while the firmware is busy *)
Lemma line_no_overrun u : line_steps (line_new lines o0) u -> busy (u_board u) -> (length (u_down u) <= 1)%nat.
Proof.
  intros H (out & f & Hbusy). destruct (line_inv_steps u H) as [(Hb & _)|(n & o & _ & _ & Hph)]; [congruence|].
  destruct Hph as [(x & b & buf & t & rest & pre & Hx & Hband & Hbody & Hpre & Hcl & Hdown & Hup & Hbd)|(out' & acc & rest & Hcl & Hdown & _)]; [congruence|].
  destruct Hdown as [Hdown|Hdown]; apply (f_equal (@length Z)) in Hdown; rewrite app_length in Hdown; cbn [length] in Hdown; lia.
Qed.

(** *** The calls are made in order *)
Lemma line_library u o : line_steps (line_new lines o0) u -> library (u_board u) = Some o ->
  exists n, (n <= length calls)%nat /\ run o0 (firstn n calls) = Ok o.
Proof.
  intros H Ho. destruct (line_inv_steps u H) as [(Hb & _)|(n & o' & Hn & Hr & Hph)]; [rewrite Hb in Ho; discriminate Ho|].
  exists n. split; [exact Hn|]. rewrite Hr. f_equal.
  destruct Hph as [(x & b & buf & t & rest & pre & Hx & Hband & Hbody & Hpre & Hcl & Hdown & Hup & Hbd)|(out' & acc & rest & Hcl & Hdown & Hbd & _)].
  - rewrite Hbd in Ho. cbn [library f_osnma] in Ho. congruence.
  - destruct Hbd as [(Hbd & _)|(Hbd & _)]; rewrite Hbd in Ho; cbn [library f_osnma] in Ho; congruence.
Qed.

(** *** At the end *)
Lemma line_stuck u : line_steps (line_new lines o0) u -> stuck u ->
  (u_board u = Halted /\ library_panics o0 calls) \/
  exists o, run o0 calls = Ok o /\ u_client u = Sending [] [] /\ u_down u = [] /\ u_board u = Reading (mkFirmware o []).
Proof.
  intros H Hst. destruct (line_inv_steps u H) as [Hb|(n & o & Hn & Hr & Hph)]; [now left|]. right. exists o.
  pose proof carried_lines as HL. destruct u as [cl down up bd]. unfold stuck in Hst.
  destruct Hph as [(x & b & buf & t & rest & pre & Hx & Hband & Hbody & Hpre & Hcl & Hdown & Hup & Hbd)|(out & acc & rest & Hcl & Hdown & Hbd & Hacc & Hrdy)];
    cbn [u_client u_down u_up u_board] in *.
  - exfalso. destruct down as [|c down].
    + destruct Hcl as [->|(_ & -> & _)].
      * destruct rest as [|c rest]; [|eapply Hst; apply client_send].
        cbn [app] in Hdown. symmetry in Hdown. apply app_eq_nil in Hdown. destruct Hdown as [_ Hdown].
        apply app_eq_nil in Hdown. destruct Hdown as [_ Hdown]. discriminate Hdown.
      * cbn [app] in Hdown. symmetry in Hdown. apply app_eq_nil in Hdown. destruct Hdown as [_ Hdown].
        apply app_eq_nil in Hdown. destruct Hdown as [_ Hdown]. discriminate Hdown.
    + subst bd. destruct (firmware_byte (mkFirmware o buf) c) as [[f' w]|] eqn:E.
      * eapply Hst. apply board_read. exact E.
      * eapply Hst. apply board_halt. exact E.
  - destruct Hbd as [(Hbd & Hne)|(Hbd & ->)]; subst bd.
    { exfalso. destruct out as [|c out]; [congruence|]. eapply Hst. apply board_write. }
    destruct down as [|c down].
    2: { exfalso. destruct (firmware_byte (mkFirmware o []) c) as [[f' w]|] eqn:E.
         - eapply Hst. apply board_read. exact E.
         - eapply Hst. apply board_halt. exact E. }
    destruct Hcl as [(-> & ->)|(-> & -> & Hl)].
    + destruct rest as [|c rest]; [|exfalso; eapply Hst; apply client_send].
      destruct (skipn n lines) as [|l ls] eqn:Hsk; [|exfalso; eapply Hst; apply client_wait].
      apply skipn_nil in Hsk. rewrite firstn_all2 in Hr by lia. auto.
    + exfalso. destruct up as [|c up].
      * cbn [app] in Hrdy. rewrite app_nil_r in Hrdy. destruct Hrdy as (ls & E & _). apply Hacc. rewrite E, ready_split, !in_app_iff. right. right. now left.
      * destruct (Z.eq_dec c lf) as [->|Hc]; [|eapply Hst; now apply client_read].
        destruct (skipn n lines) as [|l ls] eqn:Hsk; [apply skipn_nil in Hsk; lia|].
        destruct (list_eq_dec Z.eq_dec (acc ++ [lf]) ready) as [E|E]; eapply Hst; [now apply client_ready|now apply client_other].
Qed.
End Line.

(** *** There is always an end *)

Definition client_lines_left (c : client) : list (list Z) := match c with Waiting _ l => l | Sending _ l => l end.
Definition client_rest (c : client) : list Z := match c with Waiting _ _ => [] | Sending r _ => r end.
Definition unread (u : line_state) : nat :=
  (length (concat (client_lines_left (u_client u))) + length (client_rest (u_client u)) + length (u_down u))%nat.
Definition turns (u : line_state) : nat :=
  (2 * length (client_lines_left (u_client u)) + match u_client u with Waiting _ _ => 0 | Sending _ _ => 1 end)%nat.
Definition movements (u : line_state) : nat :=
  (length (client_rest (u_client u)) + length (u_up u) + 2 * match u_board u with Writing out _ => length out | _ => 0 end)%nat.
Lemma line_step_less u v : line_step u v ->
  (unread v < unread u \/ unread v = unread u /\
   (turns v < turns u \/ turns v = turns u /\ movements v < movements u))%nat.
Proof.
  intros H. destruct H as [l ls down up bd|c r ls down up bd|c rd ls down up bd Hc|rd ls down up bd Hrd|rd l ls down up bd Hrd
                   |c w f k down up|c k down up f f' w Hf|c k down up f Hf];
    unfold unread, turns, movements; cbn [u_client u_down u_up u_board client_lines_left client_rest concat length];
    rewrite ?app_length; cbn [length]; try (destruct w; cbn [length]); lia.
Qed.
Lemma line_ends u : Acc (fun v u => line_step u v) u.
Proof.
  assert (H : forall a b c u, unread u = a -> turns u = b -> movements u = c -> Acc (fun v u => line_step u v) u).
  { induction a as [a IHa] using lt_wf_ind. induction b as [b IHb] using lt_wf_ind. induction c as [c IHc] using lt_wf_ind.
    intros u' Ha Hb Hc. constructor. intros v Hv. destruct (line_step_less _ _ Hv) as [H|(E1 & [H|(E2 & H)])].
    - apply (IHa (unread v)) with (b := turns v) (c := movements v); auto; lia.
    - apply (IHb (turns v)) with (c := movements v); auto; lia.
    - apply (IHc (movements v)); auto; lia. }
  exact (H _ _ _ u eq_refl eq_refl eq_refl).
Qed.
End Crypto.

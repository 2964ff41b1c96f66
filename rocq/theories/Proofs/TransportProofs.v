(** The Galmon transport. *)
From Coq Require Import ZArith List Bool Lia ZifyBool ZifyNat.
From Verif Require Import Model.Prelude Model.Params Model.Transport Spec.TransportSpec Proofs.Base.
Import ListNotations.
Open Scope Z_scope.

Ltac Zify.zify_post_hook ::= Z.div_mod_to_equations.

Section Codec.
Context {M : Type} {K : codec M}.

(** The buffer is large enough for the header. *)
Definition reader_ok (t : reader) : Prop := (6 <= length (r_buffer t))%nat.

Lemma reader_new_ok s : reader_ok (reader_new s).
Proof. unfold reader_ok, reader_new. cbn [r_buffer]. rewrite repeat_length. lia. Qed.

Lemma length_put {A} (src l : list A) : (length src <= length l)%nat -> length (put 0 src l) = length l.
Proof. intros H. unfold put. cbn [firstn app plus]. rewrite app_length, skipn_length. lia. Qed.

Lemma sub_put {A} (src l : list A) a b : (b <= length src)%nat -> sub a b (put 0 src l) = sub a b src.
Proof.
  intros H. unfold put, sub. cbn [firstn app plus]. rewrite skipn_app.
  rewrite firstn_app, skipn_length.
  replace (b - a - (length src - a))%nat with 0%nat by lia. rewrite firstn_O, app_nil_r. reflexivity.
Qed.

Lemma length_resize l n : length (resize l n) = Nat.max (length l) n.
Proof. unfold resize. rewrite app_length, repeat_length. lia. Qed.

(** What is read, whatever is in the stream. *)
Inductive read_spec (s : source) : result (option M) io_error -> source -> Prop :=
| rs_no_header : (length (s_bytes s) < 6)%nat ->
    read_spec s (if s_fails s then RErr OtherError else ROk None) (mkSource [] (s_fails s))
| rs_bad_magic h rest : s_bytes s = h ++ rest -> length h = 6%nat -> firstn 4 h <> [98; 101; 114; 116] ->
    read_spec s (RErr InvalidData) (mkSource rest (s_fails s))
| rs_no_body a b rest : s_bytes s = [98; 101; 114; 116; a; b] ++ rest -> Z.of_nat (length rest) < 256 * a + b ->
    read_spec s (RErr (if s_fails s then OtherError else UnexpectedEof)) (mkSource [] (s_fails s))
| rs_frame a b body rest : s_bytes s = [98; 101; 114; 116; a; b] ++ body ++ rest ->
    Z.of_nat (length body) = Z.max 0 (256 * a + b) ->
    read_spec s (match decode body with Some p => ROk (Some p) | None => RErr InvalidData end) (mkSource rest (s_fails s)).

Lemma read_packet_spec t : reader_ok t ->
  exists r t', read_packet t = Ok (r, t') /\ reader_ok t' /\ read_spec (r_read t) r (r_read t').
Proof.
  intros Hok. unfold reader_ok in *. unfold read_packet. destruct t as [s buf]. cbn [r_read r_buffer] in *.
  rewrite slice_in by lia. cbn [bind]. unfold read_exact at 1.
  destruct (6 <=? length (s_bytes s))%nat eqn:E6.
  2: { cbn [r_buffer].
       assert (Hl : (6 <= length (put 0 (s_bytes s) buf))%nat) by (rewrite ?length_put; lia).
       destruct (s_fails s) eqn:Ef.
       - exists (RErr OtherError). eexists. split; [reflexivity|]. split; [exact Hl|]. cbn [r_read].
         pose proof (rs_no_header s ltac:(lia)) as R. rewrite Ef in R. exact R.
       - exists (ROk None). eexists. split; [reflexivity|]. split; [exact Hl|]. cbn [r_read].
         pose proof (rs_no_header s ltac:(lia)) as R. rewrite Ef in R. exact R. }
  set (h := firstn 6 (s_bytes s)). assert (Hh : length h = 6%nat) by (unfold h; rewrite firstn_length; lia).
  set (rest := skipn 6 (s_bytes s)). assert (Es : s_bytes s = h ++ rest) by (unfold h, rest; now rewrite firstn_skipn).
  clearbody h rest. cbn [r_buffer r_read].
  set (buf1 := put 0 h buf). assert (Hb1 : (6 <= length buf1)%nat) by (unfold buf1; rewrite length_put; lia).
  rewrite slice_in by lia. cbn [bind]. unfold buf1 at 1. rewrite sub_put by lia.
  destruct (bytes_eqb (sub 0 4 h) magic) eqn:Em; cbn [negb].
  2: { exists (RErr InvalidData). eexists. split; [reflexivity|]. split; [exact Hb1|]. cbn [r_read].
       apply rs_bad_magic with h; auto. intros K'. change (sub 0 4 h) with (firstn 4 h) in Em. rewrite K' in Em.
       assert (bytes_eqb magic magic = true) by reflexivity. unfold magic in *. congruence. }
  apply bytes_eqb_eq in Em. rewrite slice_in by lia. cbn [bind].
  assert (Hs : sub 4 6 buf1 = sub 4 6 h) by (unfold buf1; apply sub_put; lia). rewrite Hs. clear Hs.
  assert (Hb1' := Hb1). clearbody buf1. clear Hb1. rename Hb1' into Hb1.
  destruct h as [|h0 [|h1 [|h2 [|h3 [|a [|b [|]]]]]]]; try discriminate Hh.
  unfold sub, magic in Em. cbn [firstn skipn Nat.sub] in Em. injection Em as -> -> -> ->.
  change (sub 4 6 [98; 101; 114; 116; a; b]) with [a; b]. cbn [nth].
  set (size := Z.to_nat (a * 256 + b)).
  set (buf2 := if (length buf1 <? size)%nat then resize buf1 size else buf1).
  assert (Hb2 : (6 <= length buf2)%nat /\ (size <= length buf2)%nat).
  { unfold buf2. destruct (length buf1 <? size)%nat eqn:El; [rewrite length_resize; lia|lia]. }
  clearbody buf2. rewrite slice_in by lia. cbn [bind]. unfold read_exact. cbn [s_bytes s_fails].
  destruct (size <=? length rest)%nat eqn:El.
  - cbn [r_buffer r_read]. set (body := firstn size rest).
    assert (Hbody : length body = size) by (unfold body; rewrite firstn_length; lia).
    assert (Er : rest = body ++ skipn size rest) by (unfold body; now rewrite firstn_skipn).
    clearbody body. rewrite slice_in by (rewrite ?length_put; lia). cbn [bind].
    rewrite sub_put by lia. replace (sub 0 size body) with body by (unfold sub; cbn [skipn]; rewrite Nat.sub_0_r, <- Hbody; now rewrite firstn_all).
    exists (match decode body with Some p => ROk (Some p) | None => RErr InvalidData end).
    exists (mkReader (mkSource (skipn size rest) (s_fails s)) (put 0 body buf2)). split; [destruct (decode body); reflexivity|].
    split; [cbn [r_buffer]; rewrite length_put; lia|]. cbn [r_read].
    apply rs_frame with a b; [rewrite Es; now rewrite <- Er|]. unfold size in Hbody. lia.
  - cbn [r_buffer r_read]. eexists. eexists. split; [reflexivity|]. split; [cbn [r_buffer]; rewrite length_put; lia|].
    cbn [r_read]. apply rs_no_body with a b rest; [exact Es|]. unfold size in El. lia.
Qed.

(** ** Frames *)

Lemma frame_app (p : M) : frame p = [98; 101; 114; 116; Z.of_nat (length (encode p)) / 256; Z.of_nat (length (encode p)) mod 256] ++ encode p.
Proof. reflexivity. Qed.

Lemma length_frame (p : M) : length (frame p) = (6 + length (encode p))%nat.
Proof. rewrite frame_app, app_length. reflexivity. Qed.

Lemma write_packet_fits (p : M) b : fits p ->
  write_packet (mkSink b None) p = Ok (ROk (6 + Z.of_nat (length (encode p))), mkSink (b ++ frame p) None).
Proof.
  intros H. unfold fits in H. unfold write_packet, write_all, assert_, frame, magic.
  destruct (Z.of_nat (length (encode p)) <? 65536) eqn:E; [|lia]. cbn [bind k_room k_bytes].
  do 3 f_equal. rewrite !app_length. cbn [length]. lia.
Qed.

Lemma write_packet_panics (p : M) k : write_packet k p = Panic <-> ~ fits p.
Proof.
  unfold fits, write_packet, assert_. destruct (Z.of_nat (length (encode p)) <? 65536) eqn:E; cbn [bind].
  - destruct (write_all k _). split; [discriminate|lia].
  - split; [lia|reflexivity].
Qed.

Lemma writes_frames (ps : list M) b : Forall fits ps ->
  writes (mkSink b None) ps
  = Ok (map (fun p => ROk (6 + Z.of_nat (length (encode p)))) ps, mkSink (b ++ concat (map frame ps)) None).
Proof.
  intros H. revert b. induction H as [|p ps Hp Hps IH]; intros b; cbn [writes map concat].
  - now rewrite app_nil_r.
  - rewrite write_packet_fits by exact Hp. cbn [bind]. rewrite IH. cbn [bind]. now rewrite app_assoc.
Qed.

Lemma ok_inj {A} (x y : A) : Ok x = Ok y -> x = y.
Proof. now injection 1. Qed.

Lemma app_eq_len {A} (a b c d : list A) : a ++ b = c ++ d -> length a = length c -> a = c /\ b = d.
Proof.
  revert c. induction a as [|x a IH]; intros [|y c] E L; cbn [length app] in *; try lia; [auto|].
  injection E as -> E. destruct (IH c E ltac:(lia)) as [-> ->]. auto.
Qed.

(** Reading is a function of the stream. *)
Lemma read_spec_det s r1 s1 r2 s2 : read_spec s r1 s1 -> read_spec s r2 s2 -> r1 = r2 /\ s1 = s2.
Proof.
  intros H1 H2.
  destruct H1 as [L1|h1 t1 E1 L1 N1|a1 b1 t1 E1 L1|a1 b1 y1 t1 E1 L1];
  destruct H2 as [L2|h2 t2 E2 L2 N2|a2 b2 t2 E2 L2|a2 b2 y2 t2 E2 L2];
  try (rewrite E1 in L2; rewrite ?app_length in L2; cbn [length] in L2; lia);
  try (rewrite E2 in L1; rewrite ?app_length in L1; cbn [length] in L1; lia);
  try (split; reflexivity).
  - rewrite E1 in E2. apply app_eq_len in E2; [|lia]. destruct E2 as [-> ->]. split; reflexivity.
  - rewrite E1 in E2. apply app_eq_len in E2; [|cbn [length]; lia]. destruct E2 as [-> ->]. now elim N1.
  - rewrite E1 in E2. apply app_eq_len in E2; [|cbn [length]; lia]. destruct E2 as [-> ->]. now elim N1.
  - rewrite E1 in E2. apply app_eq_len in E2; [|cbn [length]; lia]. destruct E2 as [<- _]. now elim N2.
  - rewrite E1 in E2. apply app_eq_len in E2; [|cbn [length]; lia]. destruct E2 as [E ->].
    injection E as <- <-. rewrite app_length in L1. lia.
  - rewrite E1 in E2. apply app_eq_len in E2; [|cbn [length]; lia]. destruct E2 as [<- _]. now elim N2.
  - rewrite E1 in E2. apply app_eq_len in E2; [|cbn [length]; lia]. destruct E2 as [E <-].
    injection E as <- <-. rewrite app_length in L2. lia.
  - rewrite E1 in E2. apply app_eq_len in E2; [|cbn [length]; lia]. destruct E2 as [E E'].
    injection E as <- <-. apply app_eq_len in E'; [|lia]. destruct E' as [-> ->]. split; reflexivity.
Qed.

Lemma read_packet_is t r s : reader_ok t -> read_spec (r_read t) r s ->
  exists t', read_packet t = Ok (r, t') /\ reader_ok t' /\ r_read t' = s.
Proof.
  intros Hok Hs. destruct (read_packet_spec t Hok) as (r' & t' & E & Hok' & Hs').
  destruct (read_spec_det _ _ _ _ _ Hs Hs') as [-> ->]. eauto.
Qed.

Lemma frame_read (p : M) rest b : readable p ->
  read_spec (mkSource (frame p ++ rest) b) (ROk (Some p)) (mkSource rest b).
Proof.
  intros [HF Hd]. unfold fits in HF.
  pose proof (rs_frame (mkSource (frame p ++ rest) b) (Z.of_nat (length (encode p)) / 256)
                (Z.of_nat (length (encode p)) mod 256) (encode p) rest) as R.
  rewrite Hd in R. apply R; cbn [s_bytes].
  - rewrite frame_app. now rewrite <- app_assoc.
  - lia.
Qed.

Lemma end_read s : s_bytes s = [] -> s_fails s = false -> read_spec s (ROk None) s.
Proof.
  intros E F. pose proof (rs_no_header s) as R. rewrite E, F in R. destruct s as [l f]. cbn [s_bytes s_fails] in *.
  subst. apply R. cbn [length]. lia.
Qed.

Lemma reads_end t n : reader_ok t -> r_read t = mkSource [] false -> reads t n = Ok (repeat (ROk None) n).
Proof.
  revert t. induction n as [|n IH]; intros t Hok E; cbn [reads repeat]; [reflexivity|].
  destruct (read_packet_is t (ROk None) (mkSource [] false) Hok) as (t' & Et & Hok' & E').
  { rewrite E. apply end_read; reflexivity. }
  rewrite Et. cbn [bind]. rewrite (IH _ Hok' E'). reflexivity.
Qed.

Lemma reads_frames (ps : list M) rest f t n : Forall readable ps -> reader_ok t ->
  r_read t = mkSource (concat (map frame ps) ++ rest) f ->
  exists t', reader_ok t' /\ r_read t' = mkSource rest f /\
    reads t (length ps + n) = (rs <- reads t' n ;; Ok (map (fun p => ROk (Some p)) ps ++ rs)).
Proof.
  intros HF. revert t. induction HF as [|p ps Hp Hps IH]; intros t Hok E; cbn [map concat length plus] in *.
  - exists t. split; [exact Hok|]. split; [exact E|]. cbn [app].
    destruct (reads t n); reflexivity.
  - cbn [reads]. rewrite <- app_assoc in E.
    destruct (read_packet_is t (ROk (Some p)) (mkSource (concat (map frame ps) ++ rest) f) Hok) as (t1 & Et & Hok1 & E1).
    { rewrite E. apply frame_read; assumption. }
    destruct (IH t1 Hok1 E1) as (t' & Hok' & E' & Er). exists t'. split; [exact Hok'|]. split; [exact E'|].
    rewrite Et. cbn [bind]. rewrite Er. destruct (reads t' n); reflexivity.
Qed.

Lemma round_trip (ps : list M) n b t : Forall readable ps -> reader_ok t ->
  r_read t = mkSource (concat (map frame ps)) b -> b = false ->
  reads t (length ps + n) = Ok (map (fun p => ROk (Some p)) ps ++ repeat (ROk None) n).
Proof.
  intros HF Hok E ->. rewrite <- (app_nil_r (concat _)) in E.
  destruct (reads_frames ps [] false t n HF Hok E) as (t' & Hok' & E' & ->).
  now rewrite (reads_end t' n Hok' E').
Qed.

(** ** Streams that are cut or damaged *)

Lemma cut_header (p : M) k f t : reader_ok t -> (k < 6)%nat -> r_read t = mkSource (firstn k (frame p)) f ->
  exists t', read_packet t = Ok (if f then RErr OtherError else ROk None, t').
Proof.
  intros Hok Hk E. destruct (read_packet_is t _ _ Hok (rs_no_header (r_read t) ltac:(rewrite E; cbn [s_bytes]; rewrite firstn_length; lia))) as (t' & Et & _).
  exists t'. rewrite Et, E. reflexivity.
Qed.

Lemma cut_body (p : M) k f t : reader_ok t -> fits p -> (6 <= k < length (frame p))%nat ->
  r_read t = mkSource (firstn k (frame p)) f ->
  exists t', read_packet t = Ok (RErr (if f then OtherError else UnexpectedEof), t').
Proof.
  intros Hok HF Hk E. unfold fits in HF. rewrite length_frame in Hk. destruct k as [|[|[|[|[|[|k]]]]]]; try lia.
  destruct (read_packet_is t (RErr (if f then OtherError else UnexpectedEof)) (mkSource [] f) Hok) as (t' & Et & _).
  { rewrite E. pose proof (rs_no_body (mkSource (firstn (S (S (S (S (S (S k)))))) (frame p)) f)
      (Z.of_nat (length (encode p)) / 256) (Z.of_nat (length (encode p)) mod 256) (firstn k (encode p)) eq_refl) as R.
    apply R. rewrite firstn_length. lia. }
  exists t'. exact Et.
Qed.

Lemma bad_magic h rest f t : reader_ok t -> length h = 4%nat -> h <> [98; 101; 114; 116] -> (2 <= length rest)%nat ->
  r_read t = mkSource (h ++ rest) f -> exists t', read_packet t = Ok (RErr InvalidData, t').
Proof.
  intros Hok Hh Hn Hr E. destruct rest as [|a [|b rest]]; cbn [length] in Hr; try lia.
  destruct (read_packet_is t (RErr InvalidData) (mkSource rest f) Hok) as (t' & Et & _).
  { rewrite E. apply (rs_bad_magic (mkSource (h ++ a :: b :: rest) f) (h ++ [a; b]) rest).
    - cbn [s_bytes]. now rewrite <- app_assoc.
    - rewrite app_length, Hh. reflexivity.
    - replace (firstn 4 (h ++ [a; b])) with h; [exact Hn|]. rewrite firstn_app, Hh, Nat.sub_diag, firstn_O, app_nil_r.
      symmetry. apply firstn_all2. lia. }
  exists t'. exact Et.
Qed.

Lemma bad_body a b body rest f t : reader_ok t -> 0 <= a -> 0 <= b -> Z.of_nat (length body) = 256 * a + b -> decode body = None ->
  r_read t = mkSource ([98; 101; 114; 116; a; b] ++ body ++ rest) f -> exists t', read_packet t = Ok (RErr InvalidData, t').
Proof.
  intros Hok Ha Hb Hl Hd E.
  destruct (read_packet_is t (RErr InvalidData) (mkSource rest f) Hok) as (t' & Et & _).
  { rewrite E. pose proof (rs_frame (mkSource ([98; 101; 114; 116; a; b] ++ body ++ rest) f) a b body rest eq_refl) as R.
    rewrite Hd in R. apply R. lia. }
  exists t'. exact Et.
Qed.

(** ** Programs that read until the end *)

Lemma read_loop_frames {T} (body : T -> M -> outcome (result unit io_error * T)) (g : T -> M -> T) ps f fuel t x :
  Forall readable ps -> reader_ok t -> f = false ->
  r_read t = mkSource (concat (map frame ps)) f -> (length ps < fuel)%nat ->
  (forall x p, In p ps -> body x p = Ok (ROk tt, g x p)) ->
  read_loop fuel body t x = Ok (ROk tt, fold_left g ps x).
Proof.
  intros HF Hok -> . revert fuel t x Hok. induction HF as [|p ps Hp Hps IH]; intros fuel t x Hok E Hfuel Hb;
    (destruct fuel as [|fuel]; [cbn [length] in Hfuel; lia|]); cbn [read_loop fold_left map concat] in *.
  - destruct (read_packet_is t (ROk None) (mkSource [] false) Hok) as (t' & Et & _).
    { rewrite E. apply end_read; reflexivity. }
    rewrite Et. reflexivity.
  - destruct (read_packet_is t (ROk (Some p)) (mkSource (concat (map frame ps)) false) Hok) as (t' & Et & Hok' & E').
    { rewrite E. apply frame_read; assumption. }
    rewrite Et. cbn [bind]. rewrite Hb by (left; reflexivity). cbn [bind]. apply IH; auto.
    + cbn [length] in Hfuel. lia.
    + intros. apply Hb. now right.
Qed.

Lemma frames_fuel (ps : list M) : (length ps < S (length (concat (map frame ps))))%nat.
Proof.
  induction ps as [|p ps IH]; cbn [length map concat]; [lia|]. rewrite app_length, length_frame. lia.
Qed.

(** The loop of galmon-filter-inav over good packets that are followed by anything. *)
Lemma filter_loop (has_inav : M -> bool) :
  forall l fuel t b rest f, Forall readable l -> reader_ok t -> r_read t = mkSource (concat (map frame l) ++ rest) f ->
  let body := fun (k : sink) (p : M) =>
    if has_inav p then '(r, k) <- write_packet k p ;; Ok (match r with ROk _ => ROk tt | RErr e => RErr e end, k)
    else Ok ((ROk tt : result unit io_error), k) in
  exists t', reader_ok t' /\ r_read t' = mkSource rest f /\
    read_loop (length l + fuel) body t (mkSink b None)
    = read_loop fuel body t' (mkSink (b ++ concat (map frame (filter has_inav l))) None).
Proof.
  intros l fuel t b rest f Hl. revert t b. induction Hl as [|p l Hp Hl IH]; intros t b Hok E; cbn zeta;
    cbn [length plus map concat filter app] in *.
  - exists t. rewrite app_nil_r. auto.
  - rewrite <- app_assoc in E.
    destruct (read_packet_is t (ROk (Some p)) (mkSource (concat (map frame l) ++ rest) f) Hok) as (t1 & Et & Hok1 & E1).
    { rewrite E. apply frame_read; assumption. }
    destruct (has_inav p) eqn:Ei.
    + destruct (IH t1 (b ++ frame p) Hok1 E1) as (t' & Hok' & E' & L). exists t'. split; [exact Hok'|]. split; [exact E'|].
      cbn [read_loop]. rewrite Et. cbn [bind]. rewrite Ei, write_packet_fits by exact (proj1 Hp). cbn [bind].
      cbn [map concat]. rewrite app_assoc. exact L.
    + destruct (IH t1 b Hok1 E1) as (t' & Hok' & E' & L). exists t'. split; [exact Hok'|]. split; [exact E'|].
      cbn [read_loop]. rewrite Et. cbn [bind]. rewrite Ei. cbn [bind]. exact L.
Qed.

Lemma read_loop_fuel (ps : list M) rest f : exists n,
  read_fuel (mkSource (concat (map frame ps) ++ rest) f) = (length ps + S n)%nat.
Proof.
  pose proof (frames_fuel ps) as H. unfold read_fuel. cbn [s_bytes]. rewrite app_length.
  exists (length (concat (map frame ps)) + length rest - length ps)%nat. lia.
Qed.

Lemma filter_frames has_inav (ps : list M) b : Forall readable ps ->
  filter_main has_inav (mkSource (concat (map frame ps)) false) (mkSink b None)
  = Ok (ROk tt, mkSink (b ++ concat (map frame (filter has_inav ps))) None).
Proof.
  intros HF. rewrite <- (app_nil_r (concat (map frame ps))). unfold filter_main.
  destruct (read_loop_fuel ps [] false) as [n ->].
  destruct (filter_loop has_inav ps (S n) (reader_new (mkSource (concat (map frame ps) ++ []) false)) b [] false HF (reader_new_ok _) eq_refl) as (t & Hok & E & ->).
  cbn [read_loop]. destruct (read_packet_is t (ROk None) (mkSource [] false) Hok) as (t' & Et & _).
  { rewrite E. apply end_read; reflexivity. }
  rewrite Et. reflexivity.
Qed.

Lemma filter_error has_inav (ps : list M) bad fails e t : Forall readable ps ->
  read_packet (M := M) (reader_new (mkSource bad fails)) = Ok (RErr e, t) ->
  filter_main has_inav (mkSource (concat (map frame ps) ++ bad) fails) (mkSink [] None)
  = Ok (RErr e, mkSink (concat (map frame (filter has_inav ps))) None).
Proof.
  intros HF Hb. unfold filter_main. destruct (read_loop_fuel ps bad fails) as [n ->].
  destruct (filter_loop has_inav ps (S n) (reader_new (mkSource (concat (map frame ps) ++ bad) fails)) [] bad fails HF (reader_new_ok _) eq_refl) as (t1 & Hok & E & ->).
  destruct (read_packet_spec _ (reader_new_ok (mkSource bad fails))) as (r & t2 & E2 & _ & S2).
  rewrite Hb in E2. apply ok_inj in E2. apply pair_equal_spec in E2. destruct E2 as [<- <-].
  destruct (read_packet_is t1 (RErr e) (r_read t) Hok) as (t' & Et & _).
  { rewrite E. exact S2. }
  cbn [read_loop]. rewrite Et. reflexivity.
Qed.

(** A sink with room for [r] bytes. *)
Lemma write_packet_room (p : M) b r : fits p ->
  write_packet (mkSink b (Some r)) p
  = Ok (if (length (frame p) <=? r)%nat
        then (ROk (6 + Z.of_nat (length (encode p))), mkSink (b ++ frame p) (Some (r - length (frame p))%nat))
        else (RErr OtherError, mkSink (b ++ firstn r (frame p)) (Some 0%nat))).
Proof.
  intros H. pose proof (length_frame p) as HL. unfold fits in H. unfold write_packet, write_all, assert_.
  replace (Z.of_nat (length (encode p)) <? 65536) with true by (symmetry; apply Z.ltb_lt; lia).
  cbn [bind k_room k_bytes].
  change (magic ++ [Z.of_nat (length (encode p)) / 256; Z.of_nat (length (encode p)) mod 256] ++ encode p) with (frame p).
  rewrite HL. destruct (6 + length (encode p) <=? r)%nat; [|reflexivity].
  do 3 f_equal. lia.
Qed.

Lemma filter_loop_full (has_inav : M -> bool) :
  forall l fuel t b rest f r, Forall readable l -> reader_ok t -> r_read t = mkSource (concat (map frame l) ++ rest) f ->
  let body := fun (k : sink) (p : M) =>
    if has_inav p then '(r, k) <- write_packet k p ;; Ok (match r with ROk _ => ROk tt | RErr e => RErr e end, k)
    else Ok ((ROk tt : result unit io_error), k) in
  let out := concat (map frame (filter has_inav l)) in
  (r < length out)%nat ->
  read_loop (length l + fuel) body t (mkSink b (Some r)) = Ok (RErr OtherError, mkSink (b ++ firstn r out) (Some 0%nat)).
Proof.
  intros l fuel t b rest f r Hl. revert t b r. induction Hl as [|p l Hp Hl IH]; intros t b r Hok E; cbn zeta;
    cbn [length plus map concat filter] in *; intros Hr.
  - cbn [length] in Hr. lia.
  - rewrite <- app_assoc in E.
    destruct (read_packet_is t (ROk (Some p)) (mkSource (concat (map frame l) ++ rest) f) Hok) as (t1 & Et & Hok1 & E1).
    { rewrite E. apply frame_read; assumption. }
    cbn [read_loop]. rewrite Et. cbn [bind]. destruct (has_inav p) eqn:Hi.
    + rewrite (write_packet_room p b r (proj1 Hp)). cbn [map concat bind] in *.
      rewrite app_length in Hr. rewrite firstn_app.
      destruct (Nat.leb_spec (length (frame p)) r) as [Hle|Hgt]; cbn [bind].
      * rewrite (firstn_all2 (frame p)) by lia. rewrite app_assoc. apply (IH t1 (b ++ frame p) _ Hok1 E1). lia.
      * replace (r - length (frame p))%nat with 0%nat by lia. cbn [firstn]. rewrite app_nil_r. reflexivity.
    + cbn [bind]. apply (IH t1 b r Hok1 E1 Hr).
Qed.

Lemma filter_full has_inav (ps : list M) rest fails n : Forall readable ps ->
  (n < length (concat (map frame (filter has_inav ps))))%nat ->
  filter_main has_inav (mkSource (concat (map frame ps) ++ rest) fails) (mkSink [] (Some n))
  = Ok (RErr OtherError, mkSink (firstn n (concat (map frame (filter has_inav ps)))) (Some 0%nat)).
Proof.
  intros HF Hn. unfold filter_main. destruct (read_loop_fuel ps rest fails) as [k ->].
  exact (filter_loop_full has_inav ps (S k) _ [] rest fails n HF (reader_new_ok _) eq_refl Hn).
Qed.

(** A program whose loop body has no input or output, on good packets followed by anything. *)
Lemma loop_fold {T} (f : T -> M -> outcome T) :
  forall l fuel t x rest fl, Forall readable l -> reader_ok t -> r_read t = mkSource (concat (map frame l) ++ rest) fl ->
  let body := fun (x : T) (p : M) => x <- f x p ;; Ok ((ROk tt : result unit io_error), x) in
  exists t', reader_ok t' /\ r_read t' = mkSource rest fl /\
    read_loop (length l + fuel) body t x = (x' <- fold_outcome f l x ;; read_loop fuel body t' x').
Proof.
  intros l fuel t x rest fl Hl. revert t x. induction Hl as [|p l Hp Hl IH]; intros t x Hok E; cbn zeta;
    cbn [length plus map concat app fold_outcome] in *.
  - exists t. auto.
  - rewrite <- app_assoc in E.
    destruct (read_packet_is t (ROk (Some p)) (mkSource (concat (map frame l) ++ rest) fl) Hok) as (t1 & Et & Hok1 & E1).
    { rewrite E. apply frame_read; assumption. }
    destruct (f x p) as [x1|] eqn:Ef.
    + destruct (IH t1 x1 Hok1 E1) as (t' & Hok' & E' & L). exists t'. split; [exact Hok'|]. split; [exact E'|].
      cbn [read_loop]. rewrite Et. cbn [bind]. rewrite Ef. cbn [bind]. exact L.
    + destruct (IH t1 x Hok1 E1) as (t' & Hok' & E' & _). exists t'. split; [exact Hok'|]. split; [exact E'|].
      cbn [read_loop]. rewrite Et. cbn [bind]. rewrite Ef. reflexivity.
Qed.

Lemma loop_frames {T} (f : T -> M -> outcome T) ps x : Forall readable ps ->
  read_loop (read_fuel (mkSource (concat (map frame ps)) false))
    (fun (x : T) (p : M) => x <- f x p ;; Ok ((ROk tt : result unit io_error), x))
    (reader_new (mkSource (concat (map frame ps)) false)) x
  = (x' <- fold_outcome f ps x ;; Ok (ROk tt, x')).
Proof.
  intros HF. rewrite <- (app_nil_r (concat (map frame ps))).
  destruct (read_loop_fuel ps [] false) as [n ->].
  destruct (loop_fold f ps (S n) (reader_new (mkSource (concat (map frame ps) ++ []) false)) x [] false HF (reader_new_ok _) eq_refl)
    as (t & Hok & E & ->).
  destruct (fold_outcome f ps x) as [x'|]; [|reflexivity]. cbn [bind read_loop].
  destruct (read_packet_is t (ROk None) (mkSource [] false) Hok) as (t' & Et & _).
  { rewrite E. apply end_read; reflexivity. }
  rewrite Et. reflexivity.
Qed.

Lemma loop_error {T} (f : T -> M -> outcome T) ps bad fails e t0 x : Forall readable ps ->
  read_packet (M := M) (reader_new (mkSource bad fails)) = Ok (RErr e, t0) ->
  read_loop (read_fuel (mkSource (concat (map frame ps) ++ bad) fails))
    (fun (x : T) (p : M) => x <- f x p ;; Ok ((ROk tt : result unit io_error), x))
    (reader_new (mkSource (concat (map frame ps) ++ bad) fails)) x
  = (x' <- fold_outcome f ps x ;; Ok (RErr e, x')).
Proof.
  intros HF Hb. destruct (read_loop_fuel ps bad fails) as [n ->].
  destruct (loop_fold f ps (S n) (reader_new (mkSource (concat (map frame ps) ++ bad) fails)) x bad fails HF (reader_new_ok _) eq_refl)
    as (t1 & Hok & E & ->).
  destruct (fold_outcome f ps x) as [x'|]; [|reflexivity]. cbn [bind read_loop].
  destruct (read_packet_spec _ (reader_new_ok (mkSource bad fails))) as (r & t2 & E2 & _ & S2).
  rewrite Hb in E2. apply ok_inj in E2. apply pair_equal_spec in E2. destruct E2 as [<- <-].
  destruct (read_packet_is t1 (RErr e) (r_read t0) Hok) as (t' & Et & _).
  { rewrite E. exact S2. }
  rewrite Et. reflexivity.
Qed.

End Codec.

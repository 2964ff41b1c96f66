(** What the firmware writes and the client prints. *)
From Coq Require Import ZArith String List Bool Lia ZifyBool ZifyNat Sorted.
From Verif Require Import Model.Prelude Model.Params Model.Gst Model.Svn Model.Merkle Model.Nav Model.Osnma Model.Transport Model.Apps Model.Serial
  Spec.TimeSpec Spec.CollectSpec Spec.NavSpec Spec.SystemSpec Spec.SerialSpec Spec.ReportSpec Proofs.Base Proofs.GstProofs Proofs.SerialProofs.
Import ListNotations.
Open Scope list_scope.
Open Scope Z_scope.
Ltac Zify.zify_post_hook ::= Z.div_mod_to_equations.

Local Lemma ok_inj {A} (x y : A) : Ok x = Ok y -> x = y.
Proof. congruence. Qed.

(** ** Text *)

Lemma digits_value fuel : forall n, 0 <= n < 10 ^ Z.of_nat fuel -> (0 < fuel)%nat ->
  fold_left (fun v c => 10 * v + (c - 48)) (digits fuel n) 0 = n /\ (hd 0 (digits fuel n) = 48 -> n = 0).
Proof.
  induction fuel as [|fuel IH]; intros n Hn Hf; [lia|]. cbn [digits]. destruct (n <? 10) eqn:E.
  - cbn [app fold_left hd]. lia.
  - rewrite Nat2Z.inj_succ, Z.pow_succ_r in Hn by lia.
    assert (F : (0 < fuel)%nat). { destruct fuel; [|lia]. change (10 ^ Z.of_nat 0) with 1 in Hn. lia. }
    destruct (IH (n / 10)) as [H1 H2]; [lia|exact F|]. rewrite fold_left_app, H1. cbn [fold_left]. split; [lia|].
    intros H. enough (n / 10 = 0) by lia. apply H2. destruct fuel as [|fuel']; [lia|].
    pose proof (digits_nonempty fuel' (n / 10)) as Ne. destruct (digits (Datatypes.S fuel') (n / 10)); [congruence|]. exact H.
Qed.
Lemma decimal_says n : 0 <= n < 2 ^ 64 -> decimal_text n (decimal n).
Proof.
  intros Hn. unfold decimal. assert (Hp : 0 <= n < 10 ^ Z.of_nat 20) by (change (10 ^ Z.of_nat 20) with 100000000000000000000; lia).
  destruct (digits_value 20 n Hp ltac:(lia)) as [H1 H2].
  split; [apply digits_nonempty|]. split; [apply digits_digits|]. split; [now symmetry|].
  intros H. rewrite (H2 H). reflexivity.
Qed.
Lemma display_svn_says svn : 0 <= svn < 100 -> svn_text svn (display_svn svn).
Proof. intros H. exists (svn / 10), (svn mod 10). repeat split; try lia. Qed.

Section Crypto.
Context {C : crypto} {B : build} {S : storage}.

(** ** The status lines *)

Lemma svn_iter_range svn : In svn svn_iter <-> 1 <= svn <= 36.
Proof.
  unfold svn_iter. rewrite in_map_iff. change num_svns with 36%nat. split.
  - intros (k & <- & Hk). apply in_seq in Hk. lia.
  - intros H. exists (Z.to_nat svn). split; [lia|]. apply in_seq. lia.
Qed.
Lemma svn_iter_sorted : StronglySorted Z.lt svn_iter.
Proof. vm_compute. repeat constructor. Qed.

Fixpoint list_of (get : Z -> outcome (option nav_data)) (l : list Z) : list (Z * Z) :=
  match l with
  | [] => []
  | svn :: l => (match get svn with Ok (Some d) => [(svn, g_tow (nd_gst d))] | _ => [] end) ++ list_of get l
  end.
Lemma list_of_in get l svn tow : In (svn, tow) (list_of get l) <->
  In svn l /\ exists d, get svn = Ok (Some d) /\ g_tow (nd_gst d) = tow.
Proof.
  induction l as [|s l IH]; cbn [list_of In]; [tauto|]. rewrite in_app_iff, IH. clear IH. split.
  - intros [H|(H & d & Hd)]; [|split; [now right|now exists d]].
    destruct (get s) as [[d|]|] eqn:E; [|destruct H|destruct H]. destruct H as [H|[]]. apply pair_equal_spec in H. destruct H as [<- <-].
    split; [now left|]. now exists d.
  - intros ([<-|H] & d & Hd & Ht); [left; rewrite Hd, Ht; now left|]. right. split; [exact H|now exists d].
Qed.
Lemma list_of_sorted get l : StronglySorted Z.lt l -> StronglySorted (fun x y => fst x < fst y) (list_of get l).
Proof.
  induction 1 as [|s l H IH Hs]; cbn [list_of]; [constructor|].
  destruct (get s) as [[d|]|]; cbn [app]; try exact IH. constructor; [exact IH|].
  apply Forall_forall. intros [s' t'] Hin. apply list_of_in in Hin. destruct Hin as [Hin _].
  rewrite Forall_forall in Hs. cbn [fst]. now apply Hs.
Qed.

Lemma print_loop_says get out : (forall svn d, 1 <= svn <= 36 -> get svn = Ok (Some d) -> 0 <= g_tow (nd_gst d) < 2 ^ 64) ->
  print_loop get = Ok out ->
  exists s, list_text (list_of get svn_iter) s /\
    out = match list_of get svn_iter with [] => text " NONE" | _ => s end.
Proof.
  intros Ht H. unfold print_loop in H. set (F := fun _ _ => _) in H.
  assert (G : forall l acc t, (forall svn, In svn l -> 1 <= svn <= 36) -> fold_outcome F l acc = Ok t ->
    exists s, list_text (list_of get l) s /\ t = acc ++ s /\ (s = [] -> list_of get l = [])).
  { induction l as [|svn l IH]; intros acc t Hl E; cbn [fold_outcome list_of] in *.
    - apply ok_inj in E. subst t. exists []. split; [constructor|]. split; [now rewrite app_nil_r|auto].
    - pose proof (Hl svn (or_introl eq_refl)) as Hs.
      assert (EF : F acc svn = (d <- get svn ;; Ok (match d with
        | Some d => acc ++ text " " ++ display_svn svn ++ text " TOW " ++ decimal (g_tow (nd_gst d)) | None => acc end))) by reflexivity.
      rewrite EF in E. clear EF.
      destruct (get svn) as [d|] eqn:Eg; cbn [bind] in E; [|discriminate E].
      destruct (IH _ t (fun s Hin => Hl s (or_intror Hin)) E) as (s & H1 & -> & H3).
      destruct d as [d|]; cbn [app].
      + eexists. split; [apply list_more; [apply display_svn_says; lia|apply decimal_says; now apply (Ht svn)|exact H1]|].
        split; [now rewrite <- !app_assoc|]. intros X. change (text " ") with [32] in X. discriminate X.
      + exists s. auto. }
  destruct (fold_outcome F svn_iter []) as [t|] eqn:E; cbn [bind] in H; [|discriminate H]. apply ok_inj in H. subst out.
  destruct (G _ _ _ (fun s => proj1 (svn_iter_range s)) E) as (s & H1 & -> & H3). cbn [app].
  exists s. split; [exact H1|]. destruct s as [|c s].
  - rewrite (H3 eq_refl). reflexivity.
  - destruct (list_of get svn_iter) as [|[a b] l]; [inversion H1|reflexivity].
Qed.

Lemma available_list o k : available o k (list_of (getter k o) svn_iter).
Proof.
  split; [apply list_of_sorted, svn_iter_sorted|]. intros svn tow. now rewrite list_of_in, svn_iter_range.
Qed.

(** The times of week are numbers that can be printed. *)
Lemma add_seconds_tow g n g' : add_seconds g n = Ok g' -> 0 <= g_tow g' < 604800.
Proof.
  unfold add_seconds. intros H.
  match type of H with (bind ?x _) = _ => destruct x as [w|]; cbn [bind] in H; [|discriminate H] end.
  match type of H with (bind ?x _) = _ => destruct x as [w1|]; cbn [bind] in H; [|discriminate H] end.
  match type of H with (bind ?x _) = _ => destruct x as [[w2 t]|]; cbn [bind] in H; [|discriminate H] end.
  unfold assert_ in H. destruct ((0 <=? t) && (t <? secs_in_week)) eqn:E; cbn [bind] in H; [|discriminate H].
  apply ok_inj in H. subst g'. cbn [g_tow]. unfold secs_in_week in E. lia.
Qed.
Lemma getter_tow k o svn d : getter k o svn = Ok (Some d) -> 0 <= g_tow (nd_gst d) < 2 ^ 64.
Proof.
  assert (E : getter k o svn = nav_get k (o_nav o) svn) by (destruct k; reflexivity). rewrite E. clear E. unfold nav_get.
  generalize (seq 0 nav_depth) as js. induction js as [|j js IH]; cbn [nav_get_from]; intros H; [discriminate H|].
  destruct (row_of _ _) as [row|]; cbn [bind] in H; [|discriminate H].
  destruct (find_first _ row) as [e|]; [|exact (IH H)].
  destruct (index _ _) as [g|]; cbn [bind] in H; [|discriminate H].
  destruct (unwrap g) as [g1|]; cbn [bind] in H; [|discriminate H].
  destruct (add_subframes g1 (- min_age e)) as [g2|] eqn:E; cbn [bind] in H; [|discriminate H].
  apply ok_inj in H. assert (d = mkNavData (message_bits k e) (e_authbits e) g2) by congruence. subst d. cbn [nd_gst].
  unfold add_subframes in E. destruct (i32_arith _ _); cbn [bind] in E; [|discriminate E]. apply add_seconds_tow in E. lia.
Qed.

Lemma print_status_says o out : print_auth_status o = Ok out ->
  exists l0 l4 line0 line4, available o Timing l4 /\ available o Ced l0 /\
    auth_line "AUTH ADKD=4" l4 line4 /\ auth_line "AUTH ADKD=0" l0 line0 /\ out = line4 ++ line0.
Proof.
  intros H. unfold print_auth_status in H.
  destruct (print_loop (get_timing_parameters o)) as [t4|] eqn:E4; cbn [bind] in H; [|discriminate H].
  destruct (print_loop (get_ced_and_status o)) as [t0|] eqn:E0; cbn [bind] in H; [|discriminate H]. apply ok_inj in H. subst out.
  apply print_loop_says in E4; [|intros svn d _; exact (getter_tow Timing o svn d)].
  apply print_loop_says in E0; [|intros svn d _; exact (getter_tow Ced o svn d)].
  destruct E4 as (s4 & L4 & ->). destruct E0 as (s0 & L0 & ->).
  exists (list_of (getter Ced o) svn_iter), (list_of (getter Timing o) svn_iter).
  eexists. eexists. split; [apply available_list|]. split; [apply available_list|].
  split; [exists s4; split; [exact L4|reflexivity]|]. split; [exists s0; split; [exact L0|reflexivity]|].
  change crlf with line_end. now rewrite <- !app_assoc.
Qed.

Lemma op_text_says x b : op_ok x -> op_band x b -> echo_line x (op_text x b).
Proof.
  intros Hx Hb.
  assert (Hs : 1 <= op_svn x <= 36 /\ gst_ok (op_gst x)).
  { destruct x as [w s g b'|d s g]; cbn [op_svn op_gst op_ok] in *; destruct Hx as (_ & H2 & H3); split; assumption. }
  destruct Hs as (Hs & Hg). unfold gst_ok in Hg.
  exists (display_svn (op_svn x)), (decimal (g_wn (op_gst x))), (decimal (g_tow (op_gst x))), (text "E" ++ band_text b ++ text "B").
  split; [apply display_svn_says; clear -Hs; unfold SystemSpec.op_svn, SerialProofs.op_svn in *; destruct x; lia|].
  split; [apply decimal_says; lia|]. split; [apply decimal_says; lia|]. split.
  - destruct x as [w s g b'|d s g]; cbn [op_band] in Hb; [subst b'; destruct b; reflexivity|destruct b; [left|right]; reflexivity].
  - unfold op_text. change crlf with line_end.
    destruct x as [w s g b'|d s g]; destruct b; rewrite <- ?app_assoc; reflexivity.
Qed.

(** ** Everything that is written *)

Lemma response_says o x b status : op_ok x -> op_band x b -> print_auth_status o = Ok status ->
  response o x (op_text x b ++ status ++ ready).
Proof.
  intros Hx Hb Hs. destruct (print_status_says o status Hs) as (l0 & l4 & line0 & line4 & H1 & H2 & H3 & H4 & ->).
  exists l0, l4, (op_text x b), line0, line4. split; [now apply op_text_says|]. repeat (split; [assumption|]).
  rewrite <- app_assoc. reflexivity.
Qed.
Lemma responses_nil o calls : responses o calls [].
Proof. split; [cbn [List.length]; lia|]. intros n x r _ H. destruct n; discriminate H. Qed.
Lemma responses_cons o x o' calls r rs : step o x = Ok o' -> response o' x r -> responses o' calls rs -> responses o (x :: calls) (r :: rs).
Proof.
  intros Hs Hr (Hl & H). split; [cbn [List.length]; lia|]. intros n y q Hy Hq. destruct n as [|n]; cbn [nth_error] in Hy, Hq.
  - exists o'. assert (y = x) by congruence. assert (q = r) by congruence. subst y q. cbn [plus firstn]. unfold run. cbn [fold_outcome]. rewrite Hs.
    split; [reflexivity|exact Hr].
  - destruct (H n y q Hy Hq) as (o2 & H1 & H2). exists o2. split; [|exact H2]. cbn [plus firstn]. unfold run in *. cbn [fold_outcome]. now rewrite Hs.
Qed.

(** A part of the lines, from the start. *)
Lemma firmware_responses calls lines : Forall2 carries calls lines -> Forall op_ok calls ->
  forall o s rest f out, concat lines = s ++ rest -> firmware_bytes (mkFirmware o []) s = Ok (f, out) ->
  exists rs, out = concat rs /\ responses o calls rs /\ (rest = [] -> List.length rs = List.length calls).
Proof.
  induction 1 as [|x line calls lines Hc Hcs IH]; intros Hops o s rest f out E H; cbn [concat] in E.
  - symmetry in E. apply app_eq_nil in E. destruct E as [-> ->]. cbn [firmware_bytes] in H. apply ok_inj, pair_equal_spec in H. destruct H as [_ <-].
    exists []. split; [reflexivity|]. split; [apply responses_nil|reflexivity].
  - apply Forall_cons_iff in Hops. destruct Hops as [Hx Hops]. destruct (carries_body x line Hc) as (b & Hb & ->).
    destruct (op_body_ordinary x b Hx) as (Ho & Hl).
    assert (W : forall o' status, step o x = Ok o' -> print_auth_status o' = Ok status -> response o' x (op_text x b ++ status ++ ready)).
    { intros o' status _ H2. now apply response_says. }
    destruct (Nat.le_gt_cases (List.length s) (List.length (op_body x b))) as [Hs|Hs].
    + (* within the line *)
      assert (P : exists t, op_body x b = s ++ t).
      { exists (skipn (List.length s) (op_body x b)).
        rewrite <- (firstn_skipn (List.length s) (op_body x b)) at 1. f_equal.
        assert (X : firstn (List.length s) ((op_body x b ++ [cr; lf]) ++ concat lines) = firstn (List.length s) (s ++ rest)) by now rewrite E.
        rewrite <- app_assoc in X. rewrite (firstn_app (List.length s) (op_body x b)), (firstn_app (List.length s) s rest), Nat.sub_diag, firstn_all in X.
        cbn [firstn] in X. rewrite app_nil_r in X.
        replace (List.length s - List.length (op_body x b))%nat with 0%nat in X by lia. cbn [firstn] in X. rewrite app_nil_r in X. exact X. }
      destruct P as (t & P). rewrite P in Ho, Hl. apply Forall_app in Ho. rewrite app_length in Hl.
      rewrite firmware_bytes_ordinary in H; [|exact (proj1 Ho)|cbn [List.length]; lia]. apply ok_inj, pair_equal_spec in H. destruct H as [_ <-].
      exists []. split; [reflexivity|]. split; [apply responses_nil|]. intros ->. exfalso.
      apply (f_equal (@List.length Z)) in E. rewrite !app_length in E. cbn [List.length] in E. lia.
    + (* the line was received *)
      assert (P : exists t, s = op_body x b ++ t /\ t ++ rest = [cr; lf] ++ concat lines).
      { rewrite <- app_assoc in E. exists (skipn (List.length (op_body x b)) s).
        assert (X1 : op_body x b = firstn (List.length (op_body x b)) s).
        { apply (f_equal (firstn (List.length (op_body x b)))) in E.
          rewrite (firstn_app _ (op_body x b)), (firstn_app _ s rest), Nat.sub_diag, firstn_all in E. cbn [firstn] in E.
          replace (List.length (op_body x b) - List.length s)%nat with 0%nat in E by lia. cbn [firstn] in E. now rewrite !app_nil_r in E. }
        assert (X : s = op_body x b ++ skipn (List.length (op_body x b)) s).
        { rewrite <- (firstn_skipn (List.length (op_body x b)) s) at 1. now rewrite <- X1. }
        split; [exact X|]. rewrite X, <- app_assoc in E. apply app_inv_head in E. now rewrite E. }
      destruct P as (t & -> & Et). rewrite firmware_bytes_app, firmware_bytes_ordinary in H by (cbn [List.length]; auto; lia). cbn [bind app] in H.
      rewrite app_length in Hs. destruct t as [|c t]; [cbn [List.length] in Hs; lia|]. cbn [app] in Et.
      assert (c = cr) by congruence. subst c. assert (Et' : t ++ rest = lf :: concat lines) by congruence. clear Et.
      cbn [firmware_bytes] in H. rewrite (firmware_byte_cr o x b Hx Hb) in H.
      destruct (step o x) as [o'|] eqn:Es; cbn [bind] in H; [|discriminate H].
      destruct (print_auth_status o') as [status|] eqn:Ep; cbn [bind] in H; [|discriminate H].
      destruct t as [|c t]; cbn [app] in Et'.
      * cbn [firmware_bytes bind] in H. apply ok_inj, pair_equal_spec in H. destruct H as [_ <-]. rewrite !app_nil_r.
        exists [op_text x b ++ status ++ ready]. split; [cbn [concat]; now rewrite app_nil_r|].
        split; [apply (responses_cons o x o'); auto using responses_nil|]. intros ->. discriminate Et'.
      * assert (c = lf) by congruence. subst c. assert (Er : concat lines = t ++ rest) by congruence. cbn [firmware_bytes] in H.
        rewrite firmware_byte_lf in H. cbn [bind] in H. destruct (firmware_bytes (mkFirmware o' []) t) as [[f2 out2]|] eqn:E2; cbn [bind] in H; [|discriminate H].
        apply ok_inj, pair_equal_spec in H. destruct H as [_ <-].
        destruct (IH Hops o' t rest f2 out2 Er E2) as (rs & -> & Hr & Hn).
        exists ((op_text x b ++ status ++ ready) :: rs). split; [reflexivity|].
        split; [apply (responses_cons o x o'); auto|]. intros Hrest. cbn [List.length]. f_equal. now apply Hn.
Qed.

(** ** Both together *)

Definition board_pending (b : board) : list Z := match b with Writing out _ => out | _ => [] end.
Definition board_firmware (b : board) : option firmware := match b with Writing _ f => Some f | Reading f => Some f | Halted => None end.
Definition client_partial (c : client) : list Z := match c with Waiting read _ => read | Sending _ _ => [] end.

Section Line.
Variables (o0 : osnma) (calls : list op) (lines : list (list Z)).

(** The bytes that were written are those that the client has printed, has read of a line, that
    are on their way or still to be written. *)
Definition print_inv (printed : list (list Z)) (u : line_state) : Prop :=
  exists s f out rest, concat lines = s ++ rest /\ firmware_bytes (mkFirmware o0 []) s = Ok (f, out) /\
    concat printed ++ client_partial (u_client u) ++ u_up u ++ board_pending (u_board u) = ready ++ out /\
    match board_firmware (u_board u) with
    | Some f' => f' = f /\ rest = u_down u ++ client_rest (u_client u) ++ concat (client_lines_left (u_client u))
    | None => True
    end.

Definition is_line (l : list Z) : Prop := exists b, l = b ++ [lf] /\ ~ In lf b.
Definition client_inv (printed : list (list Z)) (u : line_state) : Prop :=
  Forall is_line printed /\ ~ In lf (client_partial (u_client u)) /\
  match u_client u with
  | Sending rest ls => (printed = [] /\ rest = [] /\ ls = lines) \/ exists p, printed = p ++ [ready]
  | Waiting _ _ => True
  end.

Lemma longer {A} (x : A) l : l <> x :: l.
Proof. intros E. apply (f_equal (@List.length A)) in E. cbn [List.length] in E. lia. Qed.
Lemma longer_snoc {A} (x y : A) l : l <> x :: l ++ [y].
Proof. intros E. apply (f_equal (@List.length A)) in E. cbn [List.length] in E. rewrite app_length in E. cbn [List.length] in E. lia. Qed.
Lemma board_next_pending out f : board_pending (match out with [] => Reading f | _ => Writing out f end) = out.
Proof. destruct out; reflexivity. Qed.
Lemma board_next_firmware out f : board_firmware (match out with [] => Reading f | _ => Writing out f end) = Some f.
Proof. destruct out; reflexivity. Qed.

Lemma print_inv_steps printed u : line_prints (line_new lines o0) printed u -> print_inv printed u /\ client_inv printed u.
Proof.
  intros H. remember (line_new lines o0) as u0 eqn:E0.
  induction H as [u|u ls v read left w Hp IH Hs Hk Hup|u ls v w Hp IH Hs Hup].
  - subst u. split.
    + exists [], (mkFirmware o0 []), [], (concat lines). split; [reflexivity|]. split; [reflexivity|]. split; [cbn [line_new concat u_client u_up u_board client_partial board_pending app]; now rewrite app_nil_r|].
      cbn [line_new board_firmware u_board u_down u_client client_rest client_lines_left]. split; reflexivity.
    + split; [constructor|]. split; [intros []|]. left. repeat split.
  - specialize (IH E0). destruct IH as ((s & f & out & rest & H1 & H2 & H3 & H4) & Hl & Hn & _).
    rewrite Hk in H3, H4, Hn. cbn [client_partial client_rest client_lines_left] in H3, H4, Hn.
    destruct Hs as [l ls' down up bd|c r ls' down up bd|c rd ls' down up bd Hc|rd ls' down up bd Hrd|rd l ls' down up bd Hrd
                   |c w' f' k down up|c k down up f' f'' w' Hf|c k down up f' Hf]; cbn [u_client u_down u_up u_board] in *;
      try (exfalso; exact (longer _ _ Hup)); try (exfalso; exact (longer_snoc _ _ _ Hup)).
    + exfalso. apply Hc. unfold lf. congruence.
    + assert (E : rd = read /\ ls' = left) by (split; congruence). destruct E as [-> ->]. split.
      * exists s, f, out, rest. split; [exact H1|]. split; [exact H2|]. split; [|exact H4].
        rewrite concat_app. cbn [concat client_partial app]. rewrite app_nil_r, <- H3, <- !app_assoc. reflexivity.
      * split; [apply Forall_app; split; [exact Hl|]; constructor; [exists read; auto|constructor]|]. split; [intros []|exact I].
    + assert (E : rd = read /\ l :: ls' = left) by (split; congruence). destruct E as [-> <-]. split.
      * exists s, f, out, rest. split; [exact H1|]. split; [exact H2|]. split.
        -- rewrite concat_app. cbn [concat client_partial app]. rewrite app_nil_r, <- H3, <- !app_assoc. reflexivity.
        -- cbn [client_rest client_lines_left concat] in *. exact H4.
      * split; [apply Forall_app; split; [exact Hl|]; constructor; [exists read; auto|constructor]|]. split; [intros []|].
        right. exists ls. change 10 with lf. now rewrite Hrd.
  - specialize (IH E0). destruct IH as ((s & f & out & rest & H1 & H2 & H3 & H4) & Hl & Hn & Hc0).
    destruct Hs as [l ls' down up bd|c r ls' down up bd|c rd ls' down up bd Hc|rd ls' down up bd Hrd|rd l ls' down up bd Hrd
                   |c w' f' k down up|c k down up f' f'' w' Hf|c k down up f' Hf]; cbn [u_client u_down u_up u_board] in *.
    + split; [|split; [exact Hl|split; [intros []|exact I]]]. exists s, f, out, rest. split; [exact H1|]. split; [exact H2|]. split; [exact H3|exact H4].
    + split.
      * exists s, f, out, rest. split; [exact H1|]. split; [exact H2|]. split; [exact H3|].
        cbn [u_client u_down u_up u_board]. destruct (board_firmware bd); [|exact I]. destruct H4 as [-> ->]. split; [reflexivity|]. cbn [client_rest client_lines_left app]. now rewrite <- app_assoc.
      * split; [exact Hl|]. split; [intros []|]. destruct Hc0 as [(_ & X & _)|X]; [discriminate X|now right].
    + split.
      * exists s, f, out, rest. split; [exact H1|]. split; [exact H2|]. split; [|exact H4].
        cbn [u_client u_up u_board client_partial] in *. rewrite <- H3, <- !app_assoc. reflexivity.
      * split; [exact Hl|]. cbn [u_client client_partial] in *. split; [|exact I]. apply not_in_app; [exact Hn|]. intros [X|[]]. now apply Hc.
    + now destruct Hup.
    + now destruct Hup.
    + split; [|split; [exact Hl|split; [exact Hn|exact Hc0]]].
      exists s, f, out, rest. split; [exact H1|]. split; [exact H2|]. cbn [u_client u_down u_up u_board] in *. rewrite board_next_pending, board_next_firmware.
      cbn [board_pending board_firmware] in *. split; [|exact H4]. rewrite <- H3, <- !app_assoc. reflexivity.
    + split; [|split; [exact Hl|split; [exact Hn|exact Hc0]]]. cbn [board_pending board_firmware] in *. destruct H4 as [-> ->].
      exists (s ++ [c]), f'', (out ++ w'), (down ++ client_rest k ++ concat (client_lines_left k)).
      split; [rewrite H1, <- app_assoc; reflexivity|]. split.
      * rewrite firmware_bytes_app, H2. cbn [bind firmware_bytes]. rewrite Hf. cbn [bind]. now rewrite app_nil_r.
      * cbn [u_client u_down u_up u_board] in *. rewrite board_next_pending, board_next_firmware. split; [|split; reflexivity]. rewrite app_nil_r in H3. rewrite (app_assoc ready), <- H3, <- !app_assoc. reflexivity.
    + split; [|split; [exact Hl|split; [exact Hn|exact Hc0]]]. cbn [board_pending board_firmware] in *.
      exists s, f, out, rest. split; [exact H1|]. split; [exact H2|]. split; [exact H3|exact I].
Qed.

Hypothesis Hcarry : Forall2 carries calls lines.
Hypothesis Hops : Forall op_ok calls.

Lemma prints_responses printed u : line_prints (line_new lines o0) printed u ->
  exists rs more, responses o0 calls rs /\ concat printed ++ more = ready_line ++ concat rs.
Proof.
  intros H. destruct (print_inv_steps _ _ H) as ((s & f & out & rest & H1 & H2 & H3 & _) & _).
  destruct (firmware_responses calls lines Hcarry Hops o0 s rest f out H1 H2) as (rs & -> & Hr & _).
  exists rs. eexists. split; [exact Hr|]. exact H3.
Qed.

(** *** At the end *)

Lemma prints_steps printed u v : line_prints u printed v -> line_steps u v.
Proof. induction 1 as [u|u ls v read left w _ IH Hs _ _|u ls v w _ IH Hs _]; [constructor|now apply steps_more with v..]. Qed.

Lemma lines_unique l1 : forall l2, Forall is_line l1 -> Forall is_line l2 -> concat l1 = concat l2 -> l1 = l2.
Proof.
  induction l1 as [|a l1 IH]; intros [|b l2] H1 H2 E; cbn [concat] in E.
  - reflexivity.
  - apply Forall_inv in H2. destruct H2 as (x & -> & _). rewrite <- app_assoc in E. now apply app_cons_not_nil in E.
  - apply Forall_inv in H1. destruct H1 as (x & -> & _). rewrite <- app_assoc in E. symmetry in E. now apply app_cons_not_nil in E.
  - apply Forall_cons_iff in H1, H2. destruct H1 as [(x & -> & Hx) H1]. destruct H2 as [(y & -> & Hy) H2].
    rewrite <- !app_assoc in E. cbn [app] in E. destruct (lf_split _ _ _ _ Hx Hy E) as [-> E']. now rewrite (IH l2 H1 H2 E').
Qed.

Lemma last_of {A} (r : A) a b l q : ~ In r l -> ~ In r q -> a ++ r :: l = b ++ r :: q -> a = b /\ l = q.
Proof.
  intros Hl Hq. revert b. induction a as [|x a IH]; intros [|y b] E; cbn [app] in E.
  - split; congruence.
  - exfalso. assert (l = b ++ r :: q) by congruence. subst l. apply Hl, in_or_app. right. now left.
  - exfalso. assert (q = a ++ r :: l) by congruence. subst q. apply Hq, in_or_app. right. now left.
  - assert (x = y) by congruence. subst y. destruct (IH b) as [-> ->]; [congruence|]. auto.
Qed.

Lemma ready_is_line : is_line ready.
Proof. exists (text "READY" ++ [cr]). split; [reflexivity|]. exact ready_no_lf. Qed.
Lemma other_is_line l : other_line l -> is_line l.
Proof. intros (b & H1 & H2 & _). now exists b. Qed.
Lemma auth_is_other start l line : forallb (fun c => negb (c =? 10)) (text start) = true -> hd 0 (text start) <> 82 ->
  text start <> [] -> auth_line start l line -> other_line line.
Proof.
  intros Hs Hh Hn (s & Hl & ->). exists (text start ++ (match l with [] => text " NONE" | _ => s end) ++ [cr]).
  split; [now rewrite <- !app_assoc|]. split.
  - apply not_in_app; [now apply text_plain_lf|]. apply not_in_app; [|intros [X|[]]; discriminate X].
    assert (K : ~ In lf s).
    { clear -Hl. induction Hl as [|svn tow name num l s (d1 & d2 & H1 & H2 & _ & ->) (_ & Hd & _) Hl IH]; [intros []|].
      apply not_in_app; [now apply text_plain_lf|]. apply not_in_app.
      { apply not_in_app; [now apply text_plain_lf|]. unfold lf. intros [X|[X|[]]]; lia. }
      apply not_in_app; [now apply text_plain_lf|]. apply not_in_app; [|exact IH].
      intros X. rewrite Forall_forall in Hd. apply Hd in X. unfold lf in X. lia. }
    destruct l; [now apply text_plain_lf|exact K].
  - intros E. apply Hh. destruct (text start) as [|c t]; [congruence|]. cbn [hd]. cbn [app] in E.
    change ready with (82 :: skipn 1 ready) in E. congruence.
Qed.
Lemma echo_is_other x line : echo_line x line -> other_line line.
Proof.
  intros (name & wn & tow & band & (d1 & d2 & H1 & H2 & _ & ->) & (_ & Hw & _) & (_ & Ht & _) & Hb & ->).
  assert (Hd : forall l, Forall (fun c => 48 <= c <= 57) l -> ~ In lf l).
  { intros l Hl X. rewrite Forall_forall in Hl. apply Hl in X. unfold lf in X. lia. }
  exists ((text "E" ++ [48 + d1; 48 + d2]) ++ text " WN " ++ wn ++ text " TOW " ++ tow ++ text " " ++ band ++
      (match x with FeedInav _ _ _ _ => text " INAV" | FeedOsnma _ _ _ => text " OSNMA" end) ++ [cr]).
  split; [now rewrite <- !app_assoc|]. split; [|discriminate].
  apply not_in_app; [apply not_in_app; [now apply text_plain_lf|]; unfold lf; intros [X|[X|[]]]; lia|].
  apply not_in_app; [now apply text_plain_lf|]. apply not_in_app; [now apply Hd|].
  apply not_in_app; [now apply text_plain_lf|]. apply not_in_app; [now apply Hd|].
  apply not_in_app; [now apply text_plain_lf|]. apply not_in_app.
  { destruct x as [w s g b|d s g]; [subst band; destruct b|destruct Hb as [-> | ->]]; now apply text_plain_lf. }
  apply not_in_app; [destruct x; now apply text_plain_lf|]. intros [X|[]]; discriminate X.
Qed.
Lemma response_lines o x r : response o x r -> exists q, Forall other_line q /\ r = concat (q ++ [ready]).
Proof.
  intros (l0 & l4 & echo & line0 & line4 & H1 & _ & _ & H4 & H0 & ->). exists [echo; line4; line0]. split.
  - constructor; [now apply (echo_is_other x)|]. constructor; [apply (auth_is_other "AUTH ADKD=4" l4); [reflexivity|discriminate..|exact H4]|].
    constructor; [|constructor]. apply (auth_is_other "AUTH ADKD=0" l0); [reflexivity|discriminate..|exact H0].
  - cbn [app concat]. now rewrite app_nil_r.
Qed.
Lemma responses_lines rs : (forall r, In r rs -> exists o x, response o x r) ->
  exists qs, Forall (Forall other_line) qs /\ rs = map (fun q => concat (q ++ [ready])) qs.
Proof.
  induction rs as [|r rs IH]; intros H; [exists []; split; [constructor|reflexivity]|].
  destruct (H r (or_introl eq_refl)) as (o & x & Hr). apply response_lines in Hr. destruct Hr as (q & H1 & H2).
  destruct IH as (qs & H3 & H4); [intros r' Hin; apply H; now right|]. exists (q :: qs). split; [now constructor|]. cbn [map]. now rewrite H2, H4.
Qed.
Lemma concat_lines qs : concat (map (fun q => concat (q ++ [ready])) qs) = concat (flat_map (fun q => q ++ [ready]) qs).
Proof. induction qs as [|q qs IH]; cbn [map concat flat_map]; [reflexivity|]. now rewrite IH, (concat_app (q ++ [ready])). Qed.
Lemma flat_is_line qs : Forall (Forall other_line) qs -> Forall is_line (flat_map (fun q => q ++ [ready]) qs).
Proof.
  induction 1 as [|q qs Hq _ IH]; cbn [flat_map]; [constructor|]. apply Forall_app. split; [|exact IH]. apply Forall_app.
  split; [revert Hq; apply Forall_impl; exact other_is_line|constructor; [exact ready_is_line|constructor]].
Qed.
Lemma other_not_ready q : Forall other_line q -> ~ In ready q.
Proof. intros H X. rewrite Forall_forall in H. destruct (H _ X) as (b & _ & _ & N). now apply N. Qed.

Lemma prints_all printed u : line_prints (line_new lines o0) printed u -> stuck u -> u_board u <> Halted ->
  exists rs, responses o0 calls rs /\ List.length rs = List.length calls /\
    concat printed = concat (firstn (List.length calls) (ready_line :: rs)).
Proof.
  intros H Hst Hnh. pose proof (prints_steps _ _ _ H) as Hsteps.
  destruct (line_stuck o0 calls lines Hcarry Hops u Hsteps Hst) as [(X & _)|(o & Hr & Hcl & Hdn & Hb)]; [contradiction|].
  destruct (print_inv_steps _ _ H) as ((s & f & out & rest & H1 & H2 & H3 & H4) & Hl & _ & Hc).
  rewrite Hcl, Hb in *. rewrite Hdn in H4. cbn [client_partial client_rest client_lines_left board_pending board_firmware concat app] in *.
  destruct H4 as [_ ->]. rewrite app_nil_r in H3.
  destruct (firmware_responses calls lines Hcarry Hops o0 s [] f out H1 H2) as (rs & -> & Hrs & Hlen). specialize (Hlen eq_refl).
  exists rs. split; [exact Hrs|]. split; [exact Hlen|].
  assert (Hall : forall r, In r rs -> exists o x, response o x r).
  { intros r Hin. apply In_nth_error in Hin. destruct Hin as (n & Hn). destruct Hrs as [_ Hrs].
    destruct (nth_error calls n) as [x|] eqn:Ex.
    - destruct (Hrs n x r Ex Hn) as (o' & _ & X). now exists o', x.
    - exfalso. apply nth_error_None in Ex. assert (n < List.length rs)%nat by (apply nth_error_Some; congruence). lia. }
  destruct (responses_lines rs Hall) as (qs & Hqs & Ers). rewrite Ers, concat_lines in H3.
  (* what is on the way ends with the only READY in it *)
  assert (Hu : exists ls, u_up u = concat ls ++ ready /\ Forall other_line ls).
  { destruct (line_inv_steps o0 calls lines Hcarry Hops u Hsteps) as [(X & _)|(n & o' & Hn & Hrun & [Hp|Hp])].
    - rewrite Hb in X. discriminate X.
    - exfalso. destruct Hp as (x & b & buf & t & rst & pre & _ & _ & _ & _ & Hk & Hd & _). rewrite Hdn in Hd. cbn [app] in Hd.
      destruct Hk as [Hk|(Hk & _)]; rewrite Hcl in Hk; [|discriminate Hk]. assert (Er : rst = []) by congruence. rewrite Er in Hd.
      symmetry in Hd. apply app_eq_nil in Hd. destruct Hd as [_ Hd]. apply app_eq_nil in Hd. destruct Hd as [_ Hd]. discriminate Hd.
    - destruct Hp as (out & acc & rst & Hk & _ & Hbd & _ & Hur). rewrite Hcl in Hk. destruct Hk as [(Hk & ->)|(Hk & _)]; [|discriminate Hk].
      destruct Hbd as [(X & _)|(_ & ->)]; [rewrite Hb in X; discriminate X|]. cbn [app] in Hur. rewrite app_nil_r in Hur. exact Hur. }
  destruct Hu as (ls & Hup & Hls). rewrite Hup in H3.
  assert (E : printed ++ ls ++ [ready] = ready :: flat_map (fun q => q ++ [ready]) qs).
  { apply lines_unique.
    - apply Forall_app. split; [exact Hl|]. apply Forall_app. split; [revert Hls; apply Forall_impl; exact other_is_line|]. constructor; [exact ready_is_line|constructor].
    - constructor; [exact ready_is_line|]. now apply flat_is_line.
    - rewrite !concat_app. cbn [concat]. rewrite app_nil_r. exact H3. }
  destruct Hc as [(-> & _ & <-)|(p & ->)].
  - inversion Hcarry as [Hca|]; subst. reflexivity.
  - destruct (exists_last (l := qs)) as (qs' & q & ->).
    { intros ->. cbn [flat_map] in E. apply (f_equal (@List.length (list Z))) in E. rewrite !app_length in E. cbn [List.length] in E. lia. }
    apply Forall_app in Hqs. destruct Hqs as [Hqs' Hq]. apply Forall_inv in Hq.
    rewrite flat_map_app in E. cbn [flat_map] in E. rewrite app_nil_r in E.
    assert (E2 : p ++ ready :: ls = (ready :: flat_map (fun q => q ++ [ready]) qs') ++ q).
    { apply (app_inv_tail [ready]). rewrite <- !app_assoc in *. exact E. }
    assert (E3 : exists b, ready :: flat_map (fun q => q ++ [ready]) qs' = b ++ [ready]).
    { destruct qs' as [|q2 qs2 _] using rev_ind; [now exists []|]. exists (ready :: flat_map (fun q => q ++ [ready]) qs2 ++ q2).
      rewrite flat_map_app. cbn [flat_map app]. now rewrite app_nil_r, <- !app_assoc. }
    destruct E3 as (b & E3). rewrite E3, <- app_assoc in E2. cbn [app] in E2.
    destruct (last_of ready p b ls q (other_not_ready _ Hls) (other_not_ready _ Hq) E2) as [-> _].
    rewrite <- E3. clear E2 E3 E H3. rewrite map_app in Ers. cbn [map] in Ers.
    assert (Hlc : List.length calls = Datatypes.S (List.length qs')).
    { rewrite <- Hlen, Ers, app_length, map_length. cbn [List.length]. lia. }
    rewrite Hlc, Ers. cbn [firstn concat]. change ready_line with ready. f_equal.
    rewrite <- (map_length (fun q => concat (q ++ [ready])) qs'), firstn_app, Nat.sub_diag, firstn_all. cbn [firstn].
    rewrite app_nil_r. symmetry. apply concat_lines.
Qed.
End Line.
End Crypto.

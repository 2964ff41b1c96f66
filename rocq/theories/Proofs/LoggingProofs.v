(** Logging does not change what the library does. *)
From Coq Require Import ZArith List Bool Lia ZifyBool ZifyNat.
From Verif Require Import Model.Prelude Model.Params Model.Gst Model.Svn Model.Bitfields
  Model.Maclt Model.Tesla Model.Merkle Model.Subframe Model.Dsm Model.MackStore Model.Nav Model.Osnma
  Model.Logging
  Proofs.Base.
Import ListNotations.
Open Scope Z_scope.
Ltac Zify.zify_post_hook ::= Z.div_mod_to_equations.

Section Crypto.
Context {C : crypto} {B : build} {S : storage}.
Variable mx : option level.

(** The result without the messages. *)
Definition plain {A} (x : logging A) : outcome A := a <- x ;; Ok (snd a).

Lemma plain_lbind {A D} (x : logging A) (f : A -> logging D) :
  plain (lbind x f) = (a <- plain x ;; plain (f a)).
Proof.
  unfold plain, lbind. destruct x as [[l a]|]; [|reflexivity]. cbn [bind snd].
  destruct (f a) as [[l' b]|]; reflexivity.
Qed.
Lemma plain_done {A} (a : A) : plain (done a) = Ok a.
Proof. reflexivity. Qed.
Lemma plain_quiet {A} (x : outcome A) : plain (quiet x) = x.
Proof. unfold plain, quiet. destruct x; reflexivity. Qed.
Lemma plain_log l m : plain (log mx l (Ok m)) = Ok tt.
Proof. unfold log. destruct (enabled mx l); reflexivity. Qed.
Lemma plain_log_ok l x m : x = Ok m -> plain (log mx l x) = Ok tt.
Proof. intros ->. apply plain_log. Qed.

Lemma bind_ext {A D} (x : outcome A) (f g : A -> outcome D) :
  (forall a, x = Ok a -> f a = g a) -> bind x f = bind x g.
Proof. destruct x; cbn [bind]; auto. Qed.

Lemma bind_assoc {A D E} (x : outcome A) (f : A -> outcome D) (g : D -> outcome E) :
  bind (bind x f) g = bind x (fun a => bind (f a) g).
Proof. destruct x; reflexivity. Qed.

(** One step of the comparison of a function with its copy that logs. *)
Ltac pl1 :=
  match goal with
  | |- context [plain (lbind _ _)] => rewrite plain_lbind
  | |- context [plain (done _)] => rewrite plain_done
  | |- context [plain (quiet _)] => rewrite plain_quiet
  | |- context [plain (log _ _ (Ok _))] => rewrite plain_log
  | |- context [bind (Ok _) _] => progress cbn [bind]
  | |- ?x = ?x => reflexivity
  | |- context [bind (bind _ _) _] => rewrite bind_assoc
  | |- bind ?x _ = bind ?x _ => apply bind_ext; intros ? ?
  | |- context [plain (match ?c with _ => _ end)] => destruct c eqn:?
  end.
Ltac pl := repeat (pl1; cbv beta).

Lemma subframe_feed_plain st d svn g : plain (subframe_feed_log mx st d svn g) = subframe_feed st d svn g.
Proof.
  unfold subframe_feed_log, subframe_feed. rewrite plain_lbind, plain_log. cbn [bind]. rewrite plain_lbind.
  match goal with |- bind ?x _ = _ => assert (E : x = Ok (if negb (g_wn g =? sf_wn st) || negb (g_tow g / 30 =? sf_subframe st)
    then mkSub (sf_hkroot st) (sf_mack st) (repeat 0 num_svns) (g_wn g) (g_tow g / 30) else st)) by (destruct (_ || _); pl) end.
  rewrite E. cbn [bind]. generalize (if negb (g_wn g =? sf_wn st) || negb (g_tow g / 30 =? sf_subframe st)
    then mkSub (sf_hkroot st) (sf_mack st) (repeat 0 num_svns) (g_wn g) (g_tow g / 30) else st). clear. intros st.
  rewrite plain_lbind, plain_quiet. apply bind_ext. intros nv Hnv.
  destruct (negb _).
  - rewrite plain_lbind, Hnv. cbn [bind]. rewrite plain_log. reflexivity.
  - repeat match goal with
    | |- plain (lbind (quiet _) _) = _ => rewrite plain_lbind, plain_quiet; apply bind_ext; intros ? ?
    end.
    destruct (_ =? words_per_subframe); [|reflexivity]. cbn [sf_hkroot sf_mack].
    rewrite plain_lbind.
    assert (Hi : forall A (l l' : list A) i x, set_index l i x = Ok l' -> exists y, index l' i = Ok y).
    { intros A l l' i x. unfold set_index, index. destruct (Nat.ltb_spec i (length l)); [|discriminate]. intros [= <-].
      destruct (nth_error (put i [x] l) i) eqn:E; [eexists; reflexivity|]. exfalso. apply nth_error_None in E.
      unfold put in E. rewrite !app_length, firstn_length in E. cbn [length] in E. lia. }
    match goal with H1 : set_index (sf_hkroot st) _ _ = Ok ?a, H2 : set_index (sf_mack st) _ _ = Ok ?b |- _ =>
      destruct (Hi _ _ _ _ _ H1) as (y1 & E1); destruct (Hi _ _ _ _ _ H2) as (y2 & E2) end.
    rewrite E1, E2. cbn [bind]. rewrite plain_log. cbn [bind]. rewrite plain_lbind, plain_quiet. reflexivity.
Qed.

Lemma store_block_plain st i b : plain (store_block_log mx st i b) = store_block st i b.
Proof. unfold store_block_log, store_block. pl. Qed.
Lemma number_of_blocks_plain t nb : plain (dsm_number_of_blocks_log mx t nb) = Ok (dsm_number_of_blocks t nb).
Proof. unfold dsm_number_of_blocks_log. pl. Qed.
Lemma missing_none l : (length (filter negb l) =? 0)%nat = forallb (fun x => x) l.
Proof. induction l as [|[] l IH]; [reflexivity|exact IH|reflexivity]. Qed.
Lemma done_and_size_plain st t : plain (done_and_size_log mx st t) = done_and_size st t.
Proof.
  unfold done_and_size_log, done_and_size. pl. rewrite number_of_blocks_plain. pl.
  now rewrite missing_none.
Qed.
Lemma dsm_feed_plain st hd b : plain (dsm_feed_log mx st hd b) = dsm_feed st hd b.
Proof.
  unfold dsm_feed_log, dsm_feed. pl; rewrite store_block_plain; pl; rewrite done_and_size_plain; pl.
Qed.

Lemma mack_adjust_plain st g : plain (mack_adjust_log mx st g) = mack_adjust st g.
Proof. unfold mack_adjust_log, mack_adjust. pl. Qed.
Lemma mack_store_plain st m svn g s : plain (mack_store_log mx st m svn g s) = mack_store st m svn g s.
Proof. unfold mack_store_log, mack_store. pl. rewrite mack_adjust_plain. pl. Qed.

(** ** Navigation data *)

Lemma select_svn e svn : e_svn (entry_select_svn svn e) = Some svn.
Proof.
  unfold entry_select_svn. destruct (e_svn e) as [s|] eqn:E; [|reflexivity].
  destruct (Z.eqb_spec s svn); [congruence|reflexivity].
Qed.
Lemma copy_word_svn a b src i e : e_svn (copy_word a b src i e) = e_svn e.
Proof. unfold copy_word. destruct (bits_eqb _ _); reflexivity. Qed.
Lemma log_word_plain k t e svn : e_svn e = Some svn -> plain (log_word mx k t e) = Ok tt.
Proof. intros H. unfold log_word. rewrite H. cbn [unwrap bind]. apply plain_log. Qed.
Lemma log_age_plain k e svn : e_svn e = Some svn -> plain (log_age mx k e) = Ok tt.
Proof. intros H. unfold log_age. rewrite H. cbn [unwrap bind]. apply plain_log. Qed.

Lemma word_type_cases {A} (t : Z) (a1 a2 a3 a4 a5 a : A) (P : A -> Prop) :
  P a1 -> P a2 -> P a3 -> P a4 -> P a5 -> P a ->
  P (match t with 1 => a1 | 2 => a2 | 3 => a3 | 4 => a4 | 5 => a5 | _ => a end).
Proof. intros. destruct t as [|[[[p|p|]|[p|p|]|]|[[p|p|]|[p|p|]|]|]|]; assumption. Qed.

Lemma entry_feed_plain k w svn b e : plain (entry_feed_log mx k w svn b e) = Ok (entry_feed k w svn b e).
Proof.
  destruct k; cbn [entry_feed_log entry_feed].
  - unfold ced_feed_log, ced_feed. rewrite plain_lbind.
    assert (E : plain (if (1 <=? word_type (bits_of_bytes w)) && (word_type (bits_of_bytes w) <=? 5)
      then log_word mx Ced (word_type (bits_of_bytes w)) (entry_select_svn svn e) else done tt) = Ok tt).
    { destruct (_ && _); [|reflexivity]. apply (log_word_plain _ _ _ svn), select_svn. }
    rewrite E. cbn [bind]. rewrite plain_lbind, (log_age_plain _ _ svn).
    + reflexivity.
    + apply word_type_cases; rewrite ?copy_word_svn; apply select_svn.
  - unfold timing_feed_log, timing_feed. rewrite plain_lbind.
    match goal with |- bind ?x _ = Ok ?y => assert (E : x = Ok y) end.
    { destruct (word_type (bits_of_bytes w)) as [|[[[p|p|]|[[p|p|]|[p|p|]|]|]|[[p|[p|p|]|]|[p|p|]|]|]|]; try reflexivity;
        destruct b; try reflexivity; rewrite plain_lbind, (log_word_plain _ _ _ svn) by apply select_svn; reflexivity. }
    rewrite E. cbn [bind]. rewrite plain_lbind, (log_age_plain _ _ svn); [reflexivity|].
    destruct (word_type (bits_of_bytes w)) as [|[[[p|p|]|[[p|p|]|[p|p|]|]|]|[[p|[p|p|]|]|[p|p|]|]|]|];
      try apply select_svn; destruct b; rewrite ?copy_word_svn; apply select_svn.
Qed.

Lemma fold_log_plain {A} (f : A -> level * message) (l : list A) :
  plain (fold_logging (fun (_ : unit) e => log mx (fst (f e)) (Ok (snd (f e)))) l tt) = Ok tt.
Proof. induction l as [|x l IH]; [reflexivity|]. cbn [fold_logging]. rewrite plain_lbind, plain_log. exact IH. Qed.

Lemma copy_from_length {A} (l : list A) a b src l' : copy_from l a b src = Ok l' -> length l' = length l /\ (a <= b <= length l)%nat.
Proof.
  unfold copy_from. destruct (_ && _) eqn:E; [|discriminate]. intros [= <-].
  unfold put. rewrite !app_length, firstn_length, skipn_length. lia.
Qed.

Lemma copy_and_age_row l a b l' : copy_and_age l a b = Ok l' -> exists row, row_of l' b = Ok row.
Proof.
  unfold copy_and_age. destruct (row_of l a) as [row|]; [|discriminate]. cbn [bind].
  destruct (copy_from l _ _ row) as [l1|]; [|discriminate]. cbn [bind].
  destruct (row_of l1 b) as [row1|] eqn:E1; [|discriminate]. cbn [bind]. intros E.
  apply copy_from_length in E. unfold row_of, slice in *.
  destruct (_ && _) eqn:E2 in E1; [|discriminate]. replace (length l') with (length l1) by lia. rewrite E2. eexists. reflexivity.
Qed.

Lemma log_contents_plain k l wp row : row_of l wp = Ok row -> plain (log_contents mx k l wp) = Ok tt.
Proof.
  intros H. unfold log_contents. rewrite plain_lbind, plain_log. cbn [bind]. rewrite plain_lbind, plain_quiet, H. cbn [bind].
  apply (fold_log_plain (fun e => (LDebug, LgEntry (e_svn e) (e_age e) (e_authbits e)))).
Qed.

Lemma nav_adjust_plain n g : plain (nav_adjust_log mx n g) = nav_adjust n g.
Proof.
  unfold nav_adjust_log, nav_adjust. rewrite plain_lbind, plain_quiet. apply bind_ext. intros cur _. rewrite plain_lbind.
  match goal with |- bind ?x _ = bind ?y _ => assert (E : x = y) end.
  { destruct cur as [g0|]; [|reflexivity]. destruct (negb _); [|reflexivity].
    rewrite plain_lbind, plain_log. cbn [bind]. rewrite plain_lbind, plain_quiet. apply bind_ext. intros ced H1.
    rewrite plain_lbind, plain_quiet. apply bind_ext. intros timing H2.
    apply copy_and_age_row in H1, H2. destruct H1 as (r1 & H1), H2 as (r2 & H2).
    rewrite plain_lbind.
    match goal with |- bind ?x _ = _ => assert (E : x = Ok tt) end.
    { destruct (enabled mx LDebug); [|reflexivity]. rewrite plain_lbind, plain_log. cbn [bind].
      rewrite plain_lbind, (log_contents_plain _ _ _ _ H1). cbn [bind]. exact (log_contents_plain _ _ _ _ H2). }
    rewrite E. reflexivity. }
  rewrite E. apply bind_ext. intros n' _. rewrite plain_lbind, plain_quiet. reflexivity.
Qed.
Lemma nav_feed_kind_plain k w svn b n : plain (nav_feed_kind_log mx k w svn b n) = nav_feed_kind k w svn b n.
Proof. unfold nav_feed_kind_log, nav_feed_kind. pl. rewrite entry_feed_plain. pl. Qed.
Lemma nav_feed_plain n w svn g b : plain (nav_feed_log mx n w svn g b) = nav_feed n w svn g b.
Proof.
  unfold nav_feed_log, nav_feed. pl. rewrite nav_adjust_plain. pl. rewrite nav_feed_kind_plain. pl. apply nav_feed_kind_plain.
Qed.
Lemma feed_inav_plain o w svn g b : plain (feed_inav_log mx o w svn g b) = feed_inav o w svn g b.
Proof. unfold feed_inav_log, feed_inav. pl. rewrite nav_feed_plain. pl. Qed.

(** ** Tags *)

Lemma nav_validate_tag_plain key tag adkd g prnd prna j s k e l :
  plain (nav_validate_tag_log mx key tag adkd g prnd prna j s k e l) = nav_validate_tag key tag g prnd prna j s k e l.
Proof.
  unfold nav_validate_tag_log, nav_validate_tag. rewrite plain_lbind, plain_quiet. apply bind_ext. intros ctr _.
  rewrite plain_lbind, plain_quiet. apply bind_ext. intros [] _; pl.
Qed.
Lemma nav_validate_dummy_tag_plain key tag adkd g prnd prna j s n :
  plain (nav_validate_dummy_tag_log mx key tag adkd g prnd prna j s n) = nav_validate_dummy_tag key tag g prnd prna j s n.
Proof.
  unfold nav_validate_dummy_tag_log, nav_validate_dummy_tag. rewrite plain_lbind, plain_quiet. apply bind_ext. intros ctr _.
  rewrite plain_lbind, plain_quiet. destruct j; [destruct (validate_tag0_dummy _ _ _ _ _ _) as [[]|]
    |destruct (validate_tag_dummy _ _ _ _ _ _ _ _) as [[]|]]; cbn [bind]; pl.
Qed.
Lemma process_one_tag_plain k key tag adkd cop gm gn prnd svn prna j s n :
  plain (process_one_tag_log mx k key tag adkd cop gm gn prnd svn prna j s n) =
  process_one_tag k key tag cop gm gn prnd svn prna j s n.
Proof.
  unfold process_one_tag_log, process_one_tag. destruct (cop =? 0).
  - rewrite plain_lbind, nav_validate_dummy_tag_plain. reflexivity.
  - pl. rewrite nav_validate_tag_plain. apply bind_ext. intros [] _. reflexivity.
Qed.
Lemma process_mack_tag_plain m key prna gm gn s n j :
  plain (process_mack_tag_log mx m key prna gm gn s n j) = process_mack_tag m key prna gm gn s n j.
Proof.
  unfold process_mack_tag_log, process_mack_tag. rewrite plain_lbind, plain_quiet. apply bind_ext. intros t _.
  rewrite plain_lbind, plain_log. cbn [bind]. destruct (prnd_to_u8 _) as [prnd|]; [|pl].
  destruct (tag_adkd t); [| |pl|pl]; (destruct (svn_try_from prnd); [apply process_one_tag_plain|pl]).
Qed.
Lemma process_slowmac_tag_plain m key prna gm gn s n j :
  plain (process_slowmac_tag_log mx m key prna gm gn s n j) = process_slowmac_tag m key prna gm gn s n j.
Proof.
  unfold process_slowmac_tag_log, process_slowmac_tag. rewrite plain_lbind, plain_quiet. apply bind_ext. intros t _.
  destruct (negb _); [reflexivity|]. destruct (prnd_to_u8 _) as [prnd|]; [|pl].
  destruct (svn_try_from prnd); [apply process_one_tag_plain|pl].
Qed.
Lemma fold_plain {A St} (f : St -> A -> logging St) (g : St -> A -> outcome St) l s :
  (forall s x, In x l -> plain (f s x) = g s x) -> plain (fold_logging f l s) = fold_outcome g l s.
Proof.
  revert s. induction l as [|x l IH]; intros s H; [reflexivity|]. cbn [fold_logging fold_outcome].
  rewrite plain_lbind, H by (now left). apply bind_ext. intros s' _. apply IH. intros s0 y Hy. apply H. now right.
Qed.
Lemma process_mack_plain n m key prna gm s : plain (process_mack_log mx n m key prna gm s) = process_mack n m key prna gm s.
Proof.
  unfold process_mack_log, process_mack. rewrite plain_lbind.
  destruct (mack_cop m) as [cop|] eqn:E.
  - cbn [bind]. rewrite plain_log. cbn [bind]. rewrite plain_lbind, plain_quiet. apply bind_ext. intros gn _.
    rewrite plain_lbind, plain_quiet. cbn [bind]. rewrite plain_lbind, plain_quiet. apply bind_ext. intros tag0 _.
    rewrite plain_lbind, process_one_tag_plain. apply bind_ext. intros n' _. apply fold_plain. intros. apply process_mack_tag_plain.
  - assert (E1 : (gst_navmessage <- add_seconds gm (-30);;
       cop <- Panic;; tag0 <- mack_tag0 m;;
       n0 <- process_one_tag Ced key tag0 cop gm gst_navmessage prna prna prna 0 s n;;
       fold_outcome (process_mack_tag m key prna gm gst_navmessage s) (seq 1 (mack_num_tags m - 1)) n0) = Panic)
      by (destruct (add_seconds gm (-30)); reflexivity).
    rewrite E1. cbn [bind]. unfold log at 1. destruct (enabled mx LInfo); [reflexivity|]. rewrite plain_done. cbn [bind].
    rewrite plain_lbind, plain_quiet. destruct (add_seconds gm (-30)); [|reflexivity]. cbn [bind].
    rewrite plain_lbind, plain_quiet. reflexivity.
Qed.
Lemma process_mack_slowmac_plain n m key prna gm s :
  plain (process_mack_slowmac_log mx n m key prna gm s) = process_mack_slowmac n m key prna gm s.
Proof.
  unfold process_mack_slowmac_log, process_mack_slowmac. rewrite plain_lbind, plain_quiet. apply bind_ext. intros gn _.
  apply fold_plain. intros. apply process_slowmac_tag_plain.
Qed.

(** ** Key stores *)

Lemma store_kroot_plain ks key hd g : plain (store_kroot_log mx ks key hd g) = Ok (store_kroot ks key hd g).
Proof.
  unfold store_kroot_log, store_kroot. rewrite plain_lbind.
  destruct (has_chain_id (ks_k0 ks) _); [reflexivity|]. destruct (has_chain_id (ks_k1 ks) _); [reflexivity|].
  destruct (ks_k0 ks) as [k0|]; [destruct (ks_k1 ks); [destruct (ch_id (k_chain k0) =? _)|]|]; rewrite plain_lbind, plain_log; reflexivity.
Qed.
Lemma keys_revoke_plain ks cid : plain (keys_revoke_log mx ks cid) = Ok (keys_revoke ks cid).
Proof.
  unfold keys_revoke_log, keys_revoke, has_chain_id. rewrite plain_lbind.
  destruct (ks_k0 ks) as [k0|]; [destruct (ch_id (k_chain k0) =? cid)|]; rewrite ?plain_lbind, ?plain_log; cbn [bind];
    rewrite plain_done; cbn [bind]; rewrite plain_lbind;
    (destruct (ks_k1 ks) as [k1|]; [destruct (ch_id (k_chain k1) =? cid)|]; rewrite ?plain_lbind, ?plain_log; reflexivity).
Qed.
Lemma applicable_pubkey_plain ps pkid : plain (applicable_pubkey_log mx ps pkid) = applicable_pubkey ps pkid.
Proof.
  unfold applicable_pubkey_log, applicable_pubkey. rewrite plain_lbind, plain_quiet. apply bind_ext. intros _ _.
  destruct (has_pkid (ps_current ps) pkid); [reflexivity|]. destruct (has_pkid (ps_next ps) pkid); [pl|].
  destruct (ps_current ps); pl.
Qed.
Lemma store_new_pubkey_plain ps pk : plain (store_new_pubkey_log mx ps pk) = store_new_pubkey ps pk.
Proof.
  unfold store_new_pubkey_log, store_new_pubkey. rewrite plain_lbind, plain_quiet. apply bind_ext. intros _ _.
  destruct (ps_current ps) as [cur|]; [|reflexivity]. destruct (pk_id pk <? pk_id cur); [pl|].
  destruct (pk_id pk =? pk_id cur); [reflexivity|]. destruct (ps_next ps) as [next|]; [|reflexivity].
  destruct (Z.compare_spec (pk_id pk) (pk_id next)); destruct (Z.ltb_spec (pk_id next) (pk_id pk)); try lia; pl.
Qed.
Lemma pubs_revoke_plain ps pkid : plain (pubs_revoke_log mx ps pkid) = Ok (pubs_revoke ps pkid).
Proof.
  unfold pubs_revoke_log, pubs_revoke. rewrite plain_lbind.
  match goal with |- context [if ?c then log _ _ _ >>> _ else _] => destruct c end;
    rewrite ?plain_lbind, ?plain_log; cbn [bind]; rewrite plain_done; cbn [bind ps_next];
    match goal with |- context [if ?c then _ else _] => destruct c end; pl.
Qed.
Lemma alert_plain o : plain (alert_message_received_log mx o) = Ok (alert_message_received o).
Proof. unfold alert_message_received_log. pl. reflexivity. Qed.
Lemma process_nma_header_plain o hd pkid : plain (process_nma_header_log mx o hd pkid) = Ok (process_nma_header o hd pkid).
Proof.
  unfold process_nma_header_log, process_nma_header.
  destruct (nma_status hd), (nma_cpks hd); repeat (rewrite ?plain_lbind, ?plain_log, ?plain_done, ?keys_revoke_plain,
    ?pubs_revoke_plain, ?alert_plain; cbn [bind o_keys set_pub]); reflexivity.
Qed.
Lemma process_dsm_kroot_plain o d hd g : plain (process_dsm_kroot_log mx o d hd g) = process_dsm_kroot o d hd g.
Proof.
  unfold process_dsm_kroot_log, process_dsm_kroot. rewrite plain_lbind, plain_quiet. apply bind_ext. intros pkid _.
  rewrite plain_lbind, applicable_pubkey_plain. apply bind_ext. intros [pk|] _; [|reflexivity].
  rewrite plain_lbind, plain_quiet. apply bind_ext. intros [key|e] _; [|pl].
  rewrite plain_lbind, plain_log. cbn [bind]. rewrite plain_lbind, plain_log. cbn [bind].
  rewrite plain_lbind, plain_quiet. apply bind_ext. intros ps _. rewrite plain_lbind, store_kroot_plain. cbn [bind].
  apply process_nma_header_plain.
Qed.

End Crypto.

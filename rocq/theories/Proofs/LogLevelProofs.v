(** The maximum level only selects lines. *)
From Coq Require Import ZArith List Bool Lia ZifyBool ZifyNat.
From Verif Require Import Model.Prelude Model.Params Model.Gst Model.Svn Model.Bitfields
  Model.Maclt Model.Tesla Model.Merkle Model.Subframe Model.Dsm Model.MackStore Model.Nav Model.Osnma
  Model.Logging Proofs.Base Proofs.LoggingProofs Proofs.LogTrueProofs.
Import ListNotations.
Open Scope Z_scope.

Section Level.
Context {C : crypto} {B : build} {S : storage}.
Variable mx : option level.
Notation tr := (Some LTrace).

Definition kept (ls : lines) : lines := filter (fun x => enabled mx (fst x)) ls.
Definition selects {A} (x y : logging A) : Prop := forall ls a, y = Ok (ls, a) -> x = Ok (kept ls, a).

Lemma selects_same {A} (a : A) : selects (done a) (done a).
Proof. intros ls b H. apply done_ok in H. destruct H as (-> & <-). reflexivity. Qed.
Lemma selects_quiet {A} (x : outcome A) : selects (quiet x) (quiet x).
Proof. intros ls b H. pose proof H as H1. apply quiet_ok in H. destruct H as (-> & _). exact H1. Qed.
Lemma selects_log l m : selects (log mx l m) (log tr l m).
Proof.
  intros ls u H. unfold log in *. assert (E : enabled tr l = true) by (destruct l; reflexivity). rewrite E in H.
  destruct m as [m|]; [|discriminate]. cbn [bind] in *. injection H as <- <-. unfold kept. cbn [filter fst].
  destruct (enabled mx l); reflexivity.
Qed.
Lemma selects_lbind {A D} (x y : logging A) (f g : A -> logging D) : selects x y -> (forall a, selects (f a) (g a)) ->
  selects (lbind x f) (lbind y g).
Proof.
  intros Hx Hf ls b H. apply lbind_ok in H. destruct H as (l1 & a & l2 & E1 & E2 & ->).
  unfold lbind. rewrite (Hx _ _ E1), (Hf a _ _ E2). unfold kept. now rewrite filter_app.
Qed.
Lemma selects_fold {A St} (f g : St -> A -> logging St) l s : (forall s x, selects (f s x) (g s x)) ->
  selects (fold_logging f l s) (fold_logging g l s).
Proof. intros H. revert s. induction l as [|x l IH]; intros s; [apply selects_same|]. apply selects_lbind; auto. Qed.
(** [if log_enabled!(…)] around log statements of that level or more. *)
Lemma selects_if l (x y : logging unit) : selects x y -> (forall ls u, y = Ok (ls, u) -> Forall (fun z => fst z = l) ls) ->
  selects (if enabled mx l then x else done tt) (if enabled tr l then y else done tt).
Proof.
  intros H Hl ls u E. assert (Et : enabled tr l = true) by (destruct l; reflexivity). rewrite Et in E.
  destruct (enabled mx l) eqn:Em; [exact (H _ _ E)|]. specialize (Hl _ _ E). destruct u.
  assert (K : kept ls = []); [|now rewrite K]. clear - Em Hl. induction Hl as [|z ls Hz _ IH]; [reflexivity|].
  unfold kept. cbn [filter]. rewrite Hz, Em. exact IH.
Qed.
End Level.

Create HintDb sel.
Ltac sel1 :=
  match goal with
  | |- selects _ _ _ => solve [auto with sel nocore]
  | |- selects _ (lbind _ _) (lbind _ _) => apply selects_lbind; [|intros ?]
  | |- selects _ (done _) _ => apply selects_same
  | |- selects _ (quiet _) _ => apply selects_quiet
  | |- selects _ (log _ _ _) _ => apply selects_log
  | |- selects _ (match ?c with _ => _ end) _ => destruct c eqn:?
  | |- selects _ (fold_logging _ _ _) _ => apply selects_fold; intros ? ?
  end.
Ltac sel := repeat (sel1; cbv beta).

Section Functions.
Context {C : crypto} {B : build} {S : storage}.
Variable mx : option level.
Notation tr := (Some LTrace).

Lemma contents_debug k l wp ls u : log_contents tr k l wp = Ok (ls, u) -> Forall (fun z => fst z = LDebug) ls.
Proof.
  unfold log_contents. intros H. apply lbind_ok in H. destruct H as (l1 & a & l2 & E1 & E2 & ->).
  injection E1 as <- _. constructor; [reflexivity|]. apply lbind_ok in E2. destruct E2 as (l3 & row & l4 & E3 & E4 & ->).
  apply quiet_ok in E3. destruct E3 as (-> & _). cbn [app]. clear - E4. revert l4 u E4. generalize tt.
  induction row as [|e row IH]; intros a l4 u E.
  - apply done_ok in E. destruct E as (-> & _). constructor.
  - cbn [fold_logging] in E. apply lbind_ok in E. destruct E as (l1 & b & l2 & E1 & E2 & ->). injection E1 as <- _.
    constructor; [reflexivity|]. exact (IH _ _ _ E2).
Qed.
Lemma subframe_feed_log_sel st osnma_data svn g : selects mx (subframe_feed_log mx st osnma_data svn g) (subframe_feed_log tr st osnma_data svn g).
Proof.
  unfold subframe_feed_log. cbv zeta. sel.
Qed.
#[local] Hint Resolve subframe_feed_log_sel : sel.
Lemma store_block_log_sel st block_id block : selects mx (store_block_log mx st block_id block) (store_block_log tr st block_id block).
Proof.
  unfold store_block_log. cbv zeta. sel.
Qed.
#[local] Hint Resolve store_block_log_sel : sel.
Lemma dsm_number_of_blocks_log_sel t nb : selects mx (dsm_number_of_blocks_log mx t nb) (dsm_number_of_blocks_log tr t nb).
Proof.
  unfold dsm_number_of_blocks_log. cbv zeta. sel.
Qed.
#[local] Hint Resolve dsm_number_of_blocks_log_sel : sel.
Lemma done_and_size_log_sel st t : selects mx (done_and_size_log mx st t) (done_and_size_log tr st t).
Proof.
  unfold done_and_size_log. cbv zeta. sel.
Qed.
#[local] Hint Resolve done_and_size_log_sel : sel.
Lemma dsm_feed_log_sel st header block : selects mx (dsm_feed_log mx st header block) (dsm_feed_log tr st header block).
Proof.
  unfold dsm_feed_log. cbv zeta. sel.
Qed.
#[local] Hint Resolve dsm_feed_log_sel : sel.
Lemma mack_adjust_log_sel st g : selects mx (mack_adjust_log mx st g) (mack_adjust_log tr st g).
Proof.
  unfold mack_adjust_log. cbv zeta. sel.
Qed.
#[local] Hint Resolve mack_adjust_log_sel : sel.
Lemma mack_store_log_sel st mack svn g s : selects mx (mack_store_log mx st mack svn g s) (mack_store_log tr st mack svn g s).
Proof.
  unfold mack_store_log. cbv zeta. sel.
Qed.
#[local] Hint Resolve mack_store_log_sel : sel.
Lemma log_word_sel k word_type e : selects mx (log_word mx k word_type e) (log_word tr k word_type e).
Proof.
  unfold log_word. cbv zeta. sel.
Qed.
#[local] Hint Resolve log_word_sel : sel.
Lemma log_age_sel k e : selects mx (log_age mx k e) (log_age tr k e).
Proof.
  unfold log_age. cbv zeta. sel.
Qed.
#[local] Hint Resolve log_age_sel : sel.
Lemma ced_feed_log_sel word svn e : selects mx (ced_feed_log mx word svn e) (ced_feed_log tr word svn e).
Proof.
  unfold ced_feed_log. cbv zeta. sel.
Qed.
#[local] Hint Resolve ced_feed_log_sel : sel.
Lemma timing_feed_log_sel word svn b e : selects mx (timing_feed_log mx word svn b e) (timing_feed_log tr word svn b e).
Proof.
  unfold timing_feed_log. cbv zeta. sel.
Qed.
#[local] Hint Resolve timing_feed_log_sel : sel.
Lemma entry_feed_log_sel k word svn b e : selects mx (entry_feed_log mx k word svn b e) (entry_feed_log tr k word svn b e).
Proof.
  unfold entry_feed_log. cbv zeta. sel.
Qed.
#[local] Hint Resolve entry_feed_log_sel : sel.
Lemma log_contents_sel k l wp : selects mx (log_contents mx k l wp) (log_contents tr k l wp).
Proof.
  unfold log_contents. cbv zeta. sel.
Qed.
#[local] Hint Resolve log_contents_sel : sel.
Lemma nav_adjust_log_sel n g : selects mx (nav_adjust_log mx n g) (nav_adjust_log tr n g).
Proof.
  unfold nav_adjust_log. apply selects_lbind; [sel|intros cur]. apply selects_lbind; [|intros ?; sel].
  destruct cur as [g0|]; [|sel]. destruct (negb _); [|sel]. apply selects_lbind; [sel|intros _]. cbv zeta.
  apply selects_lbind; [sel|intros ced]. apply selects_lbind; [sel|intros timing]. apply selects_lbind; [|intros ?; sel].
  apply selects_if; [sel|]. intros ls u H. apply lbind_ok in H. destruct H as (l1 & a & l2 & E1 & E2 & ->).
  injection E1 as <- _. constructor; [reflexivity|]. apply lbind_ok in E2. destruct E2 as (l3 & b & l4 & E3 & E4 & ->).
  apply Forall_app. split; eapply contents_debug; eassumption.
Qed.
#[local] Hint Resolve nav_adjust_log_sel : sel.
Lemma nav_feed_kind_log_sel k word svn b n : selects mx (nav_feed_kind_log mx k word svn b n) (nav_feed_kind_log tr k word svn b n).
Proof.
  unfold nav_feed_kind_log. cbv zeta. sel.
Qed.
#[local] Hint Resolve nav_feed_kind_log_sel : sel.
Lemma nav_feed_log_sel n word svn g b : selects mx (nav_feed_log mx n word svn g b) (nav_feed_log tr n word svn g b).
Proof.
  unfold nav_feed_log. cbv zeta. sel.
Qed.
#[local] Hint Resolve nav_feed_log_sel : sel.
Lemma nav_validate_tag_log_sel key tag adkd gst_tag prnd prna tag_idx s k navdata l : selects mx (nav_validate_tag_log mx key tag adkd gst_tag prnd prna tag_idx s k navdata l) (nav_validate_tag_log tr key tag adkd gst_tag prnd prna tag_idx s k navdata l).
Proof.
  unfold nav_validate_tag_log. cbv zeta. sel.
Qed.
#[local] Hint Resolve nav_validate_tag_log_sel : sel.
Lemma nav_validate_dummy_tag_log_sel key tag adkd gst_tag prnd prna tag_idx s navdata_len_bits : selects mx (nav_validate_dummy_tag_log mx key tag adkd gst_tag prnd prna tag_idx s navdata_len_bits) (nav_validate_dummy_tag_log tr key tag adkd gst_tag prnd prna tag_idx s navdata_len_bits).
Proof.
  unfold nav_validate_dummy_tag_log. cbv zeta. sel.
Qed.
#[local] Hint Resolve nav_validate_dummy_tag_log_sel : sel.
Lemma process_one_tag_log_sel k key tag adkd cop gst_mack gst_navmessage prnd prnd_svn prna tag_idx s n : selects mx (process_one_tag_log mx k key tag adkd cop gst_mack gst_navmessage prnd prnd_svn prna tag_idx s n) (process_one_tag_log tr k key tag adkd cop gst_mack gst_navmessage prnd prnd_svn prna tag_idx s n).
Proof.
  unfold process_one_tag_log. cbv zeta. sel.
Qed.
#[local] Hint Resolve process_one_tag_log_sel : sel.
Lemma process_mack_tag_log_sel m key prna gst_mack gst_navmessage s n j : selects mx (process_mack_tag_log mx m key prna gst_mack gst_navmessage s n j) (process_mack_tag_log tr m key prna gst_mack gst_navmessage s n j).
Proof.
  unfold process_mack_tag_log. cbv zeta. sel.
Qed.
#[local] Hint Resolve process_mack_tag_log_sel : sel.
Lemma process_mack_log_sel n m key prna gst_mack s : selects mx (process_mack_log mx n m key prna gst_mack s) (process_mack_log tr n m key prna gst_mack s).
Proof.
  unfold process_mack_log. cbv zeta. sel.
Qed.
#[local] Hint Resolve process_mack_log_sel : sel.
Lemma process_slowmac_tag_log_sel m key prna gst_mack gst_navmessage s n j : selects mx (process_slowmac_tag_log mx m key prna gst_mack gst_navmessage s n j) (process_slowmac_tag_log tr m key prna gst_mack gst_navmessage s n j).
Proof.
  unfold process_slowmac_tag_log. cbv zeta. sel.
Qed.
#[local] Hint Resolve process_slowmac_tag_log_sel : sel.
Lemma process_mack_slowmac_log_sel n m key prna gst_mack s : selects mx (process_mack_slowmac_log mx n m key prna gst_mack s) (process_mack_slowmac_log tr n m key prna gst_mack s).
Proof.
  unfold process_mack_slowmac_log. cbv zeta. sel.
Qed.
#[local] Hint Resolve process_mack_slowmac_log_sel : sel.
Lemma store_kroot_log_sel ks key nma_header g : selects mx (store_kroot_log mx ks key nma_header g) (store_kroot_log tr ks key nma_header g).
Proof.
  unfold store_kroot_log. cbv zeta. sel.
Qed.
#[local] Hint Resolve store_kroot_log_sel : sel.
Lemma keys_revoke_log_sel ks cid : selects mx (keys_revoke_log mx ks cid) (keys_revoke_log tr ks cid).
Proof.
  unfold keys_revoke_log. cbv zeta. sel.
Qed.
#[local] Hint Resolve keys_revoke_log_sel : sel.
Lemma applicable_pubkey_log_sel ps pkid : selects mx (applicable_pubkey_log mx ps pkid) (applicable_pubkey_log tr ps pkid).
Proof.
  unfold applicable_pubkey_log. cbv zeta. sel.
Qed.
#[local] Hint Resolve applicable_pubkey_log_sel : sel.
Lemma store_new_pubkey_log_sel ps pubkey : selects mx (store_new_pubkey_log mx ps pubkey) (store_new_pubkey_log tr ps pubkey).
Proof.
  unfold store_new_pubkey_log. cbv zeta. sel.
Qed.
#[local] Hint Resolve store_new_pubkey_log_sel : sel.
Lemma pubs_revoke_log_sel ps new_pkid : selects mx (pubs_revoke_log mx ps new_pkid) (pubs_revoke_log tr ps new_pkid).
Proof.
  unfold pubs_revoke_log. cbv zeta. sel.
Qed.
#[local] Hint Resolve pubs_revoke_log_sel : sel.
Lemma feed_inav_log_sel o word svn g b : selects mx (feed_inav_log mx o word svn g b) (feed_inav_log tr o word svn g b).
Proof.
  unfold feed_inav_log. cbv zeta. sel.
Qed.
#[local] Hint Resolve feed_inav_log_sel : sel.
Lemma alert_message_received_log_sel o : selects mx (alert_message_received_log mx o) (alert_message_received_log tr o).
Proof.
  unfold alert_message_received_log. cbv zeta. sel.
Qed.
#[local] Hint Resolve alert_message_received_log_sel : sel.
Lemma process_nma_header_log_sel o nma_header pkid : selects mx (process_nma_header_log mx o nma_header pkid) (process_nma_header_log tr o nma_header pkid).
Proof.
  unfold process_nma_header_log. cbv zeta. sel.
Qed.
#[local] Hint Resolve process_nma_header_log_sel : sel.
Lemma process_dsm_kroot_log_sel o d nma_header g : selects mx (process_dsm_kroot_log mx o d nma_header g) (process_dsm_kroot_log tr o d nma_header g).
Proof.
  unfold process_dsm_kroot_log. cbv zeta. sel.
Qed.
#[local] Hint Resolve process_dsm_kroot_log_sel : sel.
Lemma process_dsm_pkr_npk_log_sel o d : selects mx (process_dsm_pkr_npk_log mx o d) (process_dsm_pkr_npk_log tr o d).
Proof.
  unfold process_dsm_pkr_npk_log. cbv zeta. sel.
Qed.
#[local] Hint Resolve process_dsm_pkr_npk_log_sel : sel.
Lemma process_dsm_pkr_alert_message_log_sel o d : selects mx (process_dsm_pkr_alert_message_log mx o d) (process_dsm_pkr_alert_message_log tr o d).
Proof.
  unfold process_dsm_pkr_alert_message_log. cbv zeta. sel.
Qed.
#[local] Hint Resolve process_dsm_pkr_alert_message_log_sel : sel.
Lemma process_dsm_pkr_log_sel o d : selects mx (process_dsm_pkr_log mx o d) (process_dsm_pkr_log tr o d).
Proof.
  unfold process_dsm_pkr_log. cbv zeta. sel.
Qed.
#[local] Hint Resolve process_dsm_pkr_log_sel : sel.
Lemma process_dsm_log_sel o d nma_header g : selects mx (process_dsm_log mx o d nma_header g) (process_dsm_log tr o d nma_header g).
Proof.
  unfold process_dsm_log. cbv zeta. sel.
Qed.
#[local] Hint Resolve process_dsm_log_sel : sel.
Lemma validate_mack_log_sel m key prna gst_mack : selects mx (validate_mack_log mx m key prna gst_mack) (validate_mack_log tr m key prna gst_mack).
Proof.
  unfold validate_mack_log. cbv zeta. sel.
Qed.
#[local] Hint Resolve validate_mack_log_sel : sel.
Lemma process_tags_fast_log_sel st only_slowmac current_key gst_mack svn n : selects mx (process_tags_fast_log mx st only_slowmac current_key gst_mack svn n) (process_tags_fast_log tr st only_slowmac current_key gst_mack svn n).
Proof.
  unfold process_tags_fast_log. cbv zeta. sel.
Qed.
#[local] Hint Resolve process_tags_fast_log_sel : sel.
Lemma process_tags_slow_log_sel st slowmac_key current_key gst_slowmac svn n : selects mx (process_tags_slow_log mx st slowmac_key current_key gst_slowmac svn n) (process_tags_slow_log tr st slowmac_key current_key gst_slowmac svn n).
Proof.
  unfold process_tags_slow_log. cbv zeta. sel.
Qed.
#[local] Hint Resolve process_tags_slow_log_sel : sel.
Lemma process_tags_log_sel o current_key : selects mx (process_tags_log mx o current_key) (process_tags_log tr o current_key).
Proof.
  unfold process_tags_log. cbv zeta. sel.
Qed.
#[local] Hint Resolve process_tags_log_sel : sel.
Lemma osnma_validate_key_log_sel o mack g : selects mx (osnma_validate_key_log mx o mack g) (osnma_validate_key_log tr o mack g).
Proof.
  unfold osnma_validate_key_log. cbv zeta. sel.
Qed.
#[local] Hint Resolve osnma_validate_key_log_sel : sel.
Lemma process_subframe_log_sel o hkroot mack svn g : selects mx (process_subframe_log mx o hkroot mack svn g) (process_subframe_log tr o hkroot mack svn g).
Proof.
  unfold process_subframe_log. cbv zeta. sel.
Qed.
#[local] Hint Resolve process_subframe_log_sel : sel.
Lemma feed_osnma_log_sel o data svn g : selects mx (feed_osnma_log mx o data svn g) (feed_osnma_log tr o data svn g).
Proof.
  unfold feed_osnma_log. cbv zeta. sel.
Qed.
#[local] Hint Resolve feed_osnma_log_sel : sel.
Lemma step_log_sel o x : selects mx (step_log mx o x) (step_log tr o x).
Proof.
  unfold step_log. cbv zeta. sel.
Qed.
#[local] Hint Resolve step_log_sel : sel.
Lemma run_log_sel o h : selects mx (run_log mx o h) (run_log tr o h).
Proof. unfold run_log. sel. Qed.
End Functions.

(** Proofs about the programs that read a stream of packets, for any stream. *)
From Coq Require Import ZArith List Bool Lia ZifyBool ZifyNat.
From Verif Require Import Model.Prelude Model.Params Model.Transport Spec.TransportSpec Spec.StreamSpec Proofs.Base Proofs.TransportProofs.
Import ListNotations.
Open Scope Z_scope.

Section Codec.
Context {M : Type} {K : codec M}.

Lemma starts_app s ms (m : M) a b body rest : Z.of_nat (length body) = 256 * a + b -> decode body = Some m ->
  starts_with rest ms -> s = [98; 101; 114; 116; a; b] ++ body ++ rest -> starts_with s (m :: ms).
Proof. intros. subst s. now constructor. Qed.

Lemma header_eq (a b a' b' : Z) (l l' : list Z) : [98; 101; 114; 116; a; b] ++ l = [98; 101; 114; 116; a'; b'] ++ l' -> a = a' /\ b = b' /\ l = l'.
Proof.
  intros E. split; [exact (f_equal (fun l => nth 4 l 0) E)|]. split; [exact (f_equal (fun l => nth 5 l 0) E)|].
  exact (f_equal (fun l : list Z => match l with _ :: _ :: _ :: _ :: _ :: _ :: r => r | _ => [] end) E).
Qed.
Lemma body_eq (x y x' y' : list Z) : x ++ y = x' ++ y' -> length x = length x' -> x = x' /\ y = y'.
Proof.
  revert x'. induction x as [|a x IH]; intros [|a' x'] E L; try discriminate L; [auto|]. cbn in E, L.
  assert (a = a') by congruence. assert (x ++ y = x' ++ y') by congruence. destruct (IH x' H0) as (-> & ->); [lia|]. subst. auto.
Qed.
Lemma starts_next s (m : M) ms a b body rest : s = [98; 101; 114; 116; a; b] ++ body ++ rest -> Z.of_nat (length body) = 256 * a + b ->
  starts_with s (m :: ms) -> decode body = Some m /\ starts_with rest ms.
Proof.
  intros E Hl H. remember (m :: ms) as l eqn:El. destruct H as [|a' b' body' m' s' ms' Hl' Hd Hs]; [discriminate|].
  assert (m' = m) by congruence. assert (ms' = ms) by congruence. subst m' ms'.
  apply header_eq in E. destruct E as (<- & <- & E). apply body_eq in E; [|lia]. destruct E as (<- & <-). auto.
Qed.
Lemma starts_length s (m : M) ms : starts_with s (m :: ms) -> (6 <= length s)%nat.
Proof. intros H. inversion H. subst. rewrite app_length. cbn [length]. lia. Qed.

(** Nothing can be read. *)
Lemma read_stop s (r : result (option M) io_error) s' : read_spec s r s' -> (forall m, r <> ROk (Some m)) -> Forall is_byte (s_bytes s) ->
  forall m, ~ starts_with (s_bytes s) [m].
Proof.
  intros Hr Hn Hb m H. destruct Hr as [Hl|h rest E Hh Hm|a b rest E Hl|a b body rest E Hl].
  - pose proof (starts_length _ _ _ H). lia.
  - rewrite E in H. remember (h ++ rest) as x eqn:Ex. remember [m] as y eqn:Ey. destruct H as [|a b body m' s1 ms Hl Hd Hs]; [discriminate|].
    apply Hm. destruct h as [|h0 [|h1 [|h2 [|h3 [|h4 [|h5 [|]]]]]]]; try discriminate Hh. cbn [firstn].
    pose proof (f_equal (fun l => nth 0 l 0) Ex) as E0. pose proof (f_equal (fun l => nth 1 l 0) Ex) as E1.
    pose proof (f_equal (fun l => nth 2 l 0) Ex) as E2. pose proof (f_equal (fun l => nth 3 l 0) Ex) as E3. cbn [nth app] in *. now subst.
  - rewrite E in H. remember ([98; 101; 114; 116; a; b] ++ rest) as x eqn:Ex. remember [m] as y eqn:Ey.
    destruct H as [|a' b' body m' s1 ms Hl' Hd Hs]; [discriminate|]. apply header_eq in Ex. destruct Ex as (-> & -> & E'). subst rest. rewrite app_length in Hl. lia.
  - assert (Hab : 0 <= a /\ 0 <= b).
    { rewrite E in Hb. apply Forall_app in Hb. destruct Hb as (Hb & _). pose proof (proj1 (Forall_forall _ _) Hb) as Q. split; apply Q; cbn [In]; tauto. }
    destruct (starts_next _ _ _ _ _ _ _ E ltac:(lia) H) as (Hd & _). rewrite Hd in Hn. exact (Hn m eq_refl).
Qed.

Lemma loop_any {T} (P : T -> Prop) (f : T -> M -> outcome T) (body : T -> M -> outcome (result unit io_error * T)) :
  (forall x p, P x -> body x p = (x <- f x p ;; Ok (ROk tt, x))) -> (forall x p x', P x -> f x p = Ok x' -> P x') ->
  forall fuel t x, reader_ok t -> Forall is_byte (s_bytes (r_read t)) -> (length (s_bytes (r_read t)) < fuel)%nat -> P x ->
  match read_loop fuel body t x with
  | Ok (_, x') => exists ms, all_messages (s_bytes (r_read t)) ms /\ fold_outcome f ms x = Ok x'
  | Panic => exists ms m x', starts_with (s_bytes (r_read t)) (ms ++ [m]) /\ fold_outcome f ms x = Ok x' /\ f x' m = Panic
  end.
Proof.
  intros Hbody HP. induction fuel as [|fuel IH]; intros t x Hok Hb Hf Hx; [lia|].
  cbn [read_loop]. destruct (read_packet_spec (K := K) t Hok) as (r & t' & E & Hok' & Hr). rewrite E. cbn [bind].
  assert (Stop : (forall m, r <> ROk (Some m)) -> exists ms, all_messages (s_bytes (r_read t)) ms /\ fold_outcome f ms x = Ok x).
  { intros Hn. exists []. split; [|reflexivity]. split; [constructor|]. exact (read_stop _ _ _ Hr Hn Hb). }
  destruct r as [[m|]|e]; [|apply Stop; discriminate..]. clear Stop.
  inversion Hr as [| | |a b bd rest E1 E2 E3 E4].
  { destruct (s_fails (r_read t)); discriminate. }
  destruct (decode bd) as [m'|] eqn:Ed; [|discriminate]. assert (m' = m) by congruence. subst m'. clear E3.
  assert (Hab : 0 <= a /\ 0 <= b).
  { rewrite E1 in Hb. apply Forall_app in Hb. destruct Hb as (Hb & _).
    pose proof (proj1 (Forall_forall _ _) Hb) as Q. split; apply Q; cbn [In]; tauto. }
  assert (Hl : Z.of_nat (length bd) = 256 * a + b) by lia.
  assert (Er : s_bytes (r_read t') = rest) by (rewrite <- E4; reflexivity).
  assert (Hb' : Forall is_byte (s_bytes (r_read t'))) by (rewrite Er; rewrite E1, !Forall_app in Hb; apply Hb).
  assert (Hf' : (length (s_bytes (r_read t')) < fuel)%nat) by (rewrite Er; rewrite E1, !app_length in Hf; cbn [length] in Hf; lia).
  rewrite (Hbody x m Hx). destruct (f x m) as [x1|] eqn:Ef; cbn [bind].
  - specialize (IH t' x1 Hok' Hb' Hf' (HP _ _ _ Hx Ef)). rewrite Er in IH. destruct (read_loop _ _ _ _) as [[e x']|].
    + destruct IH as (ms & (I1 & I3) & I2). exists (m :: ms). split; [split|].
      * exact (starts_app _ _ _ _ _ _ _ Hl Ed I1 E1).
      * intros m2 H2. destruct (starts_next _ _ _ _ _ _ _ E1 Hl H2) as (_ & H3). exact (I3 m2 H3).
      * cbn [fold_outcome]. rewrite Ef. exact I2.
    + destruct IH as (ms & m2 & x' & I1 & I2 & I3). exists (m :: ms), m2, x'. split.
      * exact (starts_app _ _ _ _ _ _ _ Hl Ed I1 E1).
      * cbn [fold_outcome]. rewrite Ef. auto.
  - exists [], m, x. split; [|auto]. exact (starts_app _ _ _ a b bd rest Hl Ed (starts_none _) E1).
Qed.

Lemma starts_prefix s (a b : list M) : starts_with s (a ++ b) -> starts_with s a.
Proof.
  revert s. induction a as [|m a IH]; intros s H; [constructor|]. remember ((m :: a) ++ b) as l eqn:El.
  destruct H as [|x y body m' s' ms Hl Hd Hs]; [discriminate|]. cbn [app] in El. assert (m' = m) by congruence. assert (ms = a ++ b) by congruence. subst m' ms.
  constructor; [exact Hl|exact Hd|now apply IH].
Qed.
(** The messages of a stream are determined. *)
Lemma starts_fun s : forall (a b : list M), Forall is_byte s -> starts_with s a -> starts_with s b -> (length a <= length b)%nat -> exists c, b = a ++ c.
Proof.
  intros a b Hs Ha. revert b Hs. induction Ha as [s|x y body m s ms Hl Hd Hms IH]; intros b Hs Hb Hlen; [now exists b|].
  destruct b as [|m' b]; [cbn in Hlen; lia|].
  destruct (starts_next _ _ _ _ _ _ _ eq_refl Hl Hb) as (Hd' & Hb'). assert (m' = m) by congruence. subst m'.
  rewrite !Forall_app in Hs. destruct (IH b (proj2 (proj2 Hs)) Hb') as (c & ->); [cbn in Hlen; lia|]. now exists c.
Qed.
Lemma all_messages_fun s (a b : list M) : Forall is_byte s -> all_messages s a -> all_messages s b -> a = b.
Proof.
  assert (X : forall a b : list M, Forall is_byte s -> all_messages s a -> all_messages s b -> (length a <= length b)%nat -> a = b).
  { clear a b. intros a b Hs (Ha & Na) (Hb & Nb) Hl. destruct (starts_fun s a b Hs Ha Hb Hl) as (c & ->). destruct c as [|m c]; [now rewrite app_nil_r|].
    exfalso. apply (Na m). apply (starts_prefix _ _ c). rewrite <- app_assoc. exact Hb. }
  intros Hs Ha Hb. destruct (Nat.le_ge_cases (length a) (length b)); [now apply X|symmetry; now apply X].
Qed.

(** What is written. *)
Lemma frames_all (l : list M) : Forall readable l -> all_messages (concat (map frame l)) l.
Proof.
  assert (H256 : 256 <> 0) by lia. intros R. split.
  - induction R as [|m l (Hf & Hd) _ IH]; [constructor|]. cbn [map concat]. unfold frame at 1. rewrite <- !app_assoc.
    exact (starts_app _ _ _ _ _ _ _ (Z.div_mod _ 256 H256) Hd IH eq_refl).
  - intros m H. induction R as [|m' l (Hf & Hd) _ IH].
    + pose proof (starts_length _ _ _ H) as L. cbn in L. lia.
    + cbn [map concat app] in H. unfold frame at 1 in H. rewrite <- !app_assoc in H.
      destruct (starts_next _ _ _ _ _ _ _ eq_refl (Z.div_mod _ 256 H256) H) as (_ & H'). exact (IH H').
Qed.

(** ** galmon-filter-inav *)

Definition filter_step (has_inav : M -> bool) (k : sink) (p : M) : outcome sink :=
  if has_inav p then '(_, k) <- write_packet k p ;; Ok k else Ok k.
Lemma filter_step_fold has_inav : forall (ms : list M) b k, fold_outcome (filter_step has_inav) ms (mkSink b None) = Ok k ->
  k = mkSink (b ++ concat (map frame (filter has_inav ms))) None /\ Forall fits (filter has_inav ms).
Proof.
  induction ms as [|m ms IH]; intros b k H; cbn [fold_outcome filter] in *.
  - cbn [map concat]. rewrite app_nil_r. split; [congruence|constructor].
  - unfold filter_step at 1 in H. destruct (has_inav m); [|cbn [bind] in H; now apply IH].
    assert (D : fits m \/ ~ fits m) by (unfold fits; lia). destruct D as [D|D].
    + rewrite (write_packet_fits m b D) in H. cbn [bind] in H. destruct (IH _ _ H) as (-> & Hf). split; [|now constructor]. cbn [map concat]. now rewrite <- app_assoc.
    + rewrite (proj2 (write_packet_panics m _) D) in H. discriminate H.
Qed.
Lemma filter_any has_inav s fails : Forall is_byte s ->
  match filter_main has_inav (mkSource s fails) (mkSink [] None) with
  | Ok (_, k) => exists ms, all_messages s ms /\ Forall fits (filter has_inav ms) /\ k = mkSink (concat (map frame (filter has_inav ms))) None
  | Panic => exists ms (m : M), starts_with s (ms ++ [m]) /\ has_inav m = true /\ ~ fits m
  end.
Proof.
  intros Hs. unfold filter_main.
  pose proof (loop_any (fun k => k_room k = None) (filter_step has_inav)
    (fun k p => if has_inav p then '(r, k) <- write_packet k p ;; Ok (match r with ROk _ => ROk tt | RErr e => RErr e end, k) else Ok (ROk tt, k))) as L.
  assert (H1 : forall (k : sink) p, k_room k = None ->
    (if has_inav p then '(r, k) <- write_packet k p ;; Ok (match r with ROk _ => ROk tt | RErr e => RErr e end, k) else Ok ((ROk tt : result unit io_error), k))
    = (k <- filter_step has_inav k p ;; Ok (ROk tt, k))).
  { intros [kb kr] p Hk. cbn [k_room] in Hk. subst kr. unfold filter_step. destruct (has_inav p); [|reflexivity].
    assert (D : fits p \/ ~ fits p) by (unfold fits; lia). destruct D as [D|D].
    - rewrite (write_packet_fits p kb D). reflexivity.
    - rewrite (proj2 (write_packet_panics p _) D). reflexivity. }
  assert (H2 : forall (k : sink) p k', k_room k = None -> filter_step has_inav k p = Ok k' -> k_room k' = None).
  { intros [kb kr] p k' Hk H. cbn [k_room] in Hk. subst kr. unfold filter_step in H. destruct (has_inav p); [|apply ok_inj in H; now subst].
    assert (D : fits p \/ ~ fits p) by (unfold fits; lia). destruct D as [D|D].
    - rewrite (write_packet_fits p kb D) in H. cbn [bind] in H. apply ok_inj in H. now subst.
    - rewrite (proj2 (write_packet_panics p _) D) in H. discriminate H. }
  specialize (L H1 H2 (read_fuel (mkSource s fails)) (reader_new (mkSource s fails)) (mkSink [] None) (reader_new_ok _) Hs ltac:(unfold read_fuel; cbn; lia) eq_refl).
  destruct (read_loop _ _ _ _) as [[e k]|].
  - destruct L as (ms & L1 & L2). exists ms. split; [exact L1|]. destruct (filter_step_fold has_inav ms [] k L2) as (-> & Hf). split; [exact Hf|reflexivity].
  - destruct L as (ms & m & k & L1 & L2 & L3). exists ms, m. split; [exact L1|]. unfold filter_step in L3. destruct (has_inav m); [|discriminate L3]. split; [reflexivity|].
    apply (write_packet_panics m k). destruct (write_packet k m) as [[r k']|]; [discriminate L3|reflexivity].
Qed.

End Codec.

(** C58: what the programs trust, and what galmon-osnma prints, for any command line and any
    input. *)
From Coq Require Import ZArith String List Bool Lia ZifyBool ZifyNat.
From Verif Require Import Model.Prelude Model.Params Model.Gst Model.Merkle Model.Nav Model.Osnma Model.Transport Model.Apps
  Model.Serial Model.TestVectors Model.Protobuf Model.Config
  Spec.TimeSpec Spec.CollectSpec Spec.NavSpec Spec.KrootSpec Spec.MerkleSpec Spec.SystemSpec Spec.TransportSpec Spec.StreamSpec Spec.AppsSpec Spec.VectorsSpec Spec.ProtobufSpec
  Spec.ConfigSpec
  Proofs.Base Proofs.GstProofs Proofs.TransportProofs Proofs.AppsProofs Proofs.VectorsProofs
  Proofs.ProtobufProofs Proofs.ProtobufMain Proofs.ProtobufTrip Proofs.StreamProofs Proofs.ConfigProofs
  Props.SystemProps Props.AppsProps Examples.Toy Examples.Vectors Examples.Transmit.
Import ListNotations.
Open Scope list_scope.
Open Scope Z_scope.

Section Program.
Context {C : crypto} {B : build} {S : storage} {F : key_files C}.

(** The library is started with exactly what the command line says; if it says nothing sensible,
    there is an error.  There is no panic. *)
Theorem C58_configuration : forall a,
  (forall root user slow, configures a root user slow -> galmon_setup a = Ok (ROk (osnma_new root user slow))) /\
  ((forall root user slow, ~ configures a root user slow) -> exists e, galmon_setup a = Ok (RErr e)).
Proof.
  intros a. destruct (setup_spec a) as [(root & user & Hc & E)|(e & E & Hn)].
  - split.
    + intros root' user' slow' Hc'. destruct (configures_fun _ _ _ _ _ _ _ Hc Hc') as (<- & <- & <-). exact E.
    + intros H. exfalso. exact (H _ _ _ Hc).
  - split; [intros root user slow Hc; exfalso; exact (Hn _ _ _ Hc)|]. intros _. now exists e.
Qed.
(** The command line does not say two things. *)
Theorem C58_one_meaning : forall a root user slow root' user' slow',
  configures a root user slow -> configures a root' user' slow' -> root = root' /\ user = user' /\ slow = slow'.
Proof. exact configures_fun. Qed.

Notation program := (galmon_program (K := message_codec)).
Notation starts := (starts_with (K := message_codec)).

(** The entries of a log are what they should be, for a part of the input. *)
Definition log_sound (root : option (list Z)) (user : option public_key) (slow : bool) (s : list Z) (log : list event) : Prop :=
  forall v, In v log -> exists before h, starts s before /\ feeds_all [] (inav_packets before) h /\
    authenticated root user slow h (v_kind v) (v_svn v) (v_data v) (v_authbits v) /\
    exists tags, v_authbits v = Z.min 65535 (Z.of_nat (List.length (concat tags))) /\
      forall tag, In tag tags -> verified_in_time root user h (v_kind v) (v_svn v) (v_data v) tag.

Lemma fold_log_sound : crypto_ok C -> storage_ok S -> forall root user slow s ms z, Forall is_byte s -> starts s ms ->
  (overflow_checks = true \/ Forall week_fits (inav_packets ms)) ->
  fold_outcome galmon_step ms (galmon_new (osnma_new root user slow)) = Ok z -> log_sound root user slow s (z_log z).
Proof.
  intros HC HS root user slow s ms z Hs Hms Hw Hz v Hv.
  assert (Hok : Forall message_ok ms).
  { apply (starts_ok (K := message_codec) s ms); [|exact Hs|exact Hms]. intros b m Hb Hm. apply message_fits_ok. exact (message_decoded b m Hb Hm). }
  destruct (C52_logged_data_is_authenticated HC HS root user slow ms z v Hok Hw Hz Hv) as (before & after & h & E & Hf & Ha & Ht).
  exists before, h. split; [|auto]. subst ms. exact (starts_prefix _ _ _ Hms).
Qed.

(** Whatever the command line and whatever the input, also if it is forged, cut or not made of
    packets at all: each line that galmon-osnma prints is about data that was authenticated, with
    what the command line says is trusted, by the packets before it.  All packets before the end or
    the first error are taken into account.  The week number has to fit unless the program checks
    for overflow. *)
Theorem C58_program : crypto_ok C -> storage_ok S -> forall a s fails e z, Forall is_byte s ->
  (overflow_checks = true \/ forall ms, starts s ms -> Forall week_fits (inav_packets ms)) ->
  program a (mkSource s fails) = Ok (ROk (e, z)) ->
  exists root user slow ms, configures a root user slow /\ all_messages (K := message_codec) s ms /\
    fold_outcome galmon_step ms (galmon_new (osnma_new root user slow)) = Ok z /\
    log_sound root user slow s (z_log z).
Proof.
  intros HC HS a s fails e z Hs Hw H. unfold galmon_program in H.
  destruct (setup_spec a) as [(root & user & Hc & E)|(e' & E & _)]; rewrite E in H; cbn [bind] in H; [|discriminate].
  pose proof (galmon_any (K := message_codec) (osnma_new root user (a_slow_mac_only a)) s fails Hs) as X.
  destruct (galmon_main _ _) as [[e' z']|]; [|discriminate]. cbn [bind] in H. apply ok_inj in H.
  assert (z' = z) by congruence. subst z'. destruct X as (ms & Hms & Hf).
  exists root, user, (a_slow_mac_only a), ms. split; [exact Hc|]. split; [exact Hms|]. split; [exact Hf|].
  apply (fold_log_sound HC HS _ _ _ s ms z Hs (proj1 Hms)); [|exact Hf]. destruct Hw as [Hw|Hw]; [now left|right; exact (Hw ms (proj1 Hms))].
Qed.

(** If it panics, then in the work on one of the packets, and what was printed before that is as it
    should be. *)
Theorem C58_program_panics : crypto_ok C -> storage_ok S -> forall a s fails, Forall is_byte s ->
  (overflow_checks = true \/ forall ms, starts s ms -> Forall week_fits (inav_packets ms)) ->
  program a (mkSource s fails) = Panic ->
  exists root user slow ms m z, configures a root user slow /\ starts s (ms ++ [m]) /\
    fold_outcome galmon_step ms (galmon_new (osnma_new root user slow)) = Ok z /\ galmon_step z m = Panic /\
    log_sound root user slow s (z_log z).
Proof.
  intros HC HS a s fails Hs Hw H. unfold galmon_program in H.
  destruct (setup_spec a) as [(root & user & Hc & E)|(e' & E & _)]; rewrite E in H; cbn [bind] in H; [|discriminate].
  pose proof (galmon_any (K := message_codec) (osnma_new root user (a_slow_mac_only a)) s fails Hs) as X.
  destruct (galmon_main _ _) as [[e' z']|]; [discriminate|]. destruct X as (ms & m & z & Hms & Hf & Hp).
  pose proof (starts_prefix _ _ _ Hms) as Hpre.
  exists root, user, (a_slow_mac_only a), ms, m, z. split; [exact Hc|]. split; [exact Hms|]. split; [exact Hf|]. split; [exact Hp|].
  apply (fold_log_sound HC HS _ _ _ s ms z Hs Hpre); [|exact Hf]. destruct Hw as [Hw|Hw]; [now left|right; exact (Hw ms Hpre)].
Qed.

(** If none of them makes it panic, it works on all packets before the end or the first error. *)
Theorem C58_program_completes : forall a root user slow s fails ms z, Forall is_byte s -> configures a root user slow ->
  all_messages (K := message_codec) s ms -> fold_outcome galmon_step ms (galmon_new (osnma_new root user slow)) = Ok z ->
  exists e, program a (mkSource s fails) = Ok (ROk (e, z)).
Proof.
  intros a root user slow s fails ms z Hs Hc Hms Hf. unfold galmon_program. rewrite (proj1 (C58_configuration a) _ _ _ Hc). cbn [bind].
  pose proof (galmon_any (K := message_codec) (osnma_new root user slow) s fails Hs) as X. destruct (galmon_main _ _) as [[e z']|].
  - destruct X as (ms' & Hms' & Hf'). pose proof (all_messages_fun _ _ _ Hs Hms' Hms) as E. subst ms'. exists e. cbn [bind]. congruence.
  - exfalso. destruct X as (ms' & m & z' & Hms' & Hf' & Hp).
    assert (P : exists c, ms = (ms' ++ [m]) ++ c).
    { destruct (Nat.le_gt_cases (List.length (ms' ++ [m])) (List.length ms)) as [Hl|Hl]; [exact (starts_fun _ _ _ Hs Hms' (proj1 Hms) Hl)|].
      destruct (starts_fun _ _ _ Hs (proj1 Hms) Hms' ltac:(lia)) as (c & E). destruct c as [|m' c].
      - rewrite app_nil_r in E. rewrite E in Hl. lia.
      - exfalso. apply (proj2 Hms m'). apply (starts_prefix _ _ c). rewrite <- app_assoc. cbn [app]. rewrite <- E. exact Hms'. }
    destruct P as (c & ->). rewrite !fold_outcome_app, Hf' in Hf. cbn [bind fold_outcome] in Hf. rewrite Hp in Hf. discriminate Hf.
Qed.

(** If the command line says nothing sensible, nothing is read. *)
Theorem C58_no_configuration : forall a s, (forall root user slow, ~ configures a root user slow) ->
  exists e, program a s = Ok (RErr e).
Proof.
  intros a s H. destruct (proj2 (C58_configuration a) H) as (e & E). exists e. unfold galmon_program. rewrite E. reflexivity.
Qed.

(** The id of the key is a number of 8 bits, but that in a DSM-KROOT has 4 bits.  With a larger one
    and no Merkle tree root, nothing is ever printed. *)
Theorem C58_large_id : crypto_ok C -> storage_ok S -> forall a pk slow s fails e z, Forall is_byte s ->
  (overflow_checks = true \/ forall ms, starts s ms -> Forall week_fits (inav_packets ms)) ->
  configures a None (Some pk) slow -> 16 <= pk_id pk ->
  program a (mkSource s fails) = Ok (ROk (e, z)) -> z_log z = [].
Proof.
  intros HC HS a pk slow s fails e z Hs Hw Hc Hid H.
  destruct (C58_program HC HS a s fails e z Hs Hw H) as (root & user & slow' & ms & Hc' & _ & _ & Hl).
  destruct (configures_fun _ _ _ _ _ _ _ Hc Hc') as (<- & <- & <-).
  destruct (z_log z) as [|v l]; [reflexivity|exfalso]. destruct (Hl v (or_introl eq_refl)) as (before & h & _ & _ & Ha & _).
  destruct Ha as (Hn & tags & En & Ht). destruct tags as [|tag tags]; [cbn in En; lia|].
  destruct (Ht tag (or_introl eq_refl)) as (h1 & h2 & _ & adkd & delay & cop & prna & gn & g & key & Hv & _).
  destruct Hv as (prnk & hk & mk & hkroot & mack & _ & _ & _ & Hk & _). destruct Hk as (kr & n & Hr & _).
  destruct Hr as (id & d & f & pk' & svn & g' & hkr & mck & _ & _ & Hlay & _ & Htr & Hp & _).
  destruct Htr as [Htr|(r & _ & _ & _ & Htr & _)]; [|discriminate]. assert (pk' = pk) by congruence. subst pk'.
  pose proof (kl_width _ _ Hlay) as W. apply Forall_inv_tail, Forall_inv in W. unfold in_width in W. cbn [fst snd] in W. change (2 ^ Z.of_nat 4) with 16 in W. lia.
Qed.

(** The firmware: build.rs makes the constants exactly from files that have a key, an id of 8 bits
    and a Merkle tree root, and the library is started with these, if the key can be read again as
    it was written. *)
Theorem C58_firmware_constants : forall pem id root c n r,
  firmware_constants pem id root = Ok (c, n, r) <-> exists key, firmware_says pem id root key n r /\ c = p256_to_sec1 key.
Proof.
  intros pem id root c n r. split; [apply firmware_sound|]. intros (key & H & ->). now apply firmware_ok.
Qed.
Theorem C58_firmware : forall pem id root key n r, firmware_says pem id root key n r -> p256_from_sec1 (p256_to_sec1 key) = Some key ->
  ('(c, n, r) <- firmware_constants pem id root ;; firmware_setup c n r) = Ok (osnma_new (Some r) (Some (mkPub (VkP256 key) n)) false).
Proof.
  intros pem id root key n r H Hk. rewrite (firmware_ok _ _ _ _ _ _ H). cbn [bind]. unfold firmware_setup. rewrite Hk. reflexivity.
Qed.
End Program.

(** * Examples *)

(** Files that have the key as it is. *)
Definition toy_files : key_files toy_crypto :=
  {| pem_file := fun path => if (List.length path =? 33)%nat then Some path else None;
     pem_text := fun path => if (List.length path =? 33)%nat then Some path else None;
     p256_to_sec1 := fun k => k |}.
Definition c58_args : args := mkArgs None (Some (pk_bytes 3)) None (Some 3) false.
Definition c58_bytes : list Z := Eval vm_compute in concat (map (frame (K := message_codec)) log_packets).

Definition message_fitsb (m : message) : bool :=
  let u64 z := (0 <=? z) && (z <? 2 ^ 64) in
  let u32 z := (0 <=? z) && (z <? 2 ^ 32) in
  let bytes l := forallb (fun b => (0 <=? b) && (b <? 256)) l in
  u64 (m_source_id m) && ((- 2 ^ 31 <=? m_type m) && (m_type m <? 2 ^ 31)) && u64 (m_utc_seconds m) && u64 (m_utc_nanoseconds m) &&
  match m_gi m with
  | None => true
  | Some p =>
      u32 (p_wn p) && u32 (p_tow p) && u32 (p_id p) && u32 (p_sv p) &&
      match p_sigid p with Some n => u32 n | None => true end && match p_ssp p with Some n => u32 n | None => true end &&
      bytes (p_contents p) &&
      forallb (fun o => match o with Some l => bytes l | None => true end) [p_reserved1 p; p_reserved2 p; p_sar p; p_spare p; p_crc p]
  end.
Lemma message_fitsb_ok m : message_fitsb m = true -> message_fits m.
Proof.
  unfold message_fitsb, message_fits. intros H. apply andb_prop in H. destruct H as (H & Hp). repeat (apply andb_prop in H; destruct H as (H & ?)).
  split; [lia|]. split; [lia|]. split; [lia|]. split; [lia|]. intros p Ep. rewrite Ep in Hp. apply andb_prop in Hp. destruct Hp as (Hp & Hl).
  repeat (apply andb_prop in Hp; destruct Hp as (Hp & ?)).
  split; [lia|]. split; [lia|]. split; [lia|]. split; [lia|]. split.
  { intros n [E|E]; rewrite E in *; lia. }
  split; [now apply bytesb_ok|]. intros l Hin. rewrite forallb_forall in Hl. specialize (Hl _ Hin). now apply bytesb_ok.
Qed.
Lemma log_packets_readable : Forall (readable (K := message_codec)) log_packets.
Proof.
  assert (H : forallb (fun m => message_fitsb m && (Z.of_nat (List.length (encode (codec := message_codec) m)) <? 65536)) log_packets = true) by (vm_compute; reflexivity).
  rewrite forallb_forall in H. apply Forall_forall. intros m Hm. specialize (H m Hm). apply andb_prop in H. destruct H as (H1 & H2).
  apply message_fitsb_ok in H1. apply Z.ltb_lt in H2. split; [exact H2|]. now apply message_round_trip.
Qed.
Lemma c58_bytes_all : all_messages (K := message_codec) c58_bytes log_packets.
Proof.
  assert (E : c58_bytes = concat (map (frame (K := message_codec)) log_packets)) by (vm_compute; reflexivity).
  rewrite E. apply frames_all, log_packets_readable.
Qed.
Lemma c58_configures : configures (C := toy_crypto) (F := toy_files) c58_args None (Some (tx_pub 3)) false.
Proof.
  split; [reflexivity|]. split; [reflexivity|]. split; [|right; discriminate]. split; [reflexivity|]. cbn [tx_pub pk_key].
  split; [reflexivity|]. exists (pk_bytes 3). split; [reflexivity|]. vm_compute. reflexivity.
Qed.
Lemma c58_weeks ms : starts_with (K := message_codec) c58_bytes ms -> Forall week_fits (inav_packets ms).
Proof.
  intros H. destruct (Nat.le_gt_cases (List.length ms) (List.length log_packets)) as [Hl|Hl].
  - assert (Hb : Forall is_byte c58_bytes) by (apply bytesb_ok; vm_compute; reflexivity).
    destruct (starts_fun _ ms log_packets Hb H (proj1 c58_bytes_all) Hl) as (c & E). pose proof log_packets_weeks as W. rewrite E in W.
    unfold inav_packets in W. rewrite flat_map_app in W. exact (proj1 (proj1 (Forall_app _ _ _) W)).
  - exfalso. assert (Hb : Forall is_byte c58_bytes) by (apply bytesb_ok; vm_compute; reflexivity).
    destruct (starts_fun _ log_packets ms Hb (proj1 c58_bytes_all) H ltac:(lia)) as (c & E). destruct c as [|m c].
    + rewrite app_nil_r in E. subst ms. lia.
    + apply (proj2 c58_bytes_all m). apply (starts_prefix _ _ c). rewrite <- app_assoc. cbn [app]. rewrite <- E. exact H.
Qed.

Lemma c58_bytes_ok : Forall is_byte c58_bytes.
Proof. apply bytesb_ok. vm_compute. reflexivity. Qed.
Lemma c58_length : Z.of_nat (List.length c58_bytes) = 7951.
Proof. vm_compute. reflexivity. Qed.
Lemma c58_log : exists z, log_run = Ok z /\ List.length (z_log z) = 3%nat.
Proof.
  pose proof log_run_log as L. destruct log_run as [z|]; [|discriminate L]. exists z. split; [reflexivity|].
  cbn [log_view bind] in L. apply ok_inj, (f_equal (@List.length _)) in L. rewrite map_length in L. exact L.
Qed.
Lemma c58_runs z : log_run = Ok z -> exists e, galmon_program (S := small_storage) (F := toy_files) (K := message_codec) c58_args (mkSource c58_bytes false) = Ok (ROk (e, z)).
Proof.
  exact (C58_program_completes (S := small_storage) (F := toy_files) c58_args None (Some (tx_pub 3)) false c58_bytes false log_packets z
              c58_bytes_ok c58_configures c58_bytes_all).
Qed.
(** The packets of C52 as bytes: three lines are printed. *)
Example C58_example : crypto_ok toy_crypto /\ storage_ok small_storage /\ Forall is_byte c58_bytes /\ Z.of_nat (List.length c58_bytes) = 7951 /\
  (forall ms, starts_with (K := message_codec) c58_bytes ms -> Forall week_fits (inav_packets ms)) /\
  configures (F := toy_files) c58_args None (Some (tx_pub 3)) false /\
  exists e z, galmon_program (S := small_storage) (F := toy_files) (K := message_codec) c58_args (mkSource c58_bytes false) = Ok (ROk (e, z)) /\
    List.length (z_log z) = 3%nat.
Proof.
  split; [apply toy_crypto_ok|]. split; [apply small_storage_ok|]. split; [exact c58_bytes_ok|]. split; [exact c58_length|].
  split; [exact c58_weeks|]. split; [exact c58_configures|].
  destruct c58_log as (z & E & L). destruct (c58_runs z E) as (e & Hp). exists e, z. split; [exact Hp|exact L].
Qed.

(** Command lines that say nothing sensible: nothing at all, an id without a key, a root of 31 bytes. *)
Example C58_errors :
  map (fun a => match galmon_setup (S := small_storage) (F := toy_files) a with Ok (RErr e) => Some e | _ => None end)
    [mkArgs None None None None false; mkArgs (Some (hex_encode (repeat 7 32))) None None (Some 3) false;
     mkArgs (Some (hex_encode (repeat 7 31))) None None None true; mkArgs None (Some (pk_bytes 3)) (Some (hex_encode (repeat 2 67))) (Some 3) true]
  = [Some NothingGiven; Some PkidWithoutKey; Some WrongMerkleLength; Some BothKeys].
Proof. vm_compute. reflexivity. Qed.
(** A root and a P-521 key. *)
Example C58_both_example : configures (C := toy_crypto) (F := toy_files)
  (mkArgs (Some (hex_encode (repeat 7 32))) None (Some (hex_encode (repeat 2 67))) (Some 9) true)
  (Some (repeat 7 32)) (Some (mkPub (VkP521 (repeat 2 67)) 9)) true.
Proof.
  split; [reflexivity|]. split.
  - exists (hex_encode (repeat 7 32)). split; [reflexivity|]. split; [apply hex_decode_text; vm_compute; reflexivity|reflexivity].
  - split; [|left; discriminate]. split; [reflexivity|]. cbn [pk_key]. split; [reflexivity|]. exists (hex_encode (repeat 2 67)), (repeat 2 67).
    split; [reflexivity|]. split; [apply hex_decode_text; vm_compute; reflexivity|vm_compute; reflexivity].
Qed.
(** A key with id 16. *)
Example C58_large_id_example : configures (C := toy_crypto) (F := toy_files) (mkArgs None (Some (pk_bytes 3)) None (Some 16) false)
  None (Some (mkPub (VkP256 (pk_bytes 3)) 16)) false.
Proof.
  split; [reflexivity|]. split; [reflexivity|]. split; [|right; discriminate]. split; [reflexivity|]. cbn [pk_key].
  split; [reflexivity|]. exists (pk_bytes 3). split; [reflexivity|]. vm_compute. reflexivity.
Qed.
(** Files for the firmware, with spaces and a line end. *)
Example C58_firmware_example : firmware_says (C := toy_crypto) (F := toy_files) (pk_bytes 3) (text " 03" ++ [13; 10]) (hex_encode (repeat 7 32) ++ [10])
  (pk_bytes 3) 3 (repeat 7 32) /\ p256_from_sec1 (p256_to_sec1 (key_files := toy_files) (pk_bytes 3)) = Some (pk_bytes 3).
Proof.
  split; [|vm_compute; reflexivity]. split; [vm_compute; reflexivity|]. split.
  - exists (text "03"). split; [|split; [apply parse_number; vm_compute; reflexivity|lia]]. exists [32], [13; 10]. split; [reflexivity|].
    repeat (constructor; [lia|]). constructor.
  - exists (hex_encode (repeat 7 32)). split; [|split; [apply hex_decode_text; vm_compute; reflexivity|reflexivity]].
    exists [], [10]. split; [reflexivity|]. constructor; [lia|constructor].
Qed.

Print Assumptions C58_configuration.
Print Assumptions C58_one_meaning.
Print Assumptions C58_program.
Print Assumptions C58_program_panics.
Print Assumptions C58_program_completes.
Print Assumptions C58_no_configuration.
Print Assumptions C58_large_id.
Print Assumptions C58_firmware_constants.
Print Assumptions C58_firmware.

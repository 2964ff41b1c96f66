(** Proofs about the start of the programs. *)
From Coq Require Import ZArith List Bool Lia ZifyBool ZifyNat.
From Verif Require Import Model.Prelude Model.Params Model.Merkle Model.Osnma Model.Transport Model.Apps Model.Serial Model.Config
  Spec.VectorsSpec Spec.ConfigSpec Spec.StreamSpec Proofs.Base Proofs.TransportProofs Proofs.VectorsProofs Proofs.StreamProofs.
Import ListNotations.
Open Scope Z_scope.

Section Config.
Context {C : crypto} {B : build} {S : storage} {F : key_files C}.

Lemma load_pubkey_cases path pkid :
  (exists k, pem_file path = Some k /\ load_pubkey path pkid = ROk (mkPub (VkP256 k) pkid)) \/
  (pem_file path = None /\ load_pubkey path pkid = RErr BadPubkey).
Proof. unfold load_pubkey. destruct (pem_file path) as [k|]; [left; now exists k|now right]. Qed.
Lemma load_p521_cases hex pkid :
  (exists l k, hex_text hex l /\ p521_from_sec1 l = Some k /\ load_pubkey_p521 hex pkid = ROk (mkPub (VkP521 k) pkid)) \/
  ((forall l k, hex_text hex l -> p521_from_sec1 l <> Some k) /\ load_pubkey_p521 hex pkid = RErr BadPubkey).
Proof.
  unfold load_pubkey_p521. destruct (hex_decode hex) as [l|] eqn:E.
  - pose proof (proj1 (hex_decode_text _ _) E) as H. destruct (p521_from_sec1 l) as [k|] eqn:Ek.
    + left. exists l, k. auto.
    + right. split; [|reflexivity]. intros l' k H'. apply hex_decode_text in H'. congruence.
  - right. split; [|reflexivity]. intros l' k H'. apply hex_decode_text in H'. congruence.
Qed.

Lemma setup_spec a :
  (exists root user, configures a root user (a_slow_mac_only a) /\
     galmon_setup a = Ok (ROk (osnma_new root user (a_slow_mac_only a)))) \/
  (exists e, galmon_setup a = Ok (RErr e) /\ forall root user slow, ~ configures a root user slow).
Proof.
  destruct a as [mr pk p5 id slow]. unfold galmon_setup, configures, root_given.
  cbn [a_merkle_root a_slow_mac_only].
  (* the key *)
  assert (Hkey : (exists user, match user with Some k => key_given (mkArgs mr pk p5 id slow) k | None => no_key_given (mkArgs mr pk p5 id slow) end /\
                    load_key (mkArgs mr pk p5 id slow) = Ok (ROk user) /\ (is_none mr && is_none pk && is_none p5 = false -> user <> None \/ mr <> None) /\
                    (forall user', match user' with Some k => key_given (mkArgs mr pk p5 id slow) k | None => no_key_given (mkArgs mr pk p5 id slow) end -> user' = user)) \/
                 ((exists e, check_args (mkArgs mr pk p5 id slow) = Some e \/ load_key (mkArgs mr pk p5 id slow) = Ok (RErr e)) /\
                  forall user, ~ match user with Some k => key_given (mkArgs mr pk p5 id slow) k | None => no_key_given (mkArgs mr pk p5 id slow) end)).
  { unfold key_given, no_key_given, load_key, check_args. cbn [a_merkle_root a_pubkey a_pubkey_p521 a_pkid a_slow_mac_only unwrap bind].
    destruct pk as [path|], p5 as [hex|].
    - right. split.
      + exists BothKeys. left. destruct mr; reflexivity.
      + intros [k|]; [|intuition congruence]. destruct k as [[k|k] i]; cbn [pk_key]; intuition congruence.
    - destruct id as [i|]; cbn [unwrap bind].
      + destruct (load_pubkey_cases path i) as [(k & E & ->)|(E & ->)].
        * left. exists (Some (mkPub (VkP256 k) i)). cbn [pk_id pk_key]. split; [split; [reflexivity|]; split; [reflexivity|]; now exists path|].
          split; [reflexivity|]. split; [now left|].
          intros [[[k'|k'] i']|]; cbn [pk_id pk_key]; [|intuition congruence..]. intros (H1 & _ & path' & H2 & H3). congruence.
        * right. split; [exists BadPubkey; now right|].
          intros [[[k'|k'] i']|]; cbn [pk_id pk_key]; [|intuition congruence..]. intros (_ & _ & path' & H2 & H3). congruence.
      + right. split; [exists PubkeyWithoutPkid; left; destruct mr; reflexivity|].
        intros [[[k'|k'] i']|]; cbn [pk_id pk_key]; intuition congruence.
    - destruct id as [i|]; cbn [unwrap bind].
      + destruct (load_p521_cases hex i) as [(l & k & E & E' & ->)|(E & ->)].
        * left. exists (Some (mkPub (VkP521 k) i)). cbn [pk_id pk_key]. split; [split; [reflexivity|]; split; [reflexivity|]; now exists hex, l|].
          split; [reflexivity|]. split; [now left|].
          intros [[[k'|k'] i']|]; cbn [pk_id pk_key]; [intros (_ & _ & path & H & _); discriminate H| |intuition congruence]. intros (H1 & _ & hex' & l' & H2 & H3 & H4).
          assert (hex' = hex) by congruence. subst hex'. apply hex_decode_text in E, H3. congruence.
        * right. split; [exists BadPubkey; now right|].
          intros [[[k'|k'] i']|]; cbn [pk_id pk_key]; [intros (_ & _ & path & H & _); discriminate H| |intuition congruence]. intros (_ & _ & hex' & l' & H2 & H3 & H4).
          assert (hex' = hex) by congruence. subst hex'. now apply (E l' k').
      + right. split; [exists Pubkey521WithoutPkid; left; destruct mr; reflexivity|].
        intros [[[k'|k'] i']|]; cbn [pk_id pk_key]; intuition congruence.
    - destruct id as [i|]; cbn [unwrap bind].
      + right. split. { destruct mr; [exists PkidWithoutKey|exists NothingGiven]; left; reflexivity. }
        intros [[[k'|k'] i']|]; cbn [pk_id pk_key]; [intros (_ & _ & path & H & _); discriminate H|intros (_ & _ & path & l & H & _); discriminate H|intuition congruence].
      + left. exists None. split; [auto|]. split; [reflexivity|]. split; [destruct mr; [right; congruence|discriminate]|].
        intros [[[k'|k'] i']|]; cbn [pk_id pk_key]; [intros (_ & _ & path & H & _); discriminate H|intros (_ & _ & path & l & H & _); discriminate H|reflexivity]. }
  destruct Hkey as [(user & H1 & H2 & H3 & H4)|((e & He) & H)].
  2: { right. destruct (check_args (mkArgs mr pk p5 id slow)) as [e'|] eqn:Ec.
       - exists e'. split; [reflexivity|]. intros root user slow' (_ & _ & Hu & _). exact (H user Hu).
       - destruct He as [He|He]; [discriminate|]. exists e. rewrite He. split; [reflexivity|].
         intros root user slow' (_ & _ & Hu & _). exact (H user Hu). }
  destruct (check_args (mkArgs mr pk p5 id slow)) as [e'|] eqn:Ec.
  - right. exists e'. split; [reflexivity|]. intros root user' slow' (_ & Hr & Hu & Hsome).
    unfold key_given, no_key_given in *. cbn [a_pubkey a_pubkey_p521 a_pkid] in *. unfold check_args in Ec. cbn [a_merkle_root a_pubkey a_pubkey_p521 a_pkid] in Ec.
    destruct user' as [[[k|k] i]|]; cbn [pk_id pk_key] in *.
    + destruct Hu as (-> & -> & path & -> & _). destruct mr; discriminate Ec.
    + destruct Hu as (-> & -> & path & l & -> & _). destruct mr; discriminate Ec.
    + destruct Hu as (-> & -> & ->). destruct root as [r|]; [destruct Hr as (hex & -> & _); discriminate Ec|].
      destruct Hsome as [Hs|Hs]; now apply Hs.
  - rewrite H2. cbn [bind]. unfold make_osnma. cbn [a_merkle_root a_slow_mac_only].
    destruct mr as [hex|].
    + destruct (hex_decode hex) as [l|] eqn:Eh.
      * destruct (length l =? 32)%nat eqn:El.
        -- left. exists (Some l), user. split; [|reflexivity]. split; [reflexivity|]. split.
           { exists hex. split; [reflexivity|]. split; [now apply hex_decode_text|now apply Nat.eqb_eq]. }
           split; [exact H1|]. left. discriminate.
        -- right. eexists. split; [reflexivity|]. intros root user' slow' (_ & Hr & _ & _).
           destruct root as [r|]; [|discriminate Hr]. destruct Hr as (hex' & X1 & X2 & X3).
           apply hex_decode_text in X2. assert (hex' = hex) by congruence. subst hex'. assert (r = l) by congruence. subst r.
           apply Nat.eqb_neq in El. now apply El.
      * right. eexists. split; [reflexivity|]. intros root user' slow' (_ & Hr & _ & _).
        destruct root as [r|]; [|discriminate Hr]. destruct Hr as (hex' & X1 & X2 & X3).
        apply hex_decode_text in X2. congruence.
    + assert (Hn : is_none (@None (list Z)) && is_none pk && is_none p5 = false).
      { unfold check_args in Ec. cbn [a_merkle_root a_pubkey a_pubkey_p521] in Ec. destruct (_ && _); [discriminate|reflexivity]. }
      destruct user as [k|]; [|destruct (H3 Hn); congruence].
      left. exists None, (Some k). split; [|reflexivity]. split; [reflexivity|]. split; [reflexivity|]. split; [exact H1|]. right. discriminate.
Qed.

(** The command line says only one thing. *)
Lemma configures_fun a root user slow root' user' slow' : configures a root user slow -> configures a root' user' slow' ->
  root = root' /\ user = user' /\ slow = slow'.
Proof.
  intros (S1 & R1 & U1 & _) (S2 & R2 & U2 & _). split; [|split; [|congruence]].
  - destruct root as [r|], root' as [r'|]; try reflexivity; try (destruct R1 as (? & ? & _); congruence); try (destruct R2 as (? & ? & _); congruence).
    destruct R1 as (hex & A1 & A2 & _), R2 as (hex' & B1 & B2 & _). apply hex_decode_text in A2, B2. congruence.
  - unfold key_given, no_key_given in *.
    destruct user as [[[k|k] i]|], user' as [[[k'|k'] i']|]; cbn [pk_id pk_key] in *; try reflexivity; try (intuition congruence).
    + destruct U1 as (A1 & A2 & p & A3 & A4), U2 as (B1 & B2 & q & B3 & B4). congruence.
    + destruct U1 as (A1 & A2 & p & A3 & A4), U2 as (B1 & B2 & q & l & B3 & B4). congruence.
    + destruct U2 as (A1 & A2 & p & A3 & A4), U1 as (B1 & B2 & q & l & B3 & B4). congruence.
    + destruct U1 as (A1 & A2 & p & l & A3 & A4 & A5), U2 as (B1 & B2 & q & l' & B3 & B4 & B5).
      apply hex_decode_text in A4, B4. congruence.
Qed.

(** ** Any input *)

Context {K : codec message}.

Lemma galmon_any o s fails : Forall is_byte s ->
  match galmon_main o (mkSource s fails) with
  | Ok (_, z) => exists ms, all_messages s ms /\ fold_outcome galmon_step ms (galmon_new o) = Ok z
  | Panic => exists ms m z, starts_with s (ms ++ [m]) /\ fold_outcome galmon_step ms (galmon_new o) = Ok z /\ galmon_step z m = Panic
  end.
Proof.
  intros Hs. unfold galmon_main.
  exact (loop_any (fun _ => True) galmon_step _ (fun x p _ => eq_refl) (fun _ _ _ _ _ => I) (read_fuel (mkSource s fails)) (reader_new (mkSource s fails)) (galmon_new o)
           (reader_new_ok _) Hs ltac:(unfold read_fuel; cbn; lia) I).
Qed.
Lemma starts_ok s ms : (forall b m, Forall is_byte b -> decode b = Some m -> AppsSpec.message_ok m) -> Forall is_byte s -> starts_with s ms ->
  Forall AppsSpec.message_ok ms.
Proof.
  intros Hd Hs H. revert Hs. induction H as [s|a b body m s ms Hl Hm H IH]; intros Hs; [constructor|].
  rewrite !Forall_app in Hs. constructor; [|now apply IH]. now apply (Hd body).
Qed.

(** ** The firmware *)

Lemma is_space_iff c : is_space c = true <-> (9 <= c <= 13 \/ c = 32).
Proof. unfold is_space. lia. Qed.
Lemma trim_start_spaces b s : Forall (fun c => 9 <= c <= 13 \/ c = 32) b -> trim_start (b ++ s) = trim_start s.
Proof.
  induction 1 as [|c b Hc _ IH]; [reflexivity|]. cbn [app trim_start]. rewrite (proj2 (is_space_iff c) Hc). exact IH.
Qed.
Lemma trim_start_word s a : (forall c, In c s -> is_space c = false) -> s <> [] -> trim_start (s ++ a) = s ++ a.
Proof. destruct s as [|c s]; intros H Hn; [congruence|]. cbn [app trim_start]. rewrite (H c); [reflexivity|now left]. Qed.
Lemma number_words s n : number_text s n -> s <> [] /\ forall c, In c s -> is_space c = false.
Proof.
  intros (ds & E & Hn & Hd & _). assert (D : forall c, In c ds -> is_space c = false).
  { intros c Hc. pose proof (proj1 (Forall_forall _ _) Hd c Hc) as X. unfold is_space. cbv beta in X. lia. }
  destruct E as [->| ->]; split; auto; [discriminate|]. intros c [<-|Hc]; [reflexivity|auto].
Qed.
Lemma hex_words s l : hex_text s l -> forall c, In c s -> is_space c = false.
Proof.
  assert (D : forall c d, hex_char c d -> is_space c = false) by (unfold hex_char, is_space; intros; lia).
  induction 1 as [|c1 c2 d1 d2 s l H1 H2 _ IH]; intros c Hc; [destruct Hc|]. destruct Hc as [<-|[<-|Hc]]; eauto.
Qed.
Lemma parse_small s n : number_text s n -> n < 256 -> parse 255 s = Some n.
Proof.
  intros (ds & E & Hn & Hd & Hv & _) H.
  assert (X : parse_digits 255 0 ds = Some n) by (apply (parse_digits_iff 255 ds 0 n (Z.le_refl 0)); split; [exact Hd|]; split; [exact Hv|lia]).
  destruct E as [->| ->]; unfold parse; destruct ds as [|c ds]; try congruence.
  - apply Forall_cons_iff in Hd. replace (c =? 43) with false by lia. exact X.
  - exact X.
Qed.
Lemma trim_word s t : spaced s t -> t <> [] -> (forall c, In c t -> is_space c = false) -> trim s = t.
Proof.
  intros (b & a & -> & Hs) Hn Ht. apply Forall_app in Hs. destruct Hs as (Hb & Ha). unfold trim.
  rewrite trim_start_spaces, trim_start_word, rev_app_distr by assumption.
  rewrite trim_start_spaces by now apply Forall_rev.
  assert (E : trim_start (rev t) = rev t).
  { rewrite <- (app_nil_r (rev t)). apply trim_start_word; [intros c Hc; apply Ht; now apply in_rev|].
    intros E. apply Hn. rewrite <- (rev_involutive t), E. reflexivity. }
  rewrite E. apply rev_involutive.
Qed.

Lemma firmware_ok pem id root key n r : firmware_says pem id root key n r -> firmware_constants pem id root = Ok (p256_to_sec1 key, n, r).
Proof.
  intros (Hk & (s & Hs & Hn & Hl) & (s' & Hs' & Hh & Hr)). unfold firmware_constants. rewrite Hk. cbn [unwrap bind].
  destruct (number_words s n Hn) as (N1 & N2). rewrite (trim_word id s Hs N1 N2), (parse_small s n Hn Hl). cbn [unwrap bind].
  rewrite (trim_word root s' Hs'); [|intros ->; inversion Hh; subst; discriminate Hr|exact (hex_words s' r Hh)].
  rewrite (proj2 (hex_decode_text _ _) Hh). cbn [unwrap bind]. unfold to_array. rewrite Hr. reflexivity.
Qed.

Lemma trim_start_split s : exists b, s = b ++ trim_start s /\ Forall (fun c => 9 <= c <= 13 \/ c = 32) b.
Proof.
  induction s as [|c s (b & E & Hb)]; [exists []; auto|]. cbn [trim_start]. destruct (is_space c) eqn:Ec.
  - exists (c :: b). split; [cbn [app]; congruence|]. constructor; [now apply is_space_iff|exact Hb].
  - exists []. auto.
Qed.
Lemma trim_spaced s : spaced s (trim s).
Proof.
  unfold trim. destruct (trim_start_split s) as (b & E & Hb). destruct (trim_start_split (rev (trim_start s))) as (a & Ea & Ha).
  exists b, (rev a). split.
  - rewrite <- rev_app_distr, <- Ea, rev_involutive. exact E.
  - apply Forall_app. split; [exact Hb|now apply Forall_rev].
Qed.
Lemma parse_small_sound s n : parse 255 s = Some n -> number_text s n /\ n < 256.
Proof.
  intros H. assert (X : forall ds, ds <> [] -> parse_digits 255 0 ds = Some n -> (s = ds \/ s = 43 :: ds) -> number_text s n /\ n < 256).
  { intros ds Hn Hp Hs. assert (H0 : 0 <= 255) by lia. destruct (proj1 (parse_digits_iff 255 ds 0 n (Z.le_refl 0)) (conj Hp H0)) as (A1 & A2 & A3). split; [|lia].
    exists ds. split; [exact Hs|]. split; [exact Hn|]. split; [exact A1|]. split; [exact A2|]. change (2 ^ 32) with 4294967296. lia. }
  unfold parse in H. destruct s as [|c r]; [discriminate|]. destruct (c =? 43) eqn:Ec.
  - apply Z.eqb_eq in Ec. subst c. destruct r as [|c r]; [discriminate|]. apply (X (c :: r)); auto. discriminate.
  - apply (X (c :: r)); auto. discriminate.
Qed.
Lemma firmware_sound pem id root c n r : firmware_constants pem id root = Ok (c, n, r) ->
  exists key, firmware_says pem id root key n r /\ c = p256_to_sec1 key.
Proof.
  unfold firmware_constants. destruct (pem_text pem) as [key|] eqn:Ek; [|discriminate]. cbn [unwrap bind].
  destruct (parse 255 (trim id)) as [n'|] eqn:En; [|discriminate]. cbn [unwrap bind].
  destruct (hex_decode (trim root)) as [l|] eqn:Eh; [|discriminate]. cbn [unwrap bind]. unfold to_array.
  destruct (length l =? 32)%nat eqn:El; [|discriminate]. cbn [bind]. intros H. apply ok_inj, pair_equal_spec in H. destruct H as (H & <-).
  apply pair_equal_spec in H. destruct H as (<- & <-). exists key. split; [|reflexivity]. split; [exact Ek|].
  destruct (parse_small_sound _ _ En). split; [exists (trim id); split; [apply trim_spaced|auto]|].
  exists (trim root). split; [apply trim_spaced|]. split; [now apply hex_decode_text|now apply Nat.eqb_eq].
Qed.

End Config.

(** DSM-PKR messages and the Merkle tree. *)
From Coq Require Import ZArith List Bool Lia ZifyBool ZifyNat.
From Verif Require Import Model.Prelude Model.Params Model.Bitfields Model.Merkle
  Spec.MerkleSpec Proofs.Base Proofs.DsmProofs Proofs.EntryProofs Proofs.KrootProofs.
Import ListNotations.
Open Scope Z_scope.
Ltac Zify.zify_post_hook ::= Z.div_mod_to_equations.

(** ** Layout *)

Lemma bits_at_byte pre x post a b : is_byte x -> (a <= b <= 8)%nat ->
  bits_at (pre ++ x :: post) (8 * length pre + a) (8 * length pre + b) = Ok (load_be (sub a b (bits_of_byte x))).
Proof.
  intros Hx Hab.
  rewrite bits_at_in by (rewrite ?app_length; cbn [length]; lia).
  do 2 f_equal. unfold sub. rewrite bits_of_bytes_app.
  rewrite skipn_app, skipn_all2 by (rewrite length_bits_of_bytes; lia). cbn [app].
  rewrite length_bits_of_bytes. replace (8 * length pre + a - 8 * length pre)%nat with a by lia.
  replace (8 * length pre + b - (8 * length pre + a))%nat with (b - a)%nat by lia.
  change (bits_of_bytes (x :: post)) with (bits_of_byte x ++ bits_of_bytes post).
  rewrite skipn_app, firstn_app, skipn_length, length_bits_of_byte.
  replace (b - a - (8 - a))%nat with 0%nat by lia. now rewrite firstn_O, app_nil_r.
Qed.

Lemma byte_high x : is_byte x -> load_be (sub 0 4 (bits_of_byte x)) = x / 16.
Proof.
  intros H. apply Z.eqb_eq. revert x H. apply (byte_cases (fun x => load_be (sub 0 4 (bits_of_byte x)) =? x / 16)).
  vm_compute. reflexivity.
Qed.
Lemma byte_low x : is_byte x -> load_be (sub 4 8 (bits_of_byte x)) = x mod 16.
Proof.
  intros H. apply Z.eqb_eq. revert x H. apply (byte_cases (fun x => load_be (sub 4 8 (bits_of_byte x)) =? x mod 16)).
  vm_compute. reflexivity.
Qed.

Lemma bits_at_high pre x post a b : is_byte x -> a = (8 * length pre)%nat -> b = (a + 4)%nat ->
  bits_at (pre ++ x :: post) a b = Ok (x / 16).
Proof.
  intros Hx -> ->. pose proof (bits_at_byte pre x post 0 4 Hx ltac:(lia)) as K. rewrite Nat.add_0_r in K.
  now rewrite K, byte_high.
Qed.
Lemma bits_at_low pre x post a b : is_byte x -> a = (8 * length pre + 4)%nat -> b = (a + 4)%nat ->
  bits_at (pre ++ x :: post) a b = Ok (x mod 16).
Proof.
  intros Hx -> ->. pose proof (bits_at_byte pre x post 4 8 Hx ltac:(lia)) as K.
  replace (8 * length pre + 4 + 4)%nat with (8 * length pre + 8)%nat by lia. now rewrite K, byte_low.
Qed.

Lemma bits_at_high0 x post : is_byte x -> bits_at (x :: post) 0 4 = Ok (x / 16).
Proof. intros Hx. now apply (bits_at_high [] x post 0 4). Qed.
Lemma bits_at_low0 x post : is_byte x -> bits_at (x :: post) 4 8 = Ok (x mod 16).
Proof. intros Hx. now apply (bits_at_low [] x post 4 8). Qed.

Lemma sub_one (l : list Z) i : (i < length l)%nat -> sub i (S i) l = [nth i l 0].
Proof.
  intros H. unfold sub. replace (S i - i)%nat with 1%nat by lia.
  revert i H. induction l as [|x l IH]; intros i H; cbn [length] in H; [lia|].
  destruct i as [|i]; [reflexivity|]. cbn [skipn nth]. apply IH. lia.
Qed.

Lemma four_nodes (l : list (list Z)) : length l = 4%nat -> Forall (fun n => length n = 32%nat) l ->
  exists n0 n1 n2 n3, l = [n0; n1; n2; n3] /\ length n0 = 32%nat /\ length n1 = 32%nat /\
    length n2 = 32%nat /\ length n3 = 32%nat.
Proof.
  intros Hn Hf. destruct l as [|n0 [|n1 [|n2 [|n3 [|n4 l]]]]]; try discriminate Hn.
  rewrite !Forall_cons_iff in Hf. exists n0, n1, n2, n3. tauto.
Qed.

Section Layout.
Context (d : list Z) (f : pkr_fields).
Hypothesis HL : pkr_layout d f.

Lemma pkr_nodes_length : length (concat (pf_nodes f)) = 128%nat.
Proof.
  destruct (pl_nodes _ _ HL) as (Hn & Hf).
  destruct (four_nodes _ Hn Hf) as (n0 & n1 & n2 & n3 & -> & L0 & L1 & L2 & L3). cbn [concat]. rewrite !app_length. cbn [length]. lia.
Qed.

Lemma pkr_first_byte : is_byte (16 * pf_nb f + pf_mid f).
Proof. destruct (pl_nibbles _ _ HL) as (H1 & H2 & _). unfold nibble, is_byte in *. lia. Qed.
Lemma pkr_leaf_byte : is_byte (16 * pf_npkt f + pf_npkid f).
Proof. destruct (pl_nibbles _ _ HL) as (_ & _ & H1 & H2). unfold nibble, is_byte in *. lia. Qed.

Lemma pkr_number_of_blocks_layout :
  pkr_number_of_blocks d = Ok (if (7 <=? pf_nb f) && (pf_nb f <=? 10) then Some (Z.to_nat (pf_nb f) + 6)%nat else None).
Proof.
  unfold pkr_number_of_blocks. rewrite (pl_bytes _ _ HL).
  rewrite bits_at_high0 by exact pkr_first_byte. cbn [bind].
  destruct (pl_nibbles _ _ HL) as (H1 & H2 & _). unfold nibble in *.
  now replace ((16 * pf_nb f + pf_mid f) / 16) with (pf_nb f) by lia.
Qed.

Lemma pkr_message_id_layout : pkr_message_id d = Ok (pf_mid f).
Proof.
  unfold pkr_message_id. rewrite (pl_bytes _ _ HL).
  rewrite bits_at_low0 by exact pkr_first_byte. f_equal.
  destruct (pl_nibbles _ _ HL) as (H1 & H2 & _). unfold nibble in *. lia.
Qed.

Definition npkt_of (v : Z) : npkt_t :=
  if v =? 1 then NpktEcdsaKey P256Sha256 else if v =? 3 then NpktEcdsaKey P521Sha512
  else if v =? 4 then NpktAlert else NpktReserved.

Lemma pkr_as_leaf : d = ((16 * pf_nb f + pf_mid f) :: concat (pf_nodes f)) ++
                        (16 * pf_npkt f + pf_npkid f) :: (pf_key f ++ pf_pad f).
Proof. rewrite (pl_bytes _ _ HL). unfold pkr_leaf. cbn [app]. reflexivity. Qed.

Lemma pkr_type_layout : pkr_new_public_key_type d = Ok (npkt_of (pf_npkt f)).
Proof.
  unfold pkr_new_public_key_type. rewrite pkr_as_leaf.
  rewrite bits_at_high; [|exact pkr_leaf_byte|cbn [length]; rewrite pkr_nodes_length; reflexivity|reflexivity].
  cbn [bind]. destruct (pl_nibbles _ _ HL) as (_ & _ & H1 & H2). unfold nibble in *.
  replace ((16 * pf_npkt f + pf_npkid f) / 16) with (pf_npkt f) by lia.
  destruct (pl_key _ _ HL) as [(-> & _)|[(-> & _)|(-> & _)]]; reflexivity.
Qed.

Lemma pkr_id_layout : pkr_new_public_key_id d = Ok (pf_npkid f).
Proof.
  unfold pkr_new_public_key_id. rewrite pkr_as_leaf.
  rewrite bits_at_low; [|exact pkr_leaf_byte|cbn [length]; rewrite pkr_nodes_length; reflexivity|reflexivity].
  f_equal. destruct (pl_nibbles _ _ HL) as (_ & _ & H1 & H2). unfold nibble in *. lia.
Qed.

Lemma pkr_key_size_layout : pkr_key_size d = Ok (Some (length (pf_key f))).
Proof.
  unfold pkr_key_size. rewrite pkr_type_layout. cbn [bind].
  destruct (pl_key _ _ HL) as [(-> & Hk)|[(-> & Hk)|(-> & Hb & Hk)]]; cbn [npkt_of Z.eqb Pos.eqb].
  - now rewrite Hk.
  - now rewrite Hk.
  - rewrite pkr_number_of_blocks_layout. cbn [bind].
    replace ((7 <=? pf_nb f) && (pf_nb f <=? 10)) with true by lia. cbn [option_map].
    do 2 f_equal. lia.
Qed.

Lemma pkr_length : length d = (130 + length (pf_key f) + length (pf_pad f))%nat.
Proof.
  rewrite pkr_as_leaf. rewrite app_length. cbn [length]. rewrite pkr_nodes_length, app_length. lia.
Qed.

Lemma sub_middle {A} (p m q : list A) a b : length p = a -> (length p + length m)%nat = b -> sub a b (p ++ m ++ q) = m.
Proof.
  intros <- <-. unfold sub. rewrite skipn_app, skipn_all, Nat.sub_diag. cbn [app skipn].
  replace (length p + length m - length p)%nat with (length m) by lia.
  rewrite firstn_app, Nat.sub_diag, firstn_O, app_nil_r. apply firstn_all.
Qed.

Lemma pkr_key_layout : pkr_new_public_key d = Ok (Some (pf_key f)).
Proof.
  unfold pkr_new_public_key. rewrite pkr_key_size_layout. cbn [bind].
  pose proof pkr_length. rewrite slice_in by lia. cbn [bind]. do 2 f_equal.
  rewrite pkr_as_leaf.
  change (16 * pf_npkt f + pf_npkid f :: pf_key f ++ pf_pad f)
    with ([16 * pf_npkt f + pf_npkid f] ++ pf_key f ++ pf_pad f).
  rewrite app_assoc. apply sub_middle; rewrite app_length; cbn [length]; rewrite pkr_nodes_length; lia.
Qed.

Lemma pkr_leaf_layout : pkr_merkle_tree_leaf d = Ok (Some (pkr_leaf f)).
Proof.
  unfold pkr_merkle_tree_leaf. rewrite pkr_key_size_layout. cbn [bind].
  pose proof pkr_length. rewrite slice_in by lia. cbn [bind]. do 2 f_equal.
  rewrite pkr_as_leaf.
  change (16 * pf_npkt f + pf_npkid f :: pf_key f ++ pf_pad f) with (pkr_leaf f ++ pf_pad f).
  apply sub_middle; unfold pkr_leaf; cbn [length]; rewrite pkr_nodes_length; lia.
Qed.

Lemma pkr_node_layout j : (j < 4)%nat -> pkr_intermediate_tree_node d j = Ok (nth j (pf_nodes f) []).
Proof.
  intros Hj. unfold pkr_intermediate_tree_node, assert_. replace (j <? 4)%nat with true by lia. cbn [bind].
  pose proof pkr_length. rewrite slice_in by lia. f_equal.
  rewrite (pl_bytes _ _ HL).
  destruct (pl_nodes _ _ HL) as (Hn & Hf).
  destruct (four_nodes _ Hn Hf) as (n0 & n1 & n2 & n3 & -> & L0 & L1 & L2 & L3). cbn [concat]. rewrite app_nil_r.
  set (x := 16 * pf_nb f + pf_mid f). set (rest := pkr_leaf f ++ pf_pad f). clearbody x rest.
  destruct j as [|[|[|[|j]]]]; [| | | |lia]; cbn [nth].
  - change (x :: (n0 ++ n1 ++ n2 ++ n3) ++ rest) with ([x] ++ (n0 ++ n1 ++ n2 ++ n3) ++ rest).
    rewrite <- !app_assoc. apply sub_middle; cbn [length]; lia.
  - change (x :: (n0 ++ n1 ++ n2 ++ n3) ++ rest) with ([x] ++ (n0 ++ n1 ++ n2 ++ n3) ++ rest).
    rewrite <- !app_assoc. rewrite (app_assoc [x]). apply sub_middle; rewrite ?app_length; cbn [length]; lia.
  - change (x :: (n0 ++ n1 ++ n2 ++ n3) ++ rest) with ([x] ++ (n0 ++ n1 ++ n2 ++ n3) ++ rest).
    rewrite <- !app_assoc. rewrite (app_assoc [x]), (app_assoc _ n1). apply sub_middle; rewrite ?app_length; cbn [length]; lia.
  - change (x :: (n0 ++ n1 ++ n2 ++ n3) ++ rest) with ([x] ++ (n0 ++ n1 ++ n2 ++ n3) ++ rest).
    rewrite <- !app_assoc. rewrite (app_assoc [x]), (app_assoc _ n1), (app_assoc _ n2).
    apply sub_middle; rewrite ?app_length; cbn [length]; lia.
Qed.
End Layout.

(** The layout determines the fields. *)
Lemma pkr_layout_fun d f f' : pkr_layout d f -> pkr_layout d f' -> f = f'.
Proof.
  intros HL HL'.
  pose proof (pkr_number_of_blocks_layout d f HL) as A1. pose proof (pkr_number_of_blocks_layout d f' HL') as A1'.
  pose proof (pkr_message_id_layout d f HL) as A2. rewrite (pkr_message_id_layout d f' HL') in A2.
  pose proof (pkr_id_layout d f HL) as A3. rewrite (pkr_id_layout d f' HL') in A3.
  pose proof (pkr_key_layout d f HL) as A4. rewrite (pkr_key_layout d f' HL') in A4.
  injection A2 as A2. injection A3 as A3. injection A4 as A4.
  assert (A5 : pf_nodes f = pf_nodes f').
  { destruct (pl_nodes _ _ HL) as (N & _). destruct (pl_nodes _ _ HL') as (N' & _).
    apply (nth_ext _ _ [] []); [congruence|]. intros j Hj. rewrite N in Hj.
    pose proof (pkr_node_layout d f HL j Hj) as K. rewrite (pkr_node_layout d f' HL' j Hj) in K.
    injection K as K. congruence. }
  pose proof (pkr_as_leaf d f HL) as E. rewrite (pkr_as_leaf d f' HL') in E.
  cbn [app] in E. pose proof (f_equal (hd 0) E) as E1. apply (f_equal (@tl Z)) in E. cbn [hd tl] in E1, E.
  rewrite A4 in *. rewrite A5 in E.
  apply app_inv_head in E. pose proof (f_equal (hd 0) E) as E2. apply (f_equal (@tl Z)) in E. cbn [hd tl] in E2, E.
  apply app_inv_head in E.
  destruct f as [a1 a2 a3 a4 a5 a6 a7], f' as [b1 b2 b3 b4 b5 b6 b7]. cbn [pf_nb pf_mid pf_nodes pf_npkt pf_npkid pf_key pf_pad] in *. f_equal; auto; lia.
Qed.

(** Any message whose leaf can be read has this layout. *)
Lemma pkr_leaf_inv d leaf : Forall is_byte d -> pkr_merkle_tree_leaf d = Ok (Some leaf) ->
  exists f, pkr_layout d f.
Proof.
  intros Hd H. unfold pkr_merkle_tree_leaf in H. bind_inv H.
  destruct x as [s|]; [|discriminate]. bind_inv H. injection H as ->. rename E into Es.
  apply slice_ok in E0. destruct E0 as (_ & Hlen & ->).
  assert (Hex : exists b0 nodes lb key pad, d = b0 :: concat nodes ++ (lb :: key) ++ pad /\
            length nodes = 4%nat /\ Forall (fun n => length n = 32%nat) nodes /\
            length key = s).
  { destruct d as [|b0 d]; [cbn in Hlen; lia|]. cbn [length] in Hlen.
    exists b0, [sub 0 32 d; sub 32 64 d; sub 64 96 d; sub 96 128 d].
    exists (nth 128 d 0), (sub 129 (129 + s) d), (skipn (129 + s) d).
    split.
    - f_equal. cbn [concat]. rewrite app_nil_r.
      assert (K : forall a b, (a <= b <= length d)%nat -> skipn a d = sub a b d ++ skipn b d).
      { intros a b Hab. unfold sub. rewrite <- (firstn_skipn (b - a) (skipn a d)) at 1. f_equal.
        rewrite skipn_skipn. f_equal. lia. }
      rewrite <- !app_assoc.
      rewrite <- (skipn_O d) at 1.
      rewrite (K 0 32)%nat by lia. rewrite (K 32 64)%nat by lia. rewrite (K 64 96)%nat by lia.
      rewrite (K 96 128)%nat by lia. rewrite (K 128 129)%nat by lia. rewrite (K 129 (129 + s))%nat by lia.
      rewrite (sub_one d 128) by lia. reflexivity.
    - split; [reflexivity|]. split; [repeat constructor; rewrite length_sub; lia|rewrite length_sub; lia]. }
  destruct Hex as (b0 & nodes & lb & key & pad & Ed & Hn & Hn' & Hk).
  assert (Hb0 : is_byte b0 /\ is_byte lb).
  { rewrite Ed in Hd. rewrite Forall_cons_iff, !Forall_app, Forall_cons_iff in Hd. tauto. }
  destruct Hb0 as (Hb0 & Hlb). clear Hlen.
  assert (Hcl : length (concat nodes) = 128%nat).
  { destruct (four_nodes _ Hn Hn') as (n0 & n1 & n2 & n3 & -> & L0 & L1 & L2 & L3). cbn [concat]. rewrite !app_length. cbn [length]. lia. }
  exists (mkPF (b0 / 16) (b0 mod 16) nodes (lb / 16) (lb mod 16) key pad).
  constructor; cbn [pf_nb pf_mid pf_nodes pf_npkt pf_npkid pf_key pf_pad]; auto.
  - unfold pkr_leaf. cbn [pf_nb pf_mid pf_nodes pf_npkt pf_npkid pf_key pf_pad].
    replace (16 * (b0 / 16) + b0 mod 16) with b0 by lia.
    now replace (16 * (lb / 16) + lb mod 16) with lb by lia.
  - unfold nibble, is_byte in *. lia.
  - unfold pkr_key_size in Es. bind_inv Es. rename E into Et.
    unfold pkr_new_public_key_type in Et.
    replace d with ((b0 :: concat nodes) ++ lb :: (key ++ pad)) in Et by (rewrite Ed; reflexivity).
    rewrite bits_at_high in Et; [|exact Hlb|cbn [length]; rewrite Hcl; reflexivity|reflexivity].
    cbn [bind] in Et. injection Et as <-.
    assert (Hr : 0 <= lb / 16 < 16) by (unfold is_byte in Hlb; lia).
    set (v := lb / 16) in *. clearbody v.
    assert (Hv : v = 0 \/ v = 1 \/ v = 2 \/ v = 3 \/ v = 4 \/ 4 < v) by lia.
    destruct Hv as [->|[->|[->|[->|[->|Hv]]]]]; try discriminate Es.
    + injection Es as <-. left. auto.
    + injection Es as <-. right. left. auto.
    + right. right. split; [reflexivity|]. bind_inv Es. unfold pkr_number_of_blocks in E.
      rewrite Ed in E. rewrite bits_at_high0 in E by exact Hb0. cbn [bind] in E. injection E as <-.
      destruct ((7 <=? b0 / 16) && (b0 / 16 <=? 10)) eqn:Eb; [|discriminate]. cbn [option_map] in Es.
      injection Es as Es. lia.
    + exfalso. destruct v as [|p|p]; try lia. destruct p as [[[q|q|]|[q|q|]|]|[[q|q|]|[q|q|]|]|]; try lia; discriminate Es.
Qed.

(** ** The tree *)

Section Crypto.
Context {C : crypto} {B : build}.
Hypothesis HC : crypto_ok C.

Lemma sha256_length m : length (sha256 m) = 32%nat.
Proof. apply HC. Qed.

Lemma land_1_even z : (Z.land z 1 =? 0) = Z.even z.
Proof.
  change 1 with (Z.ones 1). rewrite Z.land_ones by lia. change (2 ^ 1) with 2. rewrite Zmod_even.
  destruct (Z.even z); reflexivity.
Qed.

Lemma climb_path d f : pkr_layout d f ->
  merkle_climb d [0; 1; 2; 3]%nat (pf_mid f) (hash_leaf (pkr_leaf f)) = Ok (sha256 (path_input f 4)).
Proof.
  intros HL. cbn [merkle_climb].
  rewrite !pkr_node_layout with (f := f) by (auto; lia). cbn [bind].
  rewrite !land_1_even. rewrite !Z.shiftr_div_pow2 by lia. rewrite !Z.div_div by lia.
  unfold calc_node, hash_leaf. cbn [path_input].
  change (2 ^ Z.of_nat 0) with 1. change (2 ^ Z.of_nat 1) with 2. change (2 ^ Z.of_nat 2) with 4. change (2 ^ Z.of_nat 3) with 8.
  change (2 ^ 1) with 2. change (2 * 2) with 4. change (2 * 4) with 8. rewrite Z.div_1_r.
  destruct (Z.even (pf_mid f)), (Z.even (pf_mid f / 2)), (Z.even (pf_mid f / 4)), (Z.even (pf_mid f / 8)); reflexivity.
Qed.

Lemma merkle_validate_layout root d f : pkr_layout d f ->
  merkle_validate root d = Ok (if bytes_eqb (sha256 (path_input f 4)) root then ROk tt else RErr PkrInvalid).
Proof.
  intros HL. unfold merkle_validate. rewrite (pkr_leaf_layout d f HL). cbn [bind].
  rewrite (pkr_message_id_layout d f HL). cbn [bind]. rewrite (climb_path d f HL). reflexivity.
Qed.

Lemma path_nth_length f d j : pkr_layout d f -> (j < 4)%nat -> length (nth j (pf_nodes f) []) = 32%nat.
Proof.
  intros HL Hj. destruct (pl_nodes _ _ HL) as (Hn & Hf). rewrite Forall_forall in Hf. apply Hf. apply nth_In. lia.
Qed.

(** Index of the node on the path at level [j]. *)
Lemma path_index z j : 0 <= z ->
  let i := Z.to_nat (z / 2 ^ Z.of_nat j) in let i' := Z.to_nat (z / 2 ^ Z.of_nat (S j)) in
  (if Z.even (z / 2 ^ Z.of_nat j) then i = 2 * i' else i = 2 * i' + 1)%nat /\
  Nat.even i = Z.even (z / 2 ^ Z.of_nat j).
Proof.
  intros Hz. rewrite Nat2Z.inj_succ, Z.pow_succ_r by lia. rewrite Z.mul_comm, <- Z.div_div by lia.
  assert (Hq : 0 <= z / 2 ^ Z.of_nat j) by (apply Z.div_pos; [lia|apply Z.pow_pos_nonneg; lia]).
  set (q := z / 2 ^ Z.of_nat j) in *. clearbody q. cbn [fst snd].
  split.
  - pose proof (Zmod_even q) as K. destruct (Z.even q); lia.
  - rewrite <- (Z2Nat.id q Hq) at 2. 
    destruct (Nat.even (Z.to_nat q)) eqn:Ev.
    + apply Nat.even_spec in Ev. destruct Ev as (k & Hk). rewrite Hk. symmetry. apply Z.even_spec. exists (Z.of_nat k). lia.
    + rewrite <- Nat.negb_odd in Ev. apply negb_false_iff in Ev. apply Nat.odd_spec in Ev. destruct Ev as (k & Hk).
      rewrite Hk. symmetry. rewrite <- Z.negb_odd. apply negb_false_iff. apply Z.odd_spec. exists (Z.of_nat k). lia.
Qed.

(** Equal inputs at one level: equal inputs below, or a collision there. *)
Lemma path_down leaves d f j : pkr_layout d f -> (j < 4)%nat ->
  let at_level j := tree_input leaves j (Z.to_nat (pf_mid f / 2 ^ Z.of_nat j)) in
  path_input f (S j) = at_level (S j) -> sha256 (path_input f j) = sha256 (at_level j).
Proof.
  intros HL Hj at_level H. unfold at_level in *. clear at_level. cbn [path_input tree_input] in H.
  pose proof (path_nth_length f d j HL Hj) as Hl.
  destruct (pl_nibbles _ _ HL) as (_ & Hm & _). unfold nibble in Hm.
  pose proof (path_index (pf_mid f) j ltac:(lia)) as (Hi & _).
  destruct (Z.even (pf_mid f / 2 ^ Z.of_nat j)); rewrite Hi.
  - apply split_app in H; [|now rewrite !sha256_length]. apply H.
  - apply split_app in H; [|now rewrite sha256_length]. apply H.
Qed.

Lemma list_Z_dec (a b : list Z) : {a = b} + {a <> b}.
Proof. apply (list_eq_dec Z.eq_dec). Qed.

Lemma merkle_binding leaves d f : pkr_layout d f ->
  sha256 (path_input f 4) = tree_root leaves ->
  pkr_leaf f = nth (Z.to_nat (pf_mid f)) leaves [] \/ collision_found leaves f.
Proof.
  intros HL H. destruct (pl_nibbles _ _ HL) as (_ & Hm & _). unfold nibble in Hm.
  assert (K : forall j, (j <= 4)%nat ->
     sha256 (path_input f j) = sha256 (tree_input leaves j (Z.to_nat (pf_mid f / 2 ^ Z.of_nat j))) ->
     pkr_leaf f = nth (Z.to_nat (pf_mid f)) leaves [] \/ collision_found leaves f).
  { induction j as [|j IH]; intros Hj E.
    - change (2 ^ Z.of_nat 0) with 1 in E. rewrite Z.div_1_r in E. cbn [path_input tree_input] in E.
      destruct (list_Z_dec (pkr_leaf f) (nth (Z.to_nat (pf_mid f)) leaves [])) as [Ee|Ne]; [auto|].
      right. exists 0%nat. split; [lia|]. cbn [path_input tree_input].
      change (2 ^ Z.of_nat 0) with 1. rewrite Z.div_1_r. auto.
    - destruct (list_Z_dec (path_input f (S j)) (tree_input leaves (S j) (Z.to_nat (pf_mid f / 2 ^ Z.of_nat (S j))))) as [Ee|Ne].
      + apply IH; [lia|]. apply (path_down leaves d f j HL); [lia|exact Ee].
      + right. exists (S j). auto. }
  apply (K 4%nat); [lia|]. rewrite H. unfold tree_root, tree_node.
  replace (pf_mid f / 2 ^ Z.of_nat 4) with 0 by (change (2 ^ Z.of_nat 4) with 16; lia). reflexivity.
Qed.

Lemma merkle_two_messages d d' f f' : pkr_layout d f -> pkr_layout d' f' -> pf_mid f = pf_mid f' ->
  sha256 (path_input f 4) = sha256 (path_input f' 4) ->
  pkr_leaf f = pkr_leaf f' \/ collision_between f f'.
Proof.
  intros HL HL' Hmid H.
  assert (K : forall j, (j <= 4)%nat -> sha256 (path_input f j) = sha256 (path_input f' j) ->
     pkr_leaf f = pkr_leaf f' \/ collision_between f f').
  { induction j as [|j IH]; intros Hj E.
    - destruct (list_Z_dec (path_input f 0) (path_input f' 0)) as [Ee|Ne]; [auto|].
      right. exists 0%nat. split; [lia|]. auto.
    - destruct (list_Z_dec (path_input f (S j)) (path_input f' (S j))) as [Ee|Ne].
      + apply IH; [lia|]. cbn [path_input] in Ee. rewrite <- Hmid in Ee.
        pose proof (path_nth_length f d j HL ltac:(lia)) as Hl.
        pose proof (path_nth_length f' d' j HL' ltac:(lia)) as Hl'.
        destruct (Z.even (pf_mid f / 2 ^ Z.of_nat j)).
        * apply split_app in Ee; [|now rewrite !sha256_length]. apply Ee.
        * apply split_app in Ee; [|now rewrite Hl, Hl']. apply Ee.
      + right. exists (S j). auto. }
  apply (K 4%nat); [lia|exact H].
Qed.

Lemma merkle_path_right leaves d f : pkr_layout d f -> right_siblings leaves f ->
  pkr_leaf f = nth (Z.to_nat (pf_mid f)) leaves [] ->
  sha256 (path_input f 4) = tree_root leaves.
Proof.
  intros HL Hs Hleaf. destruct (pl_nibbles _ _ HL) as (_ & Hm & _). unfold nibble in Hm.
  assert (K : forall j, (j <= 4)%nat ->
     path_input f j = tree_input leaves j (Z.to_nat (pf_mid f / 2 ^ Z.of_nat j))).
  { induction j as [|j IH]; intros Hj.
    - change (2 ^ Z.of_nat 0) with 1. rewrite Z.div_1_r. exact Hleaf.
    - cbn [path_input tree_input]. rewrite IH by lia. rewrite (Hs j) by lia.
      pose proof (path_index (pf_mid f) j ltac:(lia)) as (Hi & He). rewrite He.
      unfold tree_node. destruct (Z.even (pf_mid f / 2 ^ Z.of_nat j)).
      + do 2 f_equal; [f_equal; exact Hi|]. do 2 f_equal. lia.
      + do 2 f_equal; [f_equal; lia|]. f_equal. exact Hi. }
  rewrite (K 4%nat) by lia. unfold tree_root, tree_node.
  replace (pf_mid f / 2 ^ Z.of_nat 4) with 0 by (change (2 ^ Z.of_nat 4) with 16; lia). reflexivity.
Qed.

(** ** Public keys and alert messages *)

Lemma validate_pkr_sound root d pk : Forall is_byte d -> validate_pkr root d = Ok (ROk pk) ->
  exists f, pkr_layout d f /\ sha256 (path_input f 4) = root /\ pk_id pk = pf_npkid f /\
    match pk_key pk with
    | VkP256 k => pf_npkt f = 1 /\ p256_from_sec1 (pf_key f) = Some k
    | VkP521 k => pf_npkt f = 3 /\ p521_from_sec1 (pf_key f) = Some k /\ feature_p521 = true
    end.
Proof.
  intros Hd H. unfold validate_pkr in H. bind_inv H. destruct x as [fn| |]; try discriminate. rename E into Et.
  bind_inv H. destruct x as [[]|e]; [|discriminate]. rename E into Ev.
  pose proof Ev as Ev'. unfold merkle_validate in Ev'. bind_inv Ev'. destruct x as [leaf|]; [|discriminate].
  destruct (pkr_leaf_inv d leaf Hd E) as (f & HL). exists f. split; [exact HL|].
  rewrite (merkle_validate_layout root d f HL) in Ev.
  destruct (bytes_eqb (sha256 (path_input f 4)) root) eqn:Eb; [|discriminate].
  apply bytes_eqb_eq in Eb. split; [exact Eb|].
  unfold pubkey_from_pkr in H. rewrite (pkr_key_layout d f HL) in H. cbn [bind unwrap] in H.
  rewrite (pkr_type_layout d f HL) in H. cbn [bind] in H. rewrite (pkr_id_layout d f HL) in H.
  unfold npkt_of in H.
  destruct (pl_key _ _ HL) as [(Hn & _)|[(Hn & _)|(Hn & _)]]; rewrite Hn in H; cbn [Z.eqb Pos.eqb] in H.
  - bind_inv H. cbn [bind] in H. injection H as <-. cbn [pk_id pk_key]. apply unwrap_ok in E0. auto.
  - destruct feature_p521; [|discriminate]. bind_inv H. cbn [bind] in H. injection H as <-. cbn [pk_id pk_key].
    apply unwrap_ok in E0. auto.
  - discriminate.
Qed.

Lemma validate_pkr_complete root d f pk : pkr_layout d f -> sha256 (path_input f 4) = root ->
  pk_id pk = pf_npkid f ->
  match pk_key pk with
  | VkP256 k => pf_npkt f = 1 /\ p256_from_sec1 (pf_key f) = Some k
  | VkP521 k => pf_npkt f = 3 /\ p521_from_sec1 (pf_key f) = Some k /\ feature_p521 = true
  end ->
  validate_pkr root d = Ok (ROk pk).
Proof.
  intros HL Hp Hid Hk. unfold validate_pkr. rewrite (pkr_type_layout d f HL). cbn [bind].
  rewrite (merkle_validate_layout root d f HL), Hp, bytes_eqb_refl. cbn [bind].
  unfold pubkey_from_pkr. rewrite (pkr_key_layout d f HL). cbn [bind unwrap].
  rewrite (pkr_type_layout d f HL), (pkr_id_layout d f HL). unfold npkt_of.
  destruct pk as [[k|k] id]; cbn [pk_key pk_id] in *.
  - destruct Hk as (-> & ->). cbn [Z.eqb Pos.eqb bind unwrap]. now rewrite Hid.
  - destruct Hk as (-> & -> & ->). cbn [Z.eqb Pos.eqb bind unwrap]. now rewrite Hid.
Qed.

Lemma validate_alert_sound root d u : Forall is_byte d -> validate_alert_message root d = Ok (ROk u) ->
  exists f, pkr_layout d f /\ sha256 (path_input f 4) = root /\ pf_npkt f = 4.
Proof.
  intros Hd H. unfold validate_alert_message in H. bind_inv H. destruct x; try discriminate. rename E into Et.
  pose proof H as Ev'. unfold merkle_validate in Ev'. bind_inv Ev'. destruct x as [leaf|]; [|discriminate].
  destruct (pkr_leaf_inv d leaf Hd E) as (f & HL). exists f. split; [exact HL|].
  rewrite (merkle_validate_layout root d f HL) in H.
  destruct (bytes_eqb (sha256 (path_input f 4)) root) eqn:Eb; [|discriminate].
  apply bytes_eqb_eq in Eb. split; [exact Eb|].
  rewrite (pkr_type_layout d f HL) in Et. injection Et as Et. unfold npkt_of in Et.
  destruct (pl_key _ _ HL) as [(Hn & _)|[(Hn & _)|(Hn & _)]]; auto; rewrite Hn in Et; discriminate.
Qed.

Lemma validate_alert_complete root d f : pkr_layout d f -> sha256 (path_input f 4) = root -> pf_npkt f = 4 ->
  validate_alert_message root d = Ok (ROk tt).
Proof.
  intros HL Hp Hn. unfold validate_alert_message. rewrite (pkr_type_layout d f HL), Hn. cbn [bind npkt_of Z.eqb Pos.eqb].
  now rewrite (merkle_validate_layout root d f HL), Hp, bytes_eqb_refl.
Qed.

End Crypto.

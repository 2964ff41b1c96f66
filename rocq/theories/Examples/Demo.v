(** A complete history in which navigation data of two satellites gets authenticated, with a fast
    and later a slow MAC.  The bytes were made by tools/gen_demo.py, a transmitter written
    independently of the model, with SHA-256 and HMAC-SHA-256; the signature is the stand-in of
    Examples.Sha256. *)
From Coq Require Import ZArith String List Bool Lia.
From Verif Require Import Model.Prelude Model.Params Model.Gst Model.Bitfields Model.Tesla Model.Merkle
  Model.Nav Model.Osnma Spec.SystemSpec Examples.Sha256 Examples.Vectors.
Import ListNotations.
Open Scope string_scope.
Open Scope list_scope.
Open Scope Z_scope.

Global Existing Instance full_storage.

Definition demo_pubkey : public_key :=
  mkPub (VkP256 (hex "02f569a86d3c2c8d7dda26b5dbea20bd5c19eeb35dfc63fdb724bac4f21c227850")) 3.

(** Words 1, 2, 3, 4, 5, 6 and 10 of satellites 1 and 2. *)
Definition demo_nav1 : list (list Z) := map hex
  ["0729e7bec5cc6a03cac5e9eb3313a477";
   "09e623bd96353fc7b3df8640784d56ce";
   "0f282adeb410e8475439eb4b515d702e";
   "117e30ffa18ef31c4d546c44be8cee05";
   "16a37bac6013e4a01868102103df56a8";
   "1b63d9bcb5e9eae2f36c7f3695337ebc";
   "2b3f1a17d56ae3a1f899835eddda37bf"].
Definition demo_nav2 : list (list Z) := map hex
  ["06057e784374b441ffcf63782c99af19";
   "09462689d81e8b8f849befb4fd9ffcc3";
   "0d36d3787abc617e08a6f1e4795be031";
   "1054f87daf14f21dc8baa51c95169455";
   "16251a8922c360324947f098ff2bed02";
   "18b3ed147c4199de02edaf5649585e9c";
   "295a284ecba55416b3dd861f1c27ee56"].

(** The blocks of the DSM-KROOT. *)
Definition demo_hkroots : list (list Z) := map hex
  ["92702340492104b00225d3964da3a2";
   "9271051350a43ab5c4ec6c85639b57";
   "9272da6b5a6eebc7dce845441f5297";
   "92738bcab8439d340ff068b1c03742";
   "927457a51c6363d29611772abc62d8";
   "92754dac9bffaabea7db00a01898cc";
   "92768f06131b863bba07bc1b30ec84";
   "9277a36291bb1ee075815e0d69404e"].

(** The MACK message of satellite 1 at 7200. *)
Definition demo_mack : list Z := hex
  "7d0900465baac195781394d6020121c23fce8f014109e515a9670200724b74db5c01c1c3e6ae93850201b14d73ca495856843ff7482547d45e700000".

(** The other MACK messages only matter for the key that they disclose. *)
Definition mack_with_key (key : string) : list Z := repeat 5 42 ++ hex key ++ [5; 5].
Definition demo_key0 : string := "b14d73ca495856843ff7482547d45e70".
Definition demo_key1 : string := "cbaa1c6dbcac4e612a82e05c478c8cb4".
Definition demo_key11 : string := "4ac7eb160ec7fdb51f3d59791836c2d6".

(** Word [i] of a subframe. *)
Definition demo_word (tow : Z) (svn : Z) (hkroot mack : list Z) (i : nat) : op :=
  FeedOsnma (nth i hkroot 0 :: sub (4 * i) (4 * i + 4) mack) svn (mkGst 1200 (tow + 2 * Z.of_nat i)).
Definition demo_subframe (tow svn : Z) (hkroot mack : list Z) : list op :=
  map (demo_word tow svn hkroot mack) (seq 0 15).

(** Navigation data in the subframe at 7170. *)
Definition demo_inav (svn : Z) (words : list (list Z)) : list op :=
  map (fun i => FeedInav (nth i words []) svn (mkGst 1200 (7170 + 2 * Z.of_nat i)) E1B) (seq 0 7).
Definition demo_nav_ops : list op :=
  concat (map (fun i => firstn 1 (skipn i (demo_inav 1 demo_nav1)) ++ firstn 1 (skipn i (demo_inav 2 demo_nav2)))
              (seq 0 7)).

(** The blocks sent by eight satellites in the subframe at 7200. *)
Definition demo_kroot_ops : list op :=
  concat (map (fun i => map (fun s => demo_word 7200 (Z.of_nat s) (nth (s - 1) demo_hkroots [])
                                       (if (s =? 1)%nat then demo_mack else mack_with_key demo_key0) i)
                            (seq 1 8)) (seq 0 15)).

(** The subframes at 7230 and 7530 of satellite 1. *)
Definition demo_key_ops : list op := demo_subframe 7230 1 (nth 0 demo_hkroots []) (mack_with_key demo_key1).
Definition demo_slow_ops : list op := demo_subframe 7530 1 (nth 0 demo_hkroots []) (mack_with_key demo_key11).

Definition demo_fast : list op := demo_nav_ops ++ demo_kroot_ops ++ demo_key_ops.
Definition demo_all : list op := demo_fast ++ demo_slow_ops.

(** A decidable version of [op_ok]. *)
Definition op_okb (x : op) : bool :=
  let gst_okb g := (0 <=? g_wn g) && (g_wn g <? 65536) && (0 <=? g_tow g) && (g_tow g <? 604800) in
  let bytes n l := (List.length l =? n)%nat && forallb (fun b => (0 <=? b) && (b <? 256)) l in
  match x with
  | FeedInav w svn g _ => bytes 16%nat w && (1 <=? svn) && (svn <=? 36) && gst_okb g
  | FeedOsnma d svn g => bytes 5%nat d && (1 <=? svn) && (svn <=? 36) && gst_okb g
  end.
Lemma op_okb_ok h : forallb op_okb h = true -> Forall op_ok h.
Proof.
  intros H. apply Forall_forall. intros x Hx. rewrite forallb_forall in H. specialize (H x Hx).
  destruct x as [w svn g b|d svn g]; cbn [op_okb] in H;
    rewrite !andb_true_iff, ?Z.leb_le, ?Z.ltb_lt, Nat.eqb_eq, forallb_forall in H;
    unfold op_ok, bytes_ok, gst_ok; (split; [split; [tauto|]|lia]);
    apply Forall_forall; intros y Hy; destruct H as ((((_ & H) & _) & _) & _); specialize (H y Hy);
    rewrite andb_true_iff, Z.leb_le, Z.ltb_lt in H; exact H.
Qed.

(** Authentication bits and time of what a getter returns after a history. *)
Definition demo_get (slow : bool) (h : list op) (k : nav_kind) (svn : Z) : outcome (option (Z * gst)) :=
  o <- run (from_pubkey demo_pubkey slow) h ;;
  x <- getter k o svn ;;
  Ok (option_map (fun d => (nd_authbits d, nd_gst d)) x).

Example demo_before_key : demo_get false (demo_nav_ops ++ demo_kroot_ops) Ced 1 = Ok None.
Proof. vm_compute. reflexivity. Qed.
Example demo_ced1 : demo_get false demo_fast Ced 1 = Ok (Some (40, mkGst 1200 7170)).
Proof. vm_compute. reflexivity. Qed.
Example demo_ced2 : demo_get false demo_fast Ced 2 = Ok (Some (80, mkGst 1200 7170)).
Proof. vm_compute. reflexivity. Qed.
Example demo_timing1 : demo_get false demo_fast Timing 1 = Ok (Some (40, mkGst 1200 7170)).
Proof. vm_compute. reflexivity. Qed.
Example demo_timing2 : demo_get false demo_fast Timing 2 = Ok None.
Proof. vm_compute. reflexivity. Qed.
Example demo_both : demo_get false demo_all Ced 1 = Ok (Some (80, mkGst 1200 7170)).
Proof. vm_compute. reflexivity. Qed.
Example demo_slow_early : demo_get true demo_fast Ced 1 = Ok None.
Proof. vm_compute. reflexivity. Qed.
Example demo_slow : demo_get true demo_all Ced 1 = Ok (Some (40, mkGst 1200 7170)).
Proof. vm_compute. reflexivity. Qed.

Lemma demo_ops_ok : Forall op_ok demo_all.
Proof. apply op_okb_ok. vm_compute. reflexivity. Qed.

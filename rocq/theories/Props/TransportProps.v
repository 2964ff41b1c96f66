(** C42, C43, C51: the Galmon transport. *)
From Coq Require Import ZArith List Bool Lia.
From Verif Require Import Model.Prelude Model.Transport Spec.TransportSpec Proofs.TransportProofs.
Import ListNotations.
Open Scope Z_scope.

(** A codec for the examples: a message is a list of bytes, and a check sum follows it. *)
Record note : Type := mkNote { n_bytes : list Z }.
Definition note_codec : codec note :=
  {| encode := fun n => n_bytes n ++ [(fold_right Z.add 0 (n_bytes n)) mod 256];
     decode := fun l => match rev l with
                        | [] => None
                        | c :: r => if c =? (fold_right Z.add 0 (rev r)) mod 256 then Some (mkNote (rev r)) else None
                        end |}.
Lemma note_round_trips p : decode (codec := note_codec) (encode (codec := note_codec) p) = Some p.
Proof.
  destruct p as [l]. cbn [encode decode note_codec n_bytes]. rewrite rev_app_distr. cbn [rev app].
  rewrite rev_involutive, Z.eqb_refl. reflexivity.
Qed.

(** * C42: framing *)

Section C42.
Context {M : Type} {K : codec M}.

(** Everything written is the frames one after the other, and each call returns the number of
    bytes of its frame. *)
Theorem C42_written : forall (ps : list M) before, Forall fits ps ->
  writes (mkSink before None) ps
  = Ok (map (fun p => ROk (Z.of_nat (length (frame p)))) ps, mkSink (before ++ concat (map frame ps)) None).
Proof.
  intros ps b H. rewrite writes_frames by exact H. do 2 f_equal. apply map_ext. intros p. rewrite length_frame. f_equal. lia.
Qed.

(** What was written is read again, and then the end of the file, any number of times. *)
Theorem C42_round_trip : forall (ps : list M) n rs k, Forall readable ps ->
  writes (mkSink [] None) ps = Ok (rs, k) ->
  reads (reader_new (mkSource (k_bytes k) false)) (length ps + n)
  = Ok (map (fun p => ROk (Some p)) ps ++ repeat (ROk None) n).
Proof.
  intros ps n rs k HF E. rewrite writes_frames in E by (apply (Forall_impl _ (fun p H => proj1 H) HF)). apply ok_inj in E.
  apply pair_equal_spec in E. destruct E as [_ <-]. cbn [k_bytes app].
  apply (round_trip ps n false); auto. apply reader_new_ok.
Qed.

(** The packets that are read do not depend on what comes after them, and afterwards the reader
    is at what comes after them. *)
Theorem C42_prefix : forall (ps : list M) rest fails n, Forall readable ps ->
  exists t, r_read t = mkSource rest fails /\
    reads (reader_new (mkSource (concat (map frame ps) ++ rest) fails)) (length ps + n)
    = (rs <- reads t n ;; Ok (map (fun p => ROk (Some p)) ps ++ rs)).
Proof.
  intros ps rest f n HF. destruct (reads_frames ps rest f _ n HF (reader_new_ok _) eq_refl) as (t & _ & E & Er).
  exists t. auto.
Qed.

(** After any good packets, a wrong magic, a body that is cut, or a body that cannot be decoded
    gives an error. *)
Theorem C42_errors : forall (ps : list M) bad fails, Forall readable ps ->
  (exists h rest, bad = h ++ rest /\ length h = 4%nat /\ h <> [98; 101; 114; 116] /\ (2 <= length rest)%nat) \/
  (exists p k, fits p /\ (6 <= k < length (frame p))%nat /\ bad = firstn k (frame p)) \/
  (exists a b body rest, 0 <= a < 256 /\ 0 <= b < 256 /\ Z.of_nat (length body) = 256 * a + b /\ decode body = None /\
     bad = [98; 101; 114; 116; a; b] ++ body ++ rest) ->
  exists e, reads (reader_new (mkSource (concat (map frame ps) ++ bad) fails)) (length ps + 1)
            = Ok (map (fun p => ROk (Some p)) ps ++ [RErr e]).
Proof.
  intros ps bad f HF Hbad.
  destruct (reads_frames ps bad f _ 1 HF (reader_new_ok _) eq_refl) as (t & Hok & E & ->). cbn [reads].
  assert (Hr : exists e t', read_packet t = Ok (RErr e, t')).
  { destruct Hbad as [(h & rest & -> & Hh & Hn & Hl)|[(p & k & Hp & Hk & ->)|(a & b & body & rest & Ha & Hb & Hl & Hd & ->)]].
    - destruct (bad_magic h rest f t Hok Hh Hn Hl E) as [t' ->]. eauto.
    - destruct (cut_body p k f t Hok Hp Hk E) as [t' ->]. eauto.
    - destruct (bad_body a b body rest f t Hok (proj1 Ha) (proj1 Hb) Hl Hd E) as [t' ->]. eauto. }
  destruct Hr as (e & t' & ->). exists e. reflexivity.
Qed.

(** Reading never panics, whatever is in the stream, and so any number of times; writing panics
    exactly for packets that are too large. *)
Theorem C42_read_never_panics : forall s n, exists rs, reads (M := M) (reader_new s) n = Ok rs.
Proof.
  intros s n. generalize (reader_new_ok s). generalize (reader_new s). induction n as [|n IH]; intros t Hok; cbn [reads].
  - eauto.
  - destruct (read_packet_spec t Hok) as (r & t' & -> & Hok' & _). cbn [bind].
    destruct (IH t' Hok') as [rs ->]. cbn [bind]. eauto.
Qed.

Theorem C42_write_panics : forall (p : M) k, write_packet k p = Panic <-> (65536 <= Z.of_nat (length (encode p))).
Proof. intros p k. rewrite write_packet_panics. unfold fits. lia. Qed.

End C42.

Example C42_example :
  reads (K := note_codec) (reader_new (mkSource ([98; 101; 114; 116; 0; 3; 250; 7; 1] ++ [98; 101; 114; 116; 0; 1; 0]) false)) 4
  = Ok [ROk (Some (mkNote [250; 7])); ROk (Some (mkNote [])); ROk None; ROk None]
  /\ Forall (readable (K := note_codec)) [mkNote [250; 7]; mkNote []]
  /\ concat (map (frame (K := note_codec)) [mkNote [250; 7]; mkNote []])
     = [98; 101; 114; 116; 0; 3; 250; 7; 1] ++ [98; 101; 114; 116; 0; 1; 0].
Proof.
  split; [vm_compute; reflexivity|]. split; [|vm_compute; reflexivity].
  constructor; [|constructor; [|constructor]]; (split; [unfold fits; vm_compute; reflexivity|apply note_round_trips]).
Qed.

(** * C43: streams that end inside a packet *)

(** False as stated: if the stream ends inside the first 6 bytes of a packet, this is taken for
    the end of the stream.  It is so for every packet and each of these places. *)
Theorem C43_cut_header_refuted : exists (M : Type) (K : codec M) (p : M) k,
  readable p /\ (0 < k < length (frame p))%nat /\
  reads (reader_new (mkSource (firstn k (frame p)) false)) 1 = Ok [ROk None].
Proof.
  exists note, note_codec, (mkNote [250; 7]), 5%nat. split; [split; [unfold fits; vm_compute; reflexivity|apply note_round_trips]|]. split; [vm_compute; lia|]. vm_compute. reflexivity.
Qed.

Section C43.
Context {M : Type} {K : codec M}.

(** All the cases: an error exactly if the whole header is there (or if reading fails by itself). *)
Theorem C43_cut_partial : forall (ps : list M) p k, Forall readable ps -> fits p ->
  (k < length (frame p))%nat ->
  reads (reader_new (mkSource (concat (map frame ps) ++ firstn k (frame p)) false)) (length ps + 1)
  = Ok (map (fun p => ROk (Some p)) ps ++ [if (k <? 6)%nat then ROk None else RErr UnexpectedEof]).
Proof.
  intros ps p k HF Hp Hk.
  destruct (reads_frames ps (firstn k (frame p)) false _ 1 HF (reader_new_ok _) eq_refl) as (t & Hok & E & ->). cbn [reads].
  destruct (k <? 6)%nat eqn:E6.
  - apply Nat.ltb_lt in E6. destruct (cut_header p k false t Hok E6 E) as [t' ->]. reflexivity.
  - apply Nat.ltb_ge in E6. destruct (cut_body p k false t Hok Hp (conj E6 Hk) E) as [t' ->]. reflexivity.
Qed.

(** A stream that fails instead of ending gives an error in every case. *)
Theorem C43_failing_stream : forall (ps : list M) p k, Forall readable ps -> fits p ->
  (k < length (frame p))%nat ->
  reads (reader_new (mkSource (concat (map frame ps) ++ firstn k (frame p)) true)) (length ps + 1)
  = Ok (map (fun p => ROk (Some p)) ps ++ [RErr OtherError]).
Proof.
  intros ps p k HF Hp Hk.
  destruct (reads_frames ps (firstn k (frame p)) true _ 1 HF (reader_new_ok _) eq_refl) as (t & Hok & E & ->). cbn [reads].
  destruct (Nat.lt_ge_cases k 6) as [E6|E6].
  - destruct (cut_header p k true t Hok E6 E) as [t' ->]. reflexivity.
  - destruct (cut_body p k true t Hok Hp (conj E6 Hk) E) as [t' ->]. reflexivity.
Qed.

End C43.

Example C43_example :
  map (fun k => reads (K := note_codec) (reader_new (mkSource (firstn k [98; 101; 114; 116; 0; 3; 250; 7; 1]) false)) 1)
      [0; 4; 5; 6; 8; 9]%nat
  = [Ok [ROk None]; Ok [ROk None]; Ok [ROk None]; Ok [RErr UnexpectedEof]; Ok [RErr UnexpectedEof]; Ok [ROk (Some (mkNote [250; 7]))]].
Proof. vm_compute. reflexivity. Qed.

(** * C51: galmon-filter-inav *)

Section C51.
Context {M : Type} {K : codec M}.

Theorem C51_filter : forall has_inav (ps : list M), Forall readable ps ->
  filter_main has_inav (mkSource (concat (map frame ps)) false) (mkSink [] None)
  = Ok (ROk tt, mkSink (concat (map frame (filter has_inav ps))) None).
Proof. intros. now rewrite filter_frames. Qed.

(** If the input goes on with something that gives an error, the program ends with that error
    after writing the packets before it. *)
Theorem C51_filter_error : forall has_inav (ps : list M) bad fails e t, Forall readable ps ->
  read_packet (reader_new (mkSource bad fails)) = Ok (RErr e, t) ->
  filter_main has_inav (mkSource (concat (map frame ps) ++ bad) fails) (mkSink [] None)
  = Ok (RErr e, mkSink (concat (map frame (filter has_inav ps))) None).
Proof. exact filter_error. Qed.

(** If the output fails after [n] bytes, before everything is written, the program ends with an
    error at once; the output has the first [n] bytes of what it should have. *)
Theorem C51_output_error : forall has_inav (ps : list M) rest fails n, Forall readable ps ->
  (n < length (concat (map frame (filter has_inav ps))))%nat ->
  filter_main has_inav (mkSource (concat (map frame ps) ++ rest) fails) (mkSink [] (Some n))
  = Ok (RErr OtherError, mkSink (firstn n (concat (map frame (filter has_inav ps)))) (Some 0%nat)).
Proof. exact filter_full. Qed.

End C51.

Example C51_example :
  filter_main (K := note_codec) (fun n => (1 <? length (n_bytes n))%nat)
    (mkSource ([98; 101; 114; 116; 0; 3; 250; 7; 1] ++ [98; 101; 114; 116; 0; 1; 0] ++ [98; 101; 114; 116; 0; 4; 1; 2; 3; 6]) false) (mkSink [] None)
  = Ok (ROk tt, mkSink ([98; 101; 114; 116; 0; 3; 250; 7; 1] ++ [98; 101; 114; 116; 0; 4; 1; 2; 3; 6]) None).
Proof. vm_compute. reflexivity. Qed.

(** The same with an output that takes 12 bytes. *)
Example C51_output_example :
  filter_main (K := note_codec) (fun n => (1 <? length (n_bytes n))%nat)
    (mkSource ([98; 101; 114; 116; 0; 3; 250; 7; 1] ++ [98; 101; 114; 116; 0; 1; 0] ++ [98; 101; 114; 116; 0; 4; 1; 2; 3; 6]) false) (mkSink [] (Some 12%nat))
  = Ok (RErr OtherError, mkSink [98; 101; 114; 116; 0; 3; 250; 7; 1; 98; 101; 114] (Some 0%nat)).
Proof. vm_compute. reflexivity. Qed.

Print Assumptions C42_written.
Print Assumptions C42_round_trip.
Print Assumptions C42_prefix.
Print Assumptions C42_errors.
Print Assumptions C42_read_never_panics.
Print Assumptions C42_write_panics.
Print Assumptions C43_cut_header_refuted.
Print Assumptions C43_cut_partial.
Print Assumptions C43_failing_stream.
Print Assumptions C51_filter.
Print Assumptions C51_filter_error.
Print Assumptions C51_output_error.

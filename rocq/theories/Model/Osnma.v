(** Model of galileo-osnma/src/osnma.rs. *)
From Coq Require Import ZArith List Bool.
From Verif Require Import Model.Prelude Model.Params Model.Gst Model.Svn Model.Bitfields
  Model.Tesla Model.Merkle Model.Subframe Model.Dsm Model.MackStore Model.Nav.
Import ListNotations.
Open Scope Z_scope.

(** [struct ChainInForce], osnma.rs:114-119. *)
Record chain_in_force : Type := mkCif { cif_cid : Z; cif_start : option gst }.

(** [struct KeyStore], osnma.rs:108-111. *)
Record key_store : Type := mkKeys {
  ks_k0 : option tkey;
  ks_k1 : option tkey;
  ks_cif : option chain_in_force
}.

(** [KeyStore::empty], osnma.rs:635-640. *)
Definition keys_empty : key_store := mkKeys None None None.

Definition has_chain_id (k : option tkey) (id : Z) : bool :=
  match k with Some k => ch_id (k_chain k) =? id | None => false end.

(** [KeyStore::store_kroot], osnma.rs:642-681. *)
Definition store_kroot (ks : key_store) (key : tkey) (nma_header : Z) (g : gst) : key_store :=
  let kid := ch_id (k_chain key) in
  let cid := nma_chain_id nma_header in
  let '(k0, k1) :=
    if has_chain_id (ks_k0 ks) kid then (ks_k0 ks, ks_k1 ks)
    else if has_chain_id (ks_k1 ks) kid then (ks_k0 ks, ks_k1 ks)
    else match ks_k0 ks, ks_k1 ks with
         | None, _ => (Some key, ks_k1 ks)
         | _, None => (ks_k0 ks, Some key)
         | Some k0, Some _ =>
             if ch_id (k_chain k0) =? cid then (ks_k0 ks, Some key) else (Some key, ks_k1 ks)
         end in
  let start := match ks_cif ks with
               | Some cif => if negb (cif_cid cif =? cid) then Some g else None
               | None => None
               end in
  mkKeys k0 k1 (Some (mkCif cid start)).

(** [KeyStore::store_key], osnma.rs:683-695. *)
Definition store_key (ks : key_store) (key : tkey) : outcome key_store :=
  let id := ch_id (k_chain key) in
  if has_chain_id (ks_k0 ks) id then Ok (mkKeys (Some key) (ks_k1 ks) (ks_cif ks))
  else if has_chain_id (ks_k1 ks) id then Ok (mkKeys (ks_k0 ks) (Some key) (ks_cif ks))
  else Panic.

(** [iter().flatten().find(...)] over the two slots, osnma.rs:699-702 and 716-719. *)
Definition find_key (p : tkey -> bool) (ks : key_store) : option tkey :=
  match ks_k0 ks with
  | Some k => if p k then Some k
              else match ks_k1 ks with Some k => if p k then Some k else None | None => None end
  | None => match ks_k1 ks with Some k => if p k then Some k else None | None => None end
  end.

(** [KeyStore::current_key], osnma.rs:697-704. *)
Definition current_key (ks : key_store) : option tkey :=
  match ks_cif ks with
  | None => None
  | Some cif => find_key (fun k => ch_id (k_chain k) =? cif_cid cif) ks
  end.

(** [KeyStore::key_past_chain], osnma.rs:709-723. *)
Definition key_past_chain (ks : key_store) (g : gst) : option tkey :=
  match ks_cif ks with
  | None => None
  | Some cif =>
      match cif_start cif with
      | Some gst0 =>
          if gst_ltb g gst0 then find_key (fun k => negb (ch_id (k_chain k) =? cif_cid cif)) ks
          else current_key ks
      | None => current_key ks
      end
  end.

(** [KeyStore::revoke], osnma.rs:725-734. *)
Definition keys_revoke (ks : key_store) (cid : Z) : key_store :=
  let r k := if has_chain_id k cid then None else k in
  mkKeys (r (ks_k0 ks)) (r (ks_k1 ks)) (ks_cif ks).

Section Crypto.
Context {C : crypto} {B : build} {S : storage}.

(** [struct PubkeyStore], osnma.rs:99-102. *)
Record pubkey_store : Type := mkPubs { ps_current : option public_key; ps_next : option public_key }.

(** [PubkeyStore::empty] and [from_current_pubkey], osnma.rs:513-525. *)
Definition pubs_empty : pubkey_store := mkPubs None None.
Definition pubs_from_current (k : public_key) : pubkey_store := mkPubs (Some k) None.

(** [PubkeyStore::check_consistency], osnma.rs:527-530. *)
Definition check_consistency (ps : pubkey_store) : outcome unit :=
  assert_ (is_none (ps_next ps) || negb (is_none (ps_current ps))).

Definition has_pkid (k : option public_key) (pkid : Z) : bool :=
  match k with Some k => pk_id k =? pkid | None => false end.

(** [PubkeyStore::applicable_pubkey], osnma.rs:532-551. *)
Definition applicable_pubkey (ps : pubkey_store) (pkid : Z) : outcome (option public_key) :=
  check_consistency ps ;;;
  Ok (if has_pkid (ps_current ps) pkid then ps_current ps
      else if has_pkid (ps_next ps) pkid then ps_next ps
      else None).

(** [PubkeyStore::make_pkid_current], osnma.rs:553-569. *)
Definition make_pkid_current (ps : pubkey_store) (pkid : Z) : outcome pubkey_store :=
  check_consistency ps ;;;
  if has_pkid (ps_current ps) pkid then Ok ps
  else if has_pkid (ps_next ps) pkid then
    cur <- unwrap (ps_current ps) ;;
    assert_ (pk_id cur <? pkid) ;;;
    Ok (mkPubs (ps_next ps) None)
  else Panic.

(** [PubkeyStore::store_new_pubkey], osnma.rs:571-611. *)
Definition store_new_pubkey (ps : pubkey_store) (pubkey : public_key) : outcome pubkey_store :=
  check_consistency ps ;;;
  let new_pkid := pk_id pubkey in
  Ok (match ps_current ps with
      | Some current =>
          if new_pkid <? pk_id current then ps
          else if new_pkid =? pk_id current then ps
          else match ps_next ps with
               | Some next =>
                   if pk_id next <? new_pkid then mkPubs (ps_current ps) (Some pubkey) else ps
               | None => mkPubs (ps_current ps) (Some pubkey)
               end
      | None => mkPubs (Some pubkey) (ps_next ps)
      end).

(** [PubkeyStore::revoke], osnma.rs:613-631.  Both branches clear [current]. *)
Definition pubs_revoke (ps : pubkey_store) (new_pkid : Z) : pubkey_store :=
  let matches k := match k with Some k => pk_id k <? new_pkid | None => false end in
  let ps := if matches (ps_current ps) then mkPubs None (ps_next ps) else ps in
  if matches (ps_next ps) then mkPubs None (ps_next ps) else ps.

(** [struct Osnma] with [OsnmaDsm] and [OsnmaData], osnma.rs:74-96; the nesting only serves
    the borrow checker. *)
Record osnma : Type := mkOsnma {
  o_sub : collect_subframe;
  o_dsm : collect_dsm;
  o_nav : nav;
  o_mack : mack_storage;
  o_merkle : option (list Z);
  o_pub : pubkey_store;
  o_keys : key_store;
  o_slow : bool
}.

(** [Osnma::new], osnma.rs:122-142. *)
Definition osnma_new (root : option (list Z)) (pubkey : option public_key) (only_slowmac : bool)
  : osnma :=
  mkOsnma subframe_new dsm_new nav_new mack_storage_new root
          (match pubkey with None => pubs_empty | Some k => pubs_from_current k end)
          keys_empty only_slowmac.

(** [Osnma::from_merkle_tree], osnma.rs:155-161. *)
Definition from_merkle_tree (root : list Z) (pubkey : option public_key) (only_slowmac : bool)
  : osnma := osnma_new (Some root) pubkey only_slowmac.

(** [Osnma::from_pubkey], osnma.rs:177-179. *)
Definition from_pubkey (pubkey : public_key) (only_slowmac : bool) : osnma :=
  osnma_new None (Some pubkey) only_slowmac.

Definition set_sub (x : collect_subframe) (o : osnma) : osnma :=
  mkOsnma x (o_dsm o) (o_nav o) (o_mack o) (o_merkle o) (o_pub o) (o_keys o) (o_slow o).
Definition set_dsm (x : collect_dsm) (o : osnma) : osnma :=
  mkOsnma (o_sub o) x (o_nav o) (o_mack o) (o_merkle o) (o_pub o) (o_keys o) (o_slow o).
Definition set_nav (x : nav) (o : osnma) : osnma :=
  mkOsnma (o_sub o) (o_dsm o) x (o_mack o) (o_merkle o) (o_pub o) (o_keys o) (o_slow o).
Definition set_mack (x : mack_storage) (o : osnma) : osnma :=
  mkOsnma (o_sub o) (o_dsm o) (o_nav o) x (o_merkle o) (o_pub o) (o_keys o) (o_slow o).
Definition set_merkle (x : option (list Z)) (o : osnma) : osnma :=
  mkOsnma (o_sub o) (o_dsm o) (o_nav o) (o_mack o) x (o_pub o) (o_keys o) (o_slow o).
Definition set_pub (x : pubkey_store) (o : osnma) : osnma :=
  mkOsnma (o_sub o) (o_dsm o) (o_nav o) (o_mack o) (o_merkle o) x (o_keys o) (o_slow o).
Definition set_keys (x : key_store) (o : osnma) : osnma :=
  mkOsnma (o_sub o) (o_dsm o) (o_nav o) (o_mack o) (o_merkle o) (o_pub o) x (o_slow o).

(** [Osnma::feed_inav], osnma.rs:192-194. *)
Definition feed_inav (o : osnma) (word : list Z) (svn : Z) (g : gst) (b : band) : outcome osnma :=
  n <- nav_feed (o_nav o) word svn g b ;; Ok (set_nav n o).

(** [OsnmaData::alert_message_received], osnma.rs:356-361. *)
Definition alert_message_received (o : osnma) : osnma :=
  set_keys keys_empty (set_pub pubs_empty (set_merkle None o)).

(** [OsnmaData::process_nma_header], osnma.rs:288-354.  Branches that only log are left
    out. *)
Definition process_nma_header (o : osnma) (nma_header pkid : Z) : osnma :=
  let o :=
    match nma_status nma_header with
    | NmaDontUse =>
        match nma_cpks nma_header with
        | CpksChainRevoked => set_keys (keys_revoke (o_keys o) (nma_chain_id nma_header)) o
        | CpksPublicKeyRevoked =>
            let o := set_pub (pubs_revoke (o_pub o) pkid) o in
            set_keys (keys_revoke (o_keys o) (nma_chain_id nma_header)) o
        | _ => o
        end
    | _ => o
    end in
  match nma_cpks nma_header with
  | CpksAlertMessage => alert_message_received o
  | _ => o
  end.

(** [OsnmaData::process_dsm_kroot], osnma.rs:266-286. *)
Definition process_dsm_kroot (o : osnma) (d : list Z) (nma_header : Z) (g : gst) : outcome osnma :=
  pkid <- kroot_public_key_id d ;;
  pk <- applicable_pubkey (o_pub o) pkid ;;
  match pk with
  | None => Ok o
  | Some pubkey =>
      r <- key_from_dsm_kroot nma_header d (pk_key pubkey) ;;
      match r with
      | ROk key =>
          ps <- make_pkid_current (o_pub o) pkid ;;
          let o := set_pub ps o in
          let o := set_keys (store_kroot (o_keys o) key nma_header g) o in
          Ok (process_nma_header o nma_header pkid)
      | RErr _ => Ok o
      end
  end.

(** [OsnmaData::process_dsm_pkr_npk], osnma.rs:373-385. *)
Definition process_dsm_pkr_npk (o : osnma) (d : list Z) : outcome osnma :=
  match o_merkle o with
  | None => Ok o
  | Some root =>
      r <- validate_pkr root d ;;
      match r with
      | ROk pubkey => ps <- store_new_pubkey (o_pub o) pubkey ;; Ok (set_pub ps o)
      | RErr _ => Ok o
      end
  end.

(** [OsnmaData::process_dsm_pkr_alert_message], osnma.rs:387-399. *)
Definition process_dsm_pkr_alert_message (o : osnma) (d : list Z) : outcome osnma :=
  match o_merkle o with
  | None => Ok o
  | Some root =>
      r <- validate_alert_message root d ;;
      match r with
      | ROk _ => Ok (alert_message_received o)
      | RErr _ => Ok o
      end
  end.

(** [OsnmaData::process_dsm_pkr], osnma.rs:363-371. *)
Definition process_dsm_pkr (o : osnma) (d : list Z) : outcome osnma :=
  t <- pkr_new_public_key_type d ;;
  match t with
  | NpktEcdsaKey _ => process_dsm_pkr_npk o d
  | NpktAlert => process_dsm_pkr_alert_message o d
  | NpktReserved => Ok o
  end.

(** [OsnmaData::process_dsm], osnma.rs:259-264. *)
Definition process_dsm (o : osnma) (d : dsm) (nma_header : Z) (g : gst) : outcome osnma :=
  match dm_type d with
  | DsmKroot => process_dsm_kroot o (dm_data d) nma_header g
  | DsmPkr => process_dsm_pkr o (dm_data d)
  end.

(** [OsnmaData::validate_mack], osnma.rs:496-509. *)
Definition validate_mack (m : mack) (key : tkey) (prna : Z) (gst_mack : gst) : outcome (option mack) :=
  r <- mack_validate m key prna gst_mack ;;
  Ok (match r with ROk m => Some m | RErr _ => None end).

(** [Mack::new] with the sizes of the chain of [key], osnma.rs:406-410, 459-463,
    476-480. *)
Definition mack_of_chain (message : list Z) (key : tkey) : mack :=
  mack_new message (ch_key_bytes (k_chain key) * 8) (ch_tag_bits (k_chain key)).

(** The key for the MACSEQ of the Slow MAC MACK, osnma.rs:446-454. *)
Definition slowmac_key_of (ks : key_store) (gst_k_slowmac : gst) : outcome (option tkey) :=
  match key_past_chain ks gst_k_slowmac with
  | None => Ok None
  | Some k =>
      let derivations := subframes_difference (k_gst k) gst_k_slowmac in
      if 0 <=? derivations then k' <- derive k (Z.to_nat derivations) ;; Ok (Some k')
      else Ok None
  end.

(** The first half of the loop of [process_tags], osnma.rs:456-468. *)
Definition process_tags_fast (st : mack_storage) (only_slowmac : bool) (current_key : tkey)
    (gst_mack : gst) (svn : Z) (n : nav) : outcome nav :=
  if only_slowmac then Ok n
  else
    sm <- mack_get st svn gst_mack ;;
    match sm with
    | None => Ok n
    | Some (message, s) =>
        vm <- validate_mack (mack_of_chain message current_key) current_key svn gst_mack ;;
        match vm with
        | Some m => process_mack n m current_key svn gst_mack s
        | None => Ok n
        end
    end.

(** The second half of the loop of [process_tags], osnma.rs:470-492. *)
Definition process_tags_slow (st : mack_storage) (slowmac_key : option tkey) (current_key : tkey)
    (gst_slowmac : gst) (svn : Z) (n : nav) : outcome nav :=
  match slowmac_key with
  | None => Ok n
  | Some slowmac_key =>
      sm <- mack_get st svn gst_slowmac ;;
      match sm with
      | None => Ok n
      | Some (message, s) =>
          vm <- validate_mack (mack_of_chain message current_key) slowmac_key svn gst_slowmac ;;
          match vm with
          | Some m => process_mack_slowmac n m current_key svn gst_slowmac s
          | None => Ok n
          end
      end
  end.

(** [OsnmaData::process_tags], osnma.rs:440-494. *)
Definition process_tags (o : osnma) (current_key : tkey) : outcome osnma :=
  gst_mack <- add_seconds (k_gst current_key) (-30) ;;
  gst_slowmac <- add_seconds gst_mack (-300) ;;
  gst_k_slowmac <- add_seconds (k_gst current_key) (-300) ;;
  slowmac_key <- slowmac_key_of (o_keys o) gst_k_slowmac ;;
  n <- fold_outcome
         (fun n svn =>
            n <- process_tags_fast (o_mack o) (o_slow o) current_key gst_mack svn n ;;
            process_tags_slow (o_mack o) slowmac_key current_key gst_slowmac svn n)
         svn_iter (o_nav o) ;;
  Ok (set_nav n o).

(** [OsnmaData::validate_key], osnma.rs:401-438. *)
Definition osnma_validate_key (o : osnma) (message : list Z) (g : gst) : outcome osnma :=
  match current_key (o_keys o) with
  | None => Ok o
  | Some current =>
      kb <- mack_key (mack_of_chain message current) ;;
      new_key <- key_from_bitslice kb g (k_chain current) ;;
      match gst_cmp (k_gst current) (k_gst new_key) with
      | Eq => Ok o
      | Gt => Ok o
      | Lt =>
          r <- validate_key current new_key ;;
          match r with
          | ROk new_valid_key =>
              ks <- store_key (o_keys o) new_valid_key ;;
              process_tags (set_keys ks o) new_valid_key
          | RErr _ => Ok o
          end
      end
  end.

(** [OsnmaDsm::process_subframe], osnma.rs:238-255.  The HKROOT message is 15 bytes: NMA
    header, DSM header and 13 bytes of DSM block. *)
Definition process_subframe (o : osnma) (hkroot message : list Z) (svn : Z) (g : gst)
  : outcome osnma :=
  nma_header <- index hkroot 0 ;;
  ms <- mack_store (o_mack o) message svn g (nma_status nma_header) ;;
  let o := set_mack ms o in
  dsm_header <- index hkroot 1 ;;
  '(cd, d) <- dsm_feed (o_dsm o) dsm_header (skipn 2 hkroot) ;;
  let o := set_dsm cd o in
  o <- match d with
       | Some d => process_dsm o d nma_header g
       | None => Ok o
       end ;;
  osnma_validate_key o message g.

(** [Osnma::feed_osnma], osnma.rs:205-213. *)
Definition feed_osnma (o : osnma) (data : list Z) (svn : Z) (g : gst) : outcome osnma :=
  if forallb (fun x => x =? 0) data then Ok o
  else
    '(sf, r) <- subframe_feed (o_sub o) data svn g ;;
    let o := set_sub sf o in
    match r with
    | Some (hkroot, message, subframe_gst) => process_subframe o hkroot message svn subframe_gst
    | None => Ok o
    end.

(** [Osnma::get_ced_and_status] and [get_timing_parameters], osnma.rs:222-234. *)
Definition get_ced_and_status (o : osnma) (svn : Z) : outcome (option nav_data) :=
  nav_get Ced (o_nav o) svn.
Definition get_timing_parameters (o : osnma) (svn : Z) : outcome (option nav_data) :=
  nav_get Timing (o_nav o) svn.

(** ** Executions *)

(** The calls of the public interface that change the state. *)
Inductive op : Type :=
| FeedInav (word : list Z) (svn : Z) (g : gst) (b : band)
| FeedOsnma (data : list Z) (svn : Z) (g : gst).

Definition step (o : osnma) (x : op) : outcome osnma :=
  match x with
  | FeedInav word svn g b => feed_inav o word svn g b
  | FeedOsnma data svn g => feed_osnma o data svn g
  end.

(** The state after a sequence of calls, or [Panic] if one of them panics. *)
Definition run (o : osnma) (l : list op) : outcome osnma := fold_outcome step l o.

(** What the argument types of the calls guarantee. *)
Definition op_ok (x : op) : Prop :=
  match x with
  | FeedInav word svn g _ => bytes_ok 16 word /\ 1 <= svn <= 36 /\ gst_ok g
  | FeedOsnma data svn g => bytes_ok 5 data /\ 1 <= svn <= 36 /\ gst_ok g
  end.

End Crypto.

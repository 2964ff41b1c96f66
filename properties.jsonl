{"id": "C01", "title": "Navigation data is only returned if it was authenticated", "statement": "Whenever Osnma::get_ced_and_status or Osnma::get_timing_parameters returns data for a satellite, the reported authentication bits are at least 40 and are exactly the total length (capped at 65535) of a list of OSNMA tags, each of which was found in a MACK message fed to the library, was sent in a subframe whose NMA status was Test or Operational, equals the truncated MAC of exactly the returned satellite number and navigation data bits, and was verified with a TESLA key that is trusted in the sense of C02.", "quantifier": "for every constructor argument, every finite sequence of feed_inav/feed_osnma calls with arbitrary (adversarial) contents, every satellite, every storage size, every implementation of the hash/MAC/signature primitives", "why_tests_cant": "A test exercises one recording; the claim is about every sequence of received words, including forged, reordered, interleaved and replayed ones.", "anchors": ["galileo-osnma/src/osnma.rs: Osnma::feed_inav, Osnma::feed_osnma, Osnma::get_ced_and_status, Osnma::get_timing_parameters, OsnmaDsm::process_tags", "galileo-osnma/src/navmessage.rs: CollectNavMessage::process_mack, process_mack_slowmac, validate_tag, copy_word", "galileo-osnma/src/tesla.rs: Key::validate_tag, Key::validate_tag0"]}
{"id": "C02", "title": "Every TESLA key in use is anchored in a trusted public key", "statement": "Every TESLA key that the receiver uses to verify tags reduces, by repeated application of the one-way function, to a root key contained in a DSM-KROOT that was received block by block through feed_osnma, whose padding is right and whose ECDSA signature over the NMA header and KROOT parameters was verified with a public key that either was given by the user at construction or was received in a DSM-PKR that hashes to the Merkle tree root given by the user.", "quantifier": "for every constructor argument and every finite sequence of feed calls", "why_tests_cant": "Key provenance is a property of whole histories (several DSMs, chain changes, public key renewals); tests cover single links of the chain.", "anchors": ["galileo-osnma/src/osnma.rs: OsnmaDsm::process_dsm_kroot, process_dsm_pkr, OsnmaKeys::validate_key, KeyStore, PubkeyStore", "galileo-osnma/src/tesla.rs: Key::from_dsm_kroot, Key::validate_key", "galileo-osnma/src/merkle_tree.rs: MerkleTree::validate_pkr"]}
{"id": "C03", "title": "Returned bits were received from that satellite", "statement": "Every 120/122/67/99/42-bit field of the navigation data returned for a satellite was received in an INAV word of the corresponding type fed with that satellite number; timing parameter fields (words 6 and 10) were received on E1-B.", "quantifier": "for every sequence of feed calls and every satellite", "why_tests_cant": "Storage slots are recycled between satellites without clearing their contents, so the claim depends on all interleavings of satellites and evictions.", "anchors": ["galileo-osnma/src/navmessage.rs: CollectNavMessage::feed, CedAndStatus::feed, TimingParameters::feed, reset, copy_word"]}
{"id": "C04", "title": "TESLA disclosure delay is respected", "statement": "If the words are fed with non-decreasing GST, then each tag that contributes to the authentication bits is a tag received in the MACK of a subframe that ended before the subframe that disclosed its key (one subframe for ADKD 0 and 4, eleven subframes for ADKD 12), and the navigation data it authenticates had been received no later than the subframe before the one containing the tag.", "quantifier": "for every sequence of feed calls whose GSTs never decrease", "why_tests_cant": "Ordering between three different kinds of messages over unbounded histories, including gaps and loss, cannot be enumerated.", "anchors": ["galileo-osnma/src/osnma.rs: OsnmaKeys::validate_key, OsnmaDsm::process_tags", "galileo-osnma/src/navmessage.rs: process_mack, process_mack_slowmac, find_gst", "galileo-osnma/src/mack.rs: MackStorage::get"]}
{"id": "C05", "title": "Slow MAC only mode", "statement": "If Osnma was built with only_slowmac = true, get_timing_parameters never returns anything and all the authentication bits of the data returned by get_ced_and_status come from ADKD 12 tags verified with a key disclosed 11 subframes after the tag.", "quantifier": "for every sequence of feed calls", "why_tests_cant": "A negative claim (no fast MAC tag ever counts) over all histories.", "anchors": ["galileo-osnma/src/osnma.rs: OsnmaDsm::process_tags", "galileo-osnma/src/navmessage.rs: process_mack_slowmac"]}
{"id": "C06", "title": "An alert message permanently stops authentication", "statement": "After an OSNMA alert message is accepted, no key, public key or Merkle tree root is ever available again, and for the rest of the life of the object the getters never return navigation data with more authentication bits, or other data, than what had already been authenticated before the alert.", "quantifier": "for every history that contains an accepted alert and every continuation of it", "why_tests_cant": "The claim is about every continuation after the alert.", "anchors": ["galileo-osnma/src/osnma.rs: OsnmaDsm::alert_message_received, process_nma_header, process_dsm_pkr_alert_message"]}
{"id": "C07", "title": "A configured public key cannot be replaced without a Merkle tree", "statement": "If Osnma was built with from_pubkey, the only public key ever used to verify a KROOT is the one given by the user (it can be dropped by an alert, never replaced or supplemented by received data).", "quantifier": "for every sequence of feed calls", "why_tests_cant": "Needs all histories of forged DSM-PKR messages.", "anchors": ["galileo-osnma/src/osnma.rs: Osnma::from_pubkey, OsnmaDsm::process_dsm_pkr, PubkeyStore::store_new_pubkey"]}
{"id": "C08", "title": "Messages that fail verification change no key material", "statement": "If a DSM-KROOT or DSM-PKR does not verify (unknown key id, bad field, bad padding, bad signature, wrong Merkle proof) the TESLA keys, the chain in force, the public keys and the Merkle root held by the receiver stay exactly as they were.", "quantifier": "for every state of the receiver and every message", "why_tests_cant": "All failing messages in all states; tests sample a few.", "anchors": ["galileo-osnma/src/osnma.rs: OsnmaDsm::process_dsm, process_dsm_kroot, process_dsm_pkr_npk"]}
{"id": "C09", "title": "Receiver robustness: feeding never panics", "statement": "feed_inav and feed_osnma never panic, whatever is received over the air.", "quantifier": "for every sequence of feed calls with arbitrary contents", "why_tests_cant": "Panics are triggered by rare combinations of field values (block counts against key sizes, curve type against message length, signature scalars), which fuzzing finds only by luck and testing cannot exclude.", "anchors": ["galileo-osnma/src/bitfields.rs: DsmKroot::ecdsa_function, DsmKroot::check_signature, DsmPkr::merkle_tree_leaf", "galileo-osnma/src/tesla.rs: Key::from_dsm_kroot", "galileo-osnma/src/osnma.rs: process_subframe"]}
{"id": "C10", "title": "Getters never panic", "statement": "get_ced_and_status and get_timing_parameters never panic if all words were fed with week number at least 1.", "quantifier": "for every sequence of feed calls with week number >= 1, in both overflow-checking and wrapping builds", "why_tests_cant": "The subtraction that could underflow depends on how long ago each word was received: all histories.", "anchors": ["galileo-osnma/src/navmessage.rs: get_ced_and_status, get_timing_parameters", "galileo-osnma/src/gst.rs: Gst::add_seconds"]}
{"id": "C11", "title": "Internal assertions of the key stores are never violated", "statement": "The consistency assertions of the public key store (a next key only with a current one; increasing ids) and the unreachable!() branch of the TESLA key store are never reached.", "quantifier": "for every sequence of feed calls", "why_tests_cant": "Reachability over unbounded histories of key renewals, revocations and chain changes.", "anchors": ["galileo-osnma/src/osnma.rs: PubkeyStore::check_consistency, make_pkid_current, KeyStore::store_key"]}
{"id": "C12", "title": "Key store keeps the chain in force and distinct chains", "statement": "The receiver holds at most one TESLA key per chain id, storing a new KROOT never discards the key of the chain announced as in force by that KROOT, the KROOT of a chain whose key is held never replaces this key, and for a held chain the key only moves forward in time.", "quantifier": "for every sequence of key store operations", "why_tests_cant": "Invariant over all orders of KROOT, key and revocation events.", "anchors": ["galileo-osnma/src/osnma.rs: KeyStore::store_kroot, store_key, revoke, current_key"]}
{"id": "C13", "title": "Public key ids never roll back", "statement": "The id of the public key in use never decreases over the life of the receiver (until an alert removes all keys), a received key with an id not greater than the one in use is never stored, and a KROOT is only verified with the stored key whose id it names.", "quantifier": "for every sequence of feed calls", "why_tests_cant": "All histories of PKR and KROOT messages.", "anchors": ["galileo-osnma/src/osnma.rs: PubkeyStore::store_new_pubkey, make_pkid_current, applicable_pubkey, revoke"]}
{"id": "C14", "title": "TESLA key validation is sound and complete", "statement": "Key::validate_key accepts a key exactly when it belongs to the same chain, its subframe is later by n subframes with 1 <= n <= 3000, and applying the one-way function n times with the right subframe times to it gives this key; it never panics for keys made by the public constructors.", "quantifier": "for all pairs of keys, all chains, all distances", "why_tests_cant": "The distance n and the key contents are unbounded for testing purposes.", "anchors": ["galileo-osnma/src/tesla.rs: Key::validate_key, derive, one_way_function"]}
{"id": "C15", "title": "Key validation is transitive along the chain", "statement": "Validating keys step by step gives the same trust as validating directly: deriving a key m + n times equals deriving it n and then m times, so a key accepted by a sequence of validations derives to the first key of the sequence.", "quantifier": "for all keys and all m, n", "why_tests_cant": "Unbounded chains.", "anchors": ["galileo-osnma/src/tesla.rs: Key::derive, Key::one_way_function, Key::validate_key"]}
{"id": "C16", "title": "KROOT verification binds every parameter used", "statement": "Key::from_dsm_kroot succeeds only if the padding and the ECDSA signature over the NMA header and the KROOT message verify, and then the resulting key bytes, chain id, hash and MAC functions, key and tag sizes, MACLT, alpha and time are functions of the signed bytes only: two DSM-KROOTs with the same signed bytes give the same key.", "quantifier": "for all DSM contents, NMA headers and public keys", "why_tests_cant": "A statement about all pairs of messages.", "anchors": ["galileo-osnma/src/tesla.rs: Key::from_dsm_kroot, Chain::from_dsm_kroot", "galileo-osnma/src/bitfields.rs: DsmKroot::signature_message, check_padding, check_signature"]}
{"id": "C17", "title": "MAC input encoding is unambiguous", "statement": "Two tags verified over the same MAC input have the same kind (self-authentication tag0 or other tag), the same transmitting satellite, the same authenticated satellite, the same GST (week modulo 4096), the same tag position, the same NMA status and the same navigation data; a tag cannot be replayed for other data, satellite, time or position.", "quantifier": "for all satellites, GSTs, counters, NMA statuses and navigation data of the CED (549 bits) and timing (141 bits) kinds", "why_tests_cant": "Injectivity is a claim about all pairs of inputs.", "anchors": ["galileo-osnma/src/tesla.rs: Key::validate_tag, validate_tag0, check_tag, check_common, store_gst"]}
{"id": "C18", "title": "Dummy tags never authenticate navigation data", "statement": "Tags with COP = 0 are checked as dummy tags and never add authentication bits to any stored data.", "quantifier": "for every MACK message and state", "why_tests_cant": "All MACK contents.", "anchors": ["galileo-osnma/src/navmessage.rs: process_mack, process_mack_slowmac"]}
{"id": "C19", "title": "MACK validation is sound", "statement": "Mack::validate succeeds exactly when the 12-bit MACSEQ equals the truncated MAC over the satellite, time and the tag infos at flexible positions, and every tag info agrees with the MAC look-up table of the chain for that minute half and position (self tags name the transmitting satellite, cross tags a Galileo satellite, fixed ADKDs match).", "quantifier": "for all MACK messages, keys, satellites, GSTs", "why_tests_cant": "All combinations of 45 layouts, 12 tables, and message contents.", "anchors": ["galileo-osnma/src/bitfields.rs: Mack::validate", "galileo-osnma/src/tesla.rs: Key::validate_macseq, Chain::validate_adkd"]}
{"id": "C20", "title": "MACK layout tiles the message for every chain", "statement": "For every key size and tag size that a KROOT can announce, tag0, MACSEQ, COP, the tag-and-info fields and the key are pairwise disjoint consecutive fields that lie inside the 480-bit MACK message, so that no accessor panics and re-concatenating the fields gives back the message prefix.", "quantifier": "for all 45 key/tag size combinations and all 60-byte messages", "why_tests_cant": "The contents are 2^480; the combinations are rarely used.", "anchors": ["galileo-osnma/src/bitfields.rs: Mack::tag0, macseq, cop, num_tags, tag_and_info, key"]}
{"id": "C21", "title": "MAC look-up table consistency", "statement": "For every MACLT id, minute half and tag number, the entry lookup fails exactly for unknown ids and out-of-range tag numbers; the list of flexible indices contains exactly the positions whose entry is FLX, increasing and without repetition; ADKD 4 entries are always self-authenticating, so the internal assertion never fires.", "quantifier": "for all MACLT ids, messages and tag numbers", "why_tests_cant": "Finite but large; tests check single positions.", "anchors": ["galileo-osnma/src/maclt.rs: get_maclt_entry, get_flx_indices", "galileo-osnma/src/tesla.rs: Chain::validate_adkd"]}
{"id": "C22", "title": "Merkle proof binding", "statement": "If MerkleTree::validate_pkr (or validate_alert_message) accepts a DSM-PKR against the root of a tree with 16 leaves, then the key type, key id and key in the message are those of the leaf in position message-id, or two different inputs with the same SHA-256 hash are known; conversely a message with the right leaf and sibling nodes is accepted.", "quantifier": "for all trees of 16 leaves and all DSM-PKR messages", "why_tests_cant": "A reduction to collision resistance over all messages.", "anchors": ["galileo-osnma/src/merkle_tree.rs: MerkleTree::validate, validate_pkr, validate_alert_message", "galileo-osnma/src/bitfields.rs: DsmPkr::merkle_tree_leaf, intermediate_tree_node"]}
{"id": "C23", "title": "Subframe collection is exact", "statement": "CollectSubframe::feed returns a subframe for a satellite exactly when the current call supplies word 14 and words 0..13 of that satellite and subframe were fed before in that order since the last change of subframe, and then the HKROOT and MACK messages are the concatenation of those words and the GST is the start of the subframe; each subframe is returned at most once.", "quantifier": "for every history of words of all satellites, with loss, repetition and reordering", "why_tests_cant": "Unbounded interleavings of 36 satellites.", "anchors": ["galileo-osnma/src/subframe.rs: CollectSubframe::feed"]}
{"id": "C24", "title": "Satellites do not interfere in subframe collection", "statement": "Words of one satellite fed within a subframe do not change what is collected for another satellite.", "quantifier": "for every history and every pair of satellites", "why_tests_cant": "All interleavings.", "anchors": ["galileo-osnma/src/subframe.rs: CollectSubframe::feed"]}
{"id": "C25", "title": "DSM collection is exact", "statement": "CollectDsm::feed returns a DSM exactly when all its blocks (the number given by block 0) have been received since the DSM id last changed and it has not been returned since then; the returned data is the concatenation of the first received copy of each block, its type is KROOT for ids 0-11 and PKR for 12-15, and blocks with other DSM ids never mix in.", "quantifier": "for every history of blocks from any satellites in any order with repetitions", "why_tests_cant": "All orders and repetitions of up to 16 blocks and id changes.", "anchors": ["galileo-osnma/src/dsm.rs: CollectDsm::feed, store_block, done_and_size"]}
{"id": "C26", "title": "MACK storage never mixes up messages", "statement": "MackStorage::get(svn, gst) only returns a message and NMA status that were stored together for exactly that satellite and subframe.", "quantifier": "for every history of stores and every storage size", "why_tests_cant": "All histories over a ring buffer with wraparound.", "anchors": ["galileo-osnma/src/mack.rs: MackStorage::store, get, adjust_write_pointer"]}
{"id": "C27", "title": "MACK storage retention", "statement": "A MACK message stored for a subframe (with no more satellites than the storage holds) is returned by get until as many newer subframes as the storage depth have been stored.", "quantifier": "for every history with increasing GSTs and every storage size", "why_tests_cant": "Ring buffer wraparound for all depths.", "anchors": ["galileo-osnma/src/mack.rs: MackStorage::store, get, adjust_write_pointer", "galileo-osnma/src/storage.rs"]}
{"id": "C28", "title": "Navigation data layout", "statement": "After the words of types 1 to 5 (6 and 10) of a satellite are received in a subframe, the data stored is exactly the concatenation of the bit ranges given in the ICD for ADKD 0 (ADKD 4), whatever was stored before and whatever order the words come in.", "quantifier": "for all word contents, orders and previous contents", "why_tests_cant": "2^640 word contents and all previous states.", "anchors": ["galileo-osnma/src/navmessage.rs: CedAndStatus::feed, TimingParameters::feed, copy_word"]}
{"id": "C29", "title": "Changing a single data bit discards the authentication", "statement": "If a newly received word changes any bit of the stored data, the authentication bits of the current entry go to zero; if it repeats the stored bits they are kept.", "quantifier": "for every entry and word", "why_tests_cant": "All pairs of contents.", "anchors": ["galileo-osnma/src/navmessage.rs: copy_word"]}
{"id": "C30", "title": "Full storage never evicts a satellite", "statement": "As long as there were not more satellites received than the storage has entries per subframe (always, with 36 entries), the data of a satellite in the current subframe is never discarded in favour of another satellite; with fewer entries a satellite is discarded only if the storage is full, and then it is one with the oldest data.", "quantifier": "for every sequence of feed calls and every storage size", "why_tests_cant": "Pigeonhole over all histories.", "anchors": ["galileo-osnma/src/navmessage.rs: CollectNavMessage::feed"]}
{"id": "C31", "title": "Reported GST and age of navigation data", "statement": "The GST of the returned navigation data is the start of the subframe in which the most recently received word of this data was transmitted.", "quantifier": "for every history of feed calls", "why_tests_cant": "Ages are counted in storage steps, not in time; whether they agree depends on gaps and saturation over the whole history.", "anchors": ["galileo-osnma/src/navmessage.rs: adjust_write_pointer, increase_age, min_age, get_ced_and_status, NavMessageData::gst"]}
{"id": "C32", "title": "The most recent authenticated data is returned", "statement": "If several subframes held in storage have sufficiently authenticated data for a satellite, the data of the most recent one is returned, and data is returned whenever at least one has it.", "quantifier": "for every history and every satellite", "why_tests_cant": "Ring buffer order for all depths and histories.", "anchors": ["galileo-osnma/src/navmessage.rs: get_ced_and_status, get_timing_parameters"]}
{"id": "C33", "title": "Valid tags do authenticate (completeness)", "statement": "If the receiver holds a key in force, the MACK of the previous subframe and the navigation data before it, and then receives a valid next key, and the MACK and a non-dummy tag in it verify and the data is within the COP, then the getter returns authenticated data for that satellite (for tags of 40 bits).", "quantifier": "for every reachable state and every valid message", "why_tests_cant": "Liveness of the data path for every position of tag, satellite order and storage state.", "anchors": ["galileo-osnma/src/osnma.rs: process_tags", "galileo-osnma/src/navmessage.rs: process_mack, validate_tag"]}
{"id": "C34", "title": "COP limits the age of the data used", "statement": "A tag only adds authentication bits to data found in the subframe before the tag all of whose words were received within the last COP storage steps.", "quantifier": "for all states, MACKs and COP values", "why_tests_cant": "All histories of partial reception.", "anchors": ["galileo-osnma/src/navmessage.rs: process_mack, process_mack_slowmac, max_age"]}
{"id": "C35", "title": "All-zero OSNMA data is ignored", "statement": "Feeding an all-zero OSNMA field (satellite not transmitting OSNMA) leaves the whole receiver state unchanged. Leaving the all-zero fields out of any history changes neither what the receiver does nor its log.", "quantifier": "for every state, satellite and GST; every history and log level", "why_tests_cant": "All states.", "anchors": ["galileo-osnma/src/osnma.rs: Osnma::feed_osnma"]}
{"id": "C36", "title": "Feeding INAV words never creates authentication", "statement": "feed_inav never panics and never increases the authentication bits of the data of any satellite nor changes key material.", "quantifier": "for every state and word", "why_tests_cant": "All states.", "anchors": ["galileo-osnma/src/osnma.rs: Osnma::feed_inav", "galileo-osnma/src/navmessage.rs: CollectNavMessage::feed"]}
{"id": "C37", "title": "GST arithmetic is exact", "statement": "add_seconds and add_subframes add exactly the given time on the absolute time scale, giving a valid GST, and panic exactly when seconds are at most -604800, or the week leaves the 16-bit range (overflow-checking build).", "quantifier": "for all GSTs and all i32 offsets", "why_tests_cant": "2^48 * 2^32 inputs.", "anchors": ["galileo-osnma/src/gst.rs: Gst::add_seconds, add_subframes"]}
{"id": "C38", "title": "add_seconds accepts every offset with a representable result", "statement": "For every offset for which the resulting time is representable, add_seconds returns it.", "quantifier": "for all GSTs and all i32 offsets", "why_tests_cant": "Edge cases around whole weeks.", "anchors": ["galileo-osnma/src/gst.rs: Gst::add_seconds"]}
{"id": "C39", "title": "Subframe alignment and difference", "statement": "gst_subframe gives the largest subframe start not after the time, is idempotent and characterised by is_subframe; for subframe-aligned times subframes_difference is the exact signed number of subframes and inverts add_subframes, and the derived order on GST is the order of time.", "quantifier": "for all GSTs", "why_tests_cant": "All pairs of GSTs.", "anchors": ["galileo-osnma/src/gst.rs: Gst::gst_subframe, is_subframe, subframes_difference"]}
{"id": "C40", "title": "subframes_difference is elapsed seconds divided by 30 for all GSTs", "statement": "subframes_difference equals the number of GST seconds elapsed divided by 30, as documented.", "quantifier": "for all pairs of GSTs, aligned or not", "why_tests_cant": "Only fails across week boundaries with unaligned times.", "anchors": ["galileo-osnma/src/gst.rs: Gst::subframes_difference"]}
{"id": "C41", "title": "SVN conversions", "statement": "Svn::try_from accepts exactly 1..36 for each integer type, converting back gives the same number, and Svn::iter yields each satellite exactly once in increasing order.", "quantifier": "for all values of all integer types", "why_tests_cant": "Ranges of 64-bit types.", "anchors": ["galileo-osnma/src/svn.rs: Svn"]}
{"id": "C42", "title": "Galmon framing round trip", "statement": "Reading the byte stream produced by any sequence of write_packet calls gives back the same packets in order with their sizes and then end of file; a damaged magic or truncated body is reported as an error.", "quantifier": "for every sequence of packets whose encoding has at most 65535 bytes, and any protobuf codec that round-trips", "why_tests_cant": "Unbounded sequences and contents.", "anchors": ["galileo-osnma/src/galmon/mod.rs: ReadTransport::read_packet, WriteTransport::write_packet"]}
{"id": "C43", "title": "Truncated streams are reported", "statement": "read_packet returns an error whenever the stream ends inside a packet.", "quantifier": "for every packet and every truncation point", "why_tests_cant": "Every crash/truncation point.", "anchors": ["galileo-osnma/src/galmon/mod.rs: ReadTransport::read_packet"]}
{"id": "C44", "title": "galmon-osnma feeds the library in time order", "statement": "The galmon-osnma program feeds words to the library with non-decreasing subframe, valid GST and satellite numbers, whatever packets arrive, and its TOW correction never crosses a week or subframe boundary.", "quantifier": "for every sequence of packets", "why_tests_cant": "All interleavings of satellites and receivers.", "anchors": ["galileo-osnma/src/bin/galmon-osnma.rs: main"]}
{"id": "C45", "title": "Serial line protocol round trip", "statement": "The line written by osnma-longan-nano-client for an INAV or OSNMA item is shorter than the receive buffer of the firmware and makes the firmware do exactly that call of the library, with the same satellite, GST, band and data, and then wait for the next line; any number of lines makes it do the calls in order. The client sends lines for the same items as galmon-osnma feeds. A line with a satellite that does not exist, which the client does not exclude, makes the firmware panic.", "quantifier": "for all satellites, GSTs, bands and data, all sequences of lines, and all states of the library", "why_tests_cant": "All values through a decimal and hexadecimal text codec.", "anchors": ["galileo-osnma/src/bin/osnma-longan-nano-client.rs", "osnma-longan-nano/src/main.rs: OsnmaInterface::process_line, SerialRx::rx_line"]}
{"id": "C46", "title": "Slow MAC across a chain change uses the previous chain", "statement": "After the chain in force changes, a MACK message sent before the change whose Slow MAC tags (ADKD 12) still await their key is checked (MACSEQ) with the key of the previous chain for its subframe, as long as a key of the previous chain is held; so its Slow MAC tags, verified with the key of the new chain, authenticate the data.", "quantifier": "for every history of KROOTs", "why_tests_cant": "Sequences of KROOT events of any length.", "anchors": ["galileo-osnma/src/osnma.rs: KeyStore::store_kroot, key_past_chain, OsnmaDsm::process_tags"]}
{"id": "C47", "title": "A revoked chain is not used again", "statement": "After a KROOT with status Don't use and chain revoked status has been accepted, the revoked chain's key is not used to authenticate data any more.", "quantifier": "for every continuation after the revocation", "why_tests_cant": "Replays of old signed messages at any later time.", "anchors": ["galileo-osnma/src/osnma.rs: process_nma_header, KeyStore::revoke, KeyStore::store_kroot"]}
{"id": "C48", "title": "Replacing public keys: revocation semantics", "statement": "Public key revocation never removes the key that has just verified the KROOT announcing it nor a newer one, and removes or makes unusable every older key.", "quantifier": "for every reachable state", "why_tests_cant": "All orders of renewals.", "anchors": ["galileo-osnma/src/osnma.rs: PubkeyStore::revoke, process_nma_header"]}
{"id": "C49", "title": "Authentication bits never wrap", "statement": "The authentication bits of stored data with unchanged contents never decrease while tags are processed and never wrap around.", "quantifier": "for every sequence of MACKs", "why_tests_cant": "Thousands of tags over hours.", "anchors": ["galileo-osnma/src/navmessage.rs: validate_tag"]}
{"id": "C50", "title": "Test vector conversion keeps the words", "statement": "osnma-test-vectors-to-galmon extracts from each nominal E1-B page of a test vector line the 128-bit INAV word and the 40-bit OSNMA field, in order, two seconds apart, and the galmon stream written carries them unchanged and in time order over all satellites.", "quantifier": "for all test vector contents", "why_tests_cant": "All page contents and numbers of satellites.", "anchors": ["galileo-osnma/src/bin/osnma-test-vectors-to-galmon.rs"]}
{"id": "C51", "title": "galmon-filter-inav keeps exactly the INAV packets", "statement": "galmon-filter-inav copies to its output exactly the packets of its input that have an INAV part, unchanged and in order, and ends without error at the end of the input; what it has written before an error of the input is the INAV packets before that error.", "quantifier": "for every sequence of packets whose encoding has at most 65535 bytes, and any protobuf codec that round-trips", "why_tests_cant": "Unbounded sequences and contents.", "anchors": ["galileo-osnma/src/bin/galmon-filter-inav.rs: main"]}
{"id": "C52", "title": "galmon-osnma logs only authenticated data, and all of it", "statement": "Each message of galmon-osnma that says that new data of a satellite is authenticated is about data that is authenticated (C01) by tags received in time (C04) in the packets read so far. For each satellite no two consecutive messages are about the same data, and data that the library returns after the last packet was logged.", "quantifier": "for every sequence of packets for which the program does not panic, any keys, any codec and primitives", "why_tests_cant": "Composition of the packet filter, the library and the change detection over unbounded streams.", "anchors": ["galileo-osnma/src/bin/galmon-osnma.rs: main"]}
{"id": "C53", "title": "The client and the firmware do not lose bytes, do not deadlock and finish", "statement": "With the client and the firmware running concurrently, a byte at a time and in any interleaving: while the firmware does not read, at most one byte is sent to it; the library is always in the state after a prefix of the calls; every execution ends, and it ends with all calls made and the firmware waiting for a line, unless a function of the library panics.", "quantifier": "for all sequences of lines, all interleavings, all states of the library", "why_tests_cant": "All interleavings of two programs and two queues.", "anchors": ["galileo-osnma/src/bin/osnma-longan-nano-client.rs: Serial::read_until_ready, main", "osnma-longan-nano/src/main.rs: Board::rx_line, OsnmaInterface::spin"]}
{"id": "C54", "title": "The chain in force is the one announced by the last accepted KROOT", "statement": "An accepted DSM-KROOT puts in force the chain given in the NMA header received with it (not the chain of the KROOT itself), the receiver remembers when the chain in force changed, the chain in force never changes otherwise except that an alert clears it, and tags are only ever verified with a newly disclosed key of the chain in force.", "quantifier": "for every history of calls", "why_tests_cant": "All interleavings of KROOTs of several chains, keys, revocations and alerts.", "anchors": ["galileo-osnma/src/osnma.rs: KeyStore::store_kroot, current_key, OsnmaData::process_dsm_kroot, validate_key"]}
{"id": "C55", "title": "Whoever receives a correct transmission gets authenticated data", "statement": "A receiver that starts with the right public key and receives a correct nominal transmission of one TESLA chain, with one or several DSM-KROOTs that replace each other (of any length, starting at any time, losing any subframes but with no gap of more than 25 hours, words of incomplete subframes and navigation data arbitrary) never panics; once the blocks of a DSM-KROOT have been received it holds after each complete subframe the key disclosed in it; and when the words of a satellite, then in the next subframe a MACK message with a valid tag of at least 40 bits for them, and then the key of the tag (one subframe later, eleven for Slow MAC) have been received, the getter returns data of the satellite, which is the data received if it has not changed meanwhile.", "quantifier": "for every transmission, every history of calls in time order whose complete subframes are of the transmission, all primitives, all storages with room for the satellites received", "why_tests_cant": "End-to-end liveness over arbitrary interleavings and losses of the messages of up to 36 satellites.", "anchors": ["galileo-osnma/src/osnma.rs: Osnma::from_pubkey, feed_inav, feed_osnma, get_ced_and_status, get_timing_parameters"]}
{"id": "C56", "title": "Returned data is Galileo's, or something was forged", "statement": "Let the receiver be configured with a public key and/or Merkle tree root of the Galileo system. If a getter returns data for a satellite, then the system itself made a tag for exactly this data of this satellite, with the key of a subframe in which the receiver was called; or the input contains a signature that the system did not make, a SHA-256 collision in the Merkle tree, or a TESLA key that gives a second preimage of the one-way function; or all the tags counted for the data, at least 40 bits, were forged in subframes before the one that discloses their key. The same for TESLA keys held.", "quantifier": "for every history of calls in the order of subframes, whatever the attacker sends, all primitives, any record of what the system has signed and authenticated", "why_tests_cant": "Quantifies over all attackers and all inputs; the conclusion is a reduction to the primitives.", "anchors": ["galileo-osnma/src/osnma.rs: Osnma::feed_inav, feed_osnma, get_ced_and_status, get_timing_parameters", "galileo-osnma/src/tesla.rs: Key::validate_key, Key::from_dsm_kroot, validate_tag", "galileo-osnma/src/merkle_tree.rs: MerkleTree::validate_pkr"]}
{"id": "C57", "title": "No tag is counted twice", "statement": "The authentication bits of data that a getter returns come from different tags: there is a list of tags received and verified for exactly this data, no two of them with the same chain, transmitting satellite, subframe, ADKD and position in the MACK message, whose lengths add up to the authentication bits given with the data (the counter stops at 65535), at least 40.", "quantifier": "for every history of calls, all primitives, all storage sizes, all getters and satellites", "why_tests_cant": "The double count needs a particular order of key, revocation and repeated KROOT; the positive part is an invariant over all histories.", "anchors": ["galileo-osnma/src/osnma.rs: validate_key, process_tags, KeyStore::store_kroot, KeyStore::revoke", "galileo-osnma/src/navmessage.rs: CollectNavMessage::process_mack, process_mack_slowmac"]}
{"id": "C58", "title": "galmon-osnma prints only data authenticated with what the command line says", "statement": "The command line of galmon-osnma is either rejected with an error, or it names one Merkle tree root and/or one public key with its id, and the library is started with exactly these. For every input, also if it is forged, cut or not made of packets at all, every line that the program prints is about data that was authenticated from the packets before it with what the command line says is trusted, and all packets before the end or the first error are taken into account; the same for what is printed before a panic. With a key id of 16 or more and no Merkle tree root nothing is ever printed. The firmware trusts the key, the id and the root of its three files.", "quantifier": "for all arguments, all byte streams, all primitives and storage sizes", "why_tests_cant": "Quantifies over all command lines and all byte streams, including adversarial ones.", "anchors": ["galileo-osnma/src/bin/galmon-osnma.rs: main, load_pubkey, load_pubkey_p521", "galileo-osnma/src/galmon/mod.rs: transport::ReadTransport::read_packet", "osnma-longan-nano/build.rs: main", "osnma-longan-nano/src/main.rs: OsnmaInterface::new"]}
{"id": "C59", "title": "The packets are encoded and decoded as protobuf says", "statement": "A body is decoded exactly if it is a protobuf encoding of a NavMonMessage as declared in navmon.proto, with the values that the encoding gives: the last value of a field counts, parts of a message are put together, missing fields get their default; unknown fields and the order of different fields do not matter. All values of the types are encoded so that they are decoded again, and all that is decoded has values of the types. Therefore, for every byte stream galmon-filter-inav writes exactly the packets with an INAV word, in order, before the end or the first error, and panics only for such a packet that takes more than 65535 bytes when it is encoded again (there are such packets, of 12006 bytes); and every valid test vector file is converted to packets that galmon-osnma reads again.", "quantifier": "for all byte strings, all messages, all byte streams and all test vector files", "why_tests_cant": "Quantifies over all byte strings and all messages; the decoder is recursive.", "anchors": ["galileo-osnma/src/galmon/navmon.proto", "galileo-osnma/src/galmon/mod.rs: transport::ReadTransport::read_packet, WriteTransport::write_packet", "galileo-osnma/src/bin/galmon-filter-inav.rs: main", "galileo-osnma/src/bin/osnma-test-vectors-to-galmon.rs: main"]}
{"id": "C60", "title": "Every satellite in view is stored", "statement": "Once the satellites whose words are received are not more than the storage has entries per subframe, the data of each of them is stored when all its words are received in a subframe.", "quantifier": "for every history before, every interleaving of the words and every storage size", "why_tests_cant": "The failure needs a storage filled with satellites that have set and two satellites that rise together; that it never ends is a statement about all continuations.", "anchors": ["galileo-osnma/src/navmessage.rs: CollectNavMessage::feed (max_by_key), CedAndStatus::reset, adjust_write_pointer", "galileo-osnma/src/storage.rs: SmallStorage"]}
{"id": "C61", "title": "A receiver with only the Merkle tree root gets the public key and then authenticated data", "statement": "A receiver that starts with a Merkle tree root (with or without the public key in use) and receives a correct nominal transmission, with no gap of more than 25 hours, never panics; once it has received the DSM-PKR of the public key in use, as the first one that leads to the root, and after it a DSM-KROOT, it holds after each complete subframe the key disclosed in it, and data with a valid tag is returned by the getters as in C55.", "quantifier": "for every transmission, every Merkle tree root, every history of calls in time order whose complete subframes are of the transmission, all primitives, all storages with room for the satellites received", "why_tests_cant": "A start without any public key depends on the order in which DSM-PKR and DSM-KROOT blocks of all satellites are received and on how they interrupt each other; tests run a few recorded orders.", "anchors": ["galileo-osnma/src/osnma.rs: Osnma::from_merkle_tree, process_dsm_pkr_npk, process_dsm_kroot", "galileo-osnma/src/osnma.rs: PubkeyStore::store_new_pubkey, applicable_pubkey", "galileo-osnma/src/dsm.rs: CollectDsm::feed"]}
{"id": "C62", "title": "Logging does not change what the receiver does", "statement": "For every maximum log level, feeding any history of calls with logging gives the same state as without, and panics in the same cases: evaluating and formatting the arguments of the log statements never panics by itself. The lines written at a level are the lines of the full log with that level or a more important one, in the same order.", "quantifier": "for every log level, every history of calls, all configurations, all primitives, all storages, debug and release", "why_tests_cant": "Arguments of log statements are evaluated only if their level is enabled; tests run at one level and reach only some of the statements, and some arguments unwrap or index received bytes.", "anchors": ["galileo-osnma/src/osnma.rs: log statements", "galileo-osnma/src/navmessage.rs: log_word, log_age, adjust_write_pointer", "galileo-osnma/src/bitfields.rs: impl Debug for DsmPkr, Mack, TagAndInfo"]}
{"id": "C63", "title": "Nothing is authenticated silently", "statement": "If the log level is Info or more, the data returned by a getter has at least 40 and at most 40 times as many authentication bits as there are lines in the log that say that a tag for data of this kind (CED or timing) of this satellite is correct.", "quantifier": "for every history of calls, every log level from Info, all configurations, all primitives, all storages", "why_tests_cant": "It relates a counter that saturates, is reset and is copied between rows with the whole log since the start; tests look at the counter or at single lines.", "anchors": ["galileo-osnma/src/navmessage.rs: CollectNavMessage::validate_tag, add_authbits", "galileo-osnma/src/navmessage.rs: get_ced_and_status, get_timing_parameters"]}
{"id": "C64", "title": "What the log says is true", "statement": "Each line of the log that states a result is true of the calls up to the one that writes it: completed subframes and DSMs were received, a verified KROOT or public key was received and verifies with trusted material, what is said of the NMA header is in the header of a verified KROOT, a public key said to be older or newer than a held one is, an alert was authenticated, a key said to be validated or not or to be older is (or is not) on the chain of the trusted key, a MACK said to be invalid has a wrong MACSEQ or tag sequence, and tags said to be correct or wrong are (or are not) the MAC of data that was received before. A KROOT, public key, alert, TESLA key or MACK that could not be verified was received and is wrong for the documented reason of the error; a block said to differ differs from an earlier one of the same DSM; a field said to have a reserved value has; and the receiver says that it has no Merkle tree or no public key only if it was not given one, or has authenticated an alert, or (public key) the user's one has been superseded. The lines about single calls, blocks, MACK messages and tags show what was received: words said to be missing are, the numbers of valid sections are those of the words collected from each satellite, a new subframe is another one than that of the word before, and the PRND, ADKD and COP of a tag are those in the checked MACK message, also when the tag is refused because one of them is reserved or does not name a satellite. The lines about DSM blocks are exact: a block is said to be stored if it is the first with its number since the DSM id changed and to be already stored if the first one has the same contents; the size and number of missing blocks are those of the blocks received; a DSM is said to be completed by the block that completes it, and to be complete after that; and the old id is that of the block before. So are those of the MACK storage: there is no room for a MACK message if and only if as many as there is room for have been received since the time last changed. And so are those of the navigation data storage: a new subframe is said to begin when the word is of another subframe than the word before, the entries shown are those of the subframe before, one subframe older, the entry selected for a word is that of its satellite, else an unused one, else one whose oldest word is the oldest of all, and the ages shown are those that are stored then. It is said that there is no key only if there is none of the chain in force, and after a DSM-KROOT was verified only for one of the reasons in C79.", "quantifier": "for every line of the log of every history of calls, every log level, all configurations, all primitives, all storages", "why_tests_cant": "It includes negative statements (wrong tag, invalid key, invalid MACK), which hold only if the checks are complete, for all inputs.", "anchors": ["galileo-osnma/src/osnma.rs: process_dsm_kroot, process_dsm_pkr, validate_key, validate_mack", "galileo-osnma/src/navmessage.rs: validate_tag, validate_dummy_tag", "galileo-osnma/src/dsm.rs: CollectDsm::feed", "galileo-osnma/src/subframe.rs: CollectSubframe::feed", "galileo-osnma/src/navmessage.rs: CollectNavMessage::feed, adjust_write_pointer"]}
{"id": "C65", "title": "The line about a stored word names its type and its satellite", "statement": "The line 'storing INAV word type x for y' that is logged when a word is fed has the type of the word as x and the satellite as y, and is logged only for words with data of the kind that it names.", "quantifier": "for every state, word, satellite, time and band", "why_tests_cant": "No test looks at the text of trace lines.", "anchors": ["galileo-osnma/src/navmessage.rs: log_word"]}
{"id": "C66", "title": "A call does a bounded amount of hashing", "statement": "One call of feed_inav or feed_osnma evaluates the one-way function of the TESLA chains at most 3010 times: 3000 times to check a new key against the current one, and 10 times to get the key of five minutes before, for the MACSEQ of the Slow MAC.", "quantifier": "for every history of calls and every next call", "why_tests_cant": "The count depends on the distance between the keys of two chains; tests use recordings in which the keys are of the present, and do not measure the work.", "anchors": ["galileo-osnma/src/tesla.rs: Key::validate_key, Key::derive", "galileo-osnma/src/osnma.rs: OsnmaDsm::process_tags, KeyStore::key_past_chain"]}
{"id": "C67", "title": "A receiver recovers after an outage", "statement": "A receiver that follows the TESLA chain of a correct transmission, then receives no complete subframe for any time, and then receives the transmission again with its DSM-KROOT or a newer one, holds the key of each complete subframe again.", "quantifier": "for every transmission, every history before the outage, every length of the outage and everything received of the transmission after it", "why_tests_cant": "Tests replay recordings of a few hours; the threshold between keys is 25 hours, and what happens after it depends on everything received later.", "anchors": ["galileo-osnma/src/tesla.rs: Key::validate_key, ValidationError::TooManyDerivations", "galileo-osnma/src/osnma.rs: OsnmaDsm::validate_key, KeyStore::store_kroot"]}
{"id": "C68", "title": "A receiver gets into step with a correct transmission whatever it received before", "statement": "A receiver with the right public key that has received anything at all (forged or corrupted words, another chain) without panicking and without storing a wrong or later key for the chain, and then receives a correct transmission, holds the key of each complete subframe once it has received a DSM-KROOT of the transmission, and authenticates the data that have a valid tag.", "quantifier": "for every sequence of calls before, every transmission and everything received of it afterwards", "why_tests_cant": "The state left by arbitrary earlier calls (DSM buffer, stores, keys of other chains) is unbounded; recordings contain only correct words and start with an empty receiver.", "anchors": ["galileo-osnma/src/dsm.rs: CollectDsm::feed", "galileo-osnma/src/osnma.rs: OsnmaDsm::process_dsm_kroot, OsnmaDsm::validate_key", "galileo-osnma/src/tesla.rs: Key::from_dsm_kroot"]}
{"id": "C69", "title": "A receiver gets into step with the next chain when it comes into force", "statement": "A receiver that follows the transmission of one chain and then receives the transmission of the next chain under the same public key, with its DSM-KROOT, does not panic and holds after each complete subframe of the new chain the key disclosed in it, whether or not the next chain was announced before.", "quantifier": "for every two transmissions with different chain ids, everything received of the first and then of the second", "why_tests_cant": "A change of chain takes place once in months; recordings of a day with an announcement are not available and all the moments of it cannot be tried.", "anchors": ["galileo-osnma/src/osnma.rs: KeyStore::store_kroot, KeyStore::store_key, KeyStore::current_key", "galileo-osnma/src/tesla.rs: Key::validate_key"]}
{"id": "C70", "title": "The accessors of the headers, DSM-KROOT and DSM-PKR return the fields of the ICD", "statement": "For each message with the layout of the ICD every accessor of NmaHeader, DsmHeader, DsmKroot and DsmPkr returns the value of its field, codes being translated with the tables of the ICD and reserved codes reported as such; the accessors of the signature of a DSM-KROOT panic exactly for the messages that do not have the layout, and those for a DSM-PKR of a reserved type return nothing.", "quantifier": "for every byte of header and every message, with every padding and number of blocks", "why_tests_cant": "The tests look at two DSM-KROOTs and a few DSM-PKRs; most codes, the P-521 signature and the reserved values never occur in them.", "anchors": ["galileo-osnma/src/bitfields.rs: DsmHeader, DsmPkr, DsmKroot, NmaHeader"]}
{"id": "C71", "title": "The check of the padding of a DSM-PKR is right and does not panic", "statement": "For each DSM-PKR message with the number of blocks that it announces, DsmPkr::check_padding returns without panicking whether the padding is the start of the hash of the Merkle tree root and the leaf; messages with a reserved type or number of blocks are rejected.", "quantifier": "for every complete DSM-PKR message and every root", "why_tests_cant": "The tests have only messages of the usual sizes; the function is public and its documentation mentions no panic, but with more than 32 bytes of padding the hash is indexed out of range.", "anchors": ["galileo-osnma/src/bitfields.rs: DsmPkr::check_padding, DsmPkr::padding"]}
{"id": "C72", "title": "Resetting the authentication bits discards the authentication and nothing else", "statement": "After CollectNavMessage::reset_authbits no data is returned as authenticated until tags have been processed again, however many words are received; and the reset changes nothing else: the data, their ages and later calls are as without it, with at most as many authentication bits.", "quantifier": "for every sequence of calls of the store before and after the reset", "why_tests_cant": "No test calls the function; the histories before and after are unbounded.", "anchors": ["galileo-osnma/src/navmessage.rs: CollectNavMessage::reset_authbits, CollectNavMessage::feed, CollectNavMessage::process_mack"]}
{"id": "C73", "title": "The errors say why something was rejected", "statement": "Whenever a TESLA key, a DSM-KROOT, a MACK message or a DSM-PKR is rejected, the error value returned has the meaning given in its documentation: a reserved code, wrong padding, a signature that does not verify or a public key of the wrong type; keys of chains with different ids, keys in the wrong order, too far apart or not in the chain; a look-up table without sequence, a wrong MACSEQ or the first tag with another ADKD or satellite than in the sequence; a message without public key, that is not an alert, with a reserved field or not in the Merkle tree.", "quantifier": "for every pair of keys made by the public constructors, every NMA header, DSM-KROOT and public key, every MACK message with announced sizes and every DSM-PKR and Merkle root", "why_tests_cant": "The tests look at few errors and each with one message; that an error is never returned for another reason needs all messages.", "anchors": ["galileo-osnma/src/tesla.rs: Key::validate_tesla_key, Key::from_dsm_kroot, ValidationError, KrootValidationError, AdkdCheckError, MacseqCheckError", "galileo-osnma/src/bitfields.rs: Mack::validate, MackValidationError", "galileo-osnma/src/merkle_tree.rs: MerkleTree::validate_pkr, MerkleTree::validate_alert_message, PkrError", "galileo-osnma/src/maclt.rs: MacLTError"]}
{"id": "C74", "title": "The firmware reports exactly the satellites with authenticated data, and the client prints these reports", "statement": "For each line it receives the firmware answers with the satellite, week, time of week, band and kind of the call, then with exactly the satellites for which the library returns timing parameters (ADKD=4) and CED and status (ADKD=0) after this call, in order and with the time of week of the data, or NONE, and then READY. What the client prints is at any moment a start of READY and these answers in order; when it ends, and the firmware has not panicked, it has printed all of them except the answer to the last line, for which it does not wait.", "quantifier": "for every state of the library, every sequence of valid calls and the lines that carry them, every number of bytes received, and every interleaving of the client, the firmware and the serial line", "why_tests_cant": "The firmware runs only on the board; a test sees a few states and one interleaving, while the report covers 36 satellites in any state and the bytes may be delayed in any way.", "anchors": ["osnma-longan-nano/src/main.rs: OsnmaInterface::process_line, OsnmaInterface::print_auth_status, OsnmaInterface::ready, OsnmaInterface::spin", "galileo-osnma/src/bin/osnma-longan-nano-client.rs"]}
{"id": "C75", "title": "What the programs show of a correct transmission", "statement": "If the input of galmon-osnma is what is received of a transmission that follows the ICD and in it are the words of some navigation data, in the next subframe a tag for it, then the key of this tag, and a DSM-KROOT signed with a public key that the receiver knows from the command line or gets in a DSM-PKR, then galmon-osnma ends without panic and at this point the last data it has logged for the satellite is this data. The same is true of osnma-test-vectors-to-galmon piped into galmon-osnma for a file of test vectors. With the client and the firmware, the report the client prints for this point names the satellite, whatever the interleaving.", "quantifier": "for every transmission, command line, stream of packets or file of test vectors, every interleaving of the client, the firmware and the serial line, every kind of data, delay, storage size and build", "why_tests_cant": "Nothing in the repository tests the programs as a whole; a recorded day of test vectors is one transmission, and the properties of the parts do not say that together they have the desired effect.", "anchors": ["galileo-osnma/src/bin/galmon-osnma.rs", "galileo-osnma/src/bin/osnma-test-vectors-to-galmon.rs", "galileo-osnma/src/bin/osnma-longan-nano-client.rs", "osnma-longan-nano/src/main.rs", "galileo-osnma/src/osnma.rs", "galileo-osnma/src/galmon/mod.rs"]}
{"id": "C76", "title": "Tags shorter than 40 bits add up", "statement": "Chains may have tags of 20, 24, 28 or 32 bits, and data is only given to the user once 40 bits of tags have authenticated it. If a receiver of a transmission that follows the ICD receives the words of some navigation data, and then, while the data does not change, receives valid tags for it in different places (in any subframes, of any satellites, with short or long delay) whose lengths add up to 40 bits or more, each with the words in the subframe before it and with its key, then the getter returns this data.", "quantifier": "for every transmission with any tag size, any number of tags over any number of subframes, all histories of calls between them, every kind of data, storage size and build, starting from the public key or from the Merkle tree root", "why_tests_cant": "The live signal and all the test vectors have 40-bit tags, with which one tag is always enough: the code that adds up the bits over several subframes is never needed by the tests.", "anchors": ["galileo-osnma/src/navmessage.rs:21", "galileo-osnma/src/navmessage.rs:215-262", "galileo-osnma/src/navmessage.rs:535-585", "galileo-osnma/src/navmessage.rs:660-760"]}
{"id": "C77", "title": "The name of a test-vector file gives the right Galileo time", "statement": "The program that converts the test vectors takes the time of the first pages from the name of the file, such as 16_AUG_2023_GST_05_00_01.csv. For every day of the Gregorian calendar from 22 August 1999 for as long as the week number has 16 bits, and every time of the day, the Galileo time it finds is the number of days after 22 August 1999 and the time of the day, and all the packets it writes carry the times that follow from this. A leap second, written as second 60, is taken as the second before it. A day or time that does not exist is an error and nothing is written; a date before 22 August 1999 makes the program panic.", "quantifier": "for all dates, times of the day, contents of the file and protobuf codecs", "why_tests_cant": "The crate has no test of this program, and the script that uses it has a handful of file names; the calendar has leap days, century rules and a panic for early dates that no name of the script meets.", "anchors": ["galileo-osnma/src/bin/osnma-test-vectors-to-galmon.rs:26-35", "galileo-osnma/src/bin/osnma-test-vectors-to-galmon.rs:113-150", "utils/run_test_vectors.sh"]}
{"id": "C78", "title": "Nothing is logged as a warning or an error when a correct transmission is received", "statement": "A receiver that starts with the right public key receives a correct transmission: the DSM-KROOTs, DSM-PKRs, keys, MACSEQs and tags are right, the navigation data that it receives is the data that the tags are for, it receives no more satellites than it has room for, there is no gap of more than 25 hours, and navigation data of some satellite is received in every subframe. Then with the log level \"warn\" the library logs nothing at all, as the script run_test_vectors.sh expects of its first two configurations. A receiver that starts with only the root of the Merkle tree logs nothing either, except the error that it has no public key, and that only before it has completed a DSM-PKR with the public key. The last condition is needed: if the navigation data of all satellites is missed in some subframes, a correct tag can be logged as wrong.", "quantifier": "for all cryptographic primitives, storage sizes, public keys, Merkle tree roots, transmissions of any length and sequences of calls", "why_tests_cant": "The script needs recordings of the signal and somebody to read its output; it covers two recordings of some minutes, not every reception of every correct transmission, with any satellites, storage size, losses of words and order of DSM blocks.", "anchors": ["utils/run_test_vectors.sh:10-53", "galileo-osnma/src/osnma.rs:192-510", "galileo-osnma/src/navmessage.rs:133-205", "galileo-osnma/src/navmessage.rs:319-616", "galileo-osnma/src/dsm.rs:84-192", "galileo-osnma/src/mack.rs:50-80"]}
{"id": "C79", "title": "Only an authenticated alert makes the receiver forget what it trusts", "statement": "As long as no alert has been authenticated, by a DSM-PKR that leads to the Merkle tree root or by a DSM-KROOT that verifies with a trusted public key, the receiver keeps the Merkle tree root that it was given, and always has a public key in use, if it was given one or has had one: that one or one with a higher id. Whatever else is received, forged or not, cannot take them away. Nor can it take away the TESLA key of the chain in force: once there is one, which is so when a DSM-KROOT has been verified, there always is one, unless an alert was authenticated or a verified DSM-KROOT came with an NMA header that revokes the chain or the public key or that names another chain than that of its root key.", "quantifier": "for all cryptographic primitives, storage sizes, configurations and histories of calls, split at any point", "why_tests_cant": "It is about all sequences of inputs in which no valid alert appears, including arbitrary forged messages.", "anchors": ["galileo-osnma/src/osnma.rs:259-399", "galileo-osnma/src/osnma.rs:512-640"]}
{"id": "C80", "title": "Without a new TESLA key nothing is authenticated", "statement": "If a receiver is fed anything in which no call that completes a subframe ends with the TESLA key of this subframe being held (because the keys received are forged, damaged, of another chain or too far in the future), then all the data that it returns afterwards has been authenticated by what was received before, with the authentication bits of then: no other message, tag or navigation data word makes it authenticate anything.", "quantifier": "for all cryptographic primitives, storage sizes, configurations, histories before and sequences of calls after, of any length", "why_tests_cant": "It is about all the inputs in which no key is accepted, of any length, from every reachable state.", "anchors": ["galileo-osnma/src/osnma.rs:192-257", "galileo-osnma/src/osnma.rs:401-494", "galileo-osnma/src/navmessage.rs:319-616"]}
{"id": "C81", "title": "Nothing that is trusted is changed silently", "statement": "Whenever a call changes what the receiver trusts, the lines that this call logs say so, as far as the log level includes them: the Merkle tree root goes away only with the warning about an alert; a TESLA key that is new in one of the two slots was logged as validated or as a root key stored in this slot; a TESLA key that is gone from its slot was logged as revoked, as the key that validated a later one, or is accounted for by an alert or by a root key overwriting this slot; another chain in force comes with a verified DSM-KROOT or an alert; a new public key was logged as verified, with its id; a public key that is gone was overwritten by a newer one, or replaced by the next key in a verified DSM-KROOT, or there was an alert. So with the level info or more a call that logs nothing changes none of this.", "quantifier": "for all cryptographic primitives, storage sizes, log levels, configurations, histories and calls after them", "why_tests_cant": "It is about every way in which the trusted material can change, from every reachable state, and tests do not read the log.", "anchors": ["galileo-osnma/src/osnma.rs:266-438", "galileo-osnma/src/osnma.rs:532-734"]}
{"id": "C82", "title": "The order of words of different satellites, and of words that complete no subframe, does not matter", "statement": "An OSNMA word that does not complete a subframe can be fed before or after a neighbouring call of feed_inav, or a neighbouring call of feed_osnma with a word of another satellite in the same subframe (even one that completes its subframe): whatever the calls before and after, the receiver ends up in exactly the same state, or panics in both cases. So the OSNMA data and the navigation data of a page, and the pages of different satellites, can be fed in any such order. Two neighbouring navigation data words of different satellites in the same subframe can also be exchanged, as long as there are not more satellites than entries in a subframe of the storage (always, with 36 entries): the state is then the same except for the places where the satellites have their entries, so that every subframe of the storage holds the same entries and both getters return the same for every satellite.", "quantifier": "for all cryptographic primitives, storage sizes, configurations and histories, with any number of such exchanges anywhere", "why_tests_cant": "There are as many orders as interleavings of the words of all the satellites; the claim is about the whole internal state.", "anchors": ["galileo-osnma/src/osnma.rs:192-257", "galileo-osnma/src/subframe.rs:59-117", "galileo-osnma/src/navmessage.rs:89-131"]}
{"id": "C83", "title": "A word that is received again changes nothing", "statement": "If OSNMA data (not all zeros) of a satellite for a certain time has been fed, and since then OSNMA data has only come from the same subframe, and from this satellite with no earlier time, then feeding OSNMA data of this satellite for this time once more, with whatever contents, makes no difference: whatever is fed afterwards, the receiver ends up in exactly the same state as without it. In particular a last word fed twice does not make its subframe be processed twice. If a navigation data word has been fed, and since then navigation data words have only come from the same subframe, and from this satellite only with other word types, then feeding the same word again makes no difference either, as long as there are not more satellites than entries in a subframe of the storage (always, with 36 entries): neither data nor ages nor authentication bits nor places change. Any number of such repetitions, for instance the same pages reported by several stations, can be left out.", "quantifier": "for all cryptographic primitives, storage sizes, configurations, histories before and after, and any number of repetitions", "why_tests_cant": "The claim is equality of the whole internal state after arbitrary continuations, for repetitions at any place of any history.", "anchors": ["galileo-osnma/src/subframe.rs:59-117", "galileo-osnma/src/navmessage.rs:89-131", "galileo-osnma/src/navmessage.rs:703-715", "galileo-osnma/src/navmessage.rs:774-826", "galileo-osnma/src/osnma.rs:192-257"]}

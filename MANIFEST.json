{
 "claims": [
  {
   "property": "C01",
   "status": "proved",
   "theorems": [
    "C01_returned_data_is_authenticated"
   ],
   "note": "For every history of calls, in any order and at any times."
  },
  {
   "property": "C02",
   "status": "proved",
   "theorems": [
    "C02_held_keys_are_trusted",
    "C02_held_public_keys_are_trusted",
    "C02_tag_keys_are_trusted"
   ],
   "note": "Keys held, public keys held, and the keys that returned tags were verified with."
  },
  {
   "property": "C03",
   "status": "proved",
   "theorems": [
    "C03_returned_bits_were_received"
   ],
   "note": ""
  },
  {
   "property": "C04",
   "status": "proved",
   "theorems": [
    "C04_disclosure_delay"
   ],
   "note": ""
  },
  {
   "property": "C05",
   "status": "proved",
   "theorems": [
    "C05_slow_mac_timing",
    "C05_slow_mac_ced"
   ],
   "note": ""
  },
  {
   "property": "C06",
   "status": "proved",
   "theorems": [
    "C06_pkr_alert_clears",
    "C06_kroot_alert_clears",
    "C06_alert_is_permanent"
   ],
   "note": "Both kinds of alert; the continuation is arbitrary."
  },
  {
   "property": "C07",
   "status": "proved",
   "theorems": [
    "C07_only_the_configured_key"
   ],
   "note": "Includes that each TESLA key held leads to a root key signed with the configured key."
  },
  {
   "property": "C08",
   "status": "proved",
   "theorems": [
    "C08_rejected_changes_nothing",
    "C08_changes_need_a_verified_message"
   ],
   "note": "For one message in any state, and for calls in every history. A message for which the code panics is in C09."
  },
  {
   "property": "C09",
   "status": "partial",
   "theorems": [
    "C09_feed_inav_never_panics",
    "C09_harmless_calls_do_not_panic_partial",
    "C09_panic_on_dsm",
    "C09_unsigned_kroot_refuted",
    "C09_unverified_pkr_refuted"
   ],
   "note": "False as stated: C09_unsigned_kroot_refuted and C09_unverified_pkr_refuted give histories, sent without any key or signature, that panic in every receiver with a public key or a Merkle tree root. Proved: feed_inav never panics; feed_osnma does not panic on histories that are harmless (a condition on the completed DSM messages, exact by C09_panic_on_dsm, on the signed chain parameters and on times in the first minutes of week 0)."
  },
  {
   "property": "C10",
   "status": "proved",
   "theorems": [
    "C10_getters_never_panic"
   ],
   "note": "Both builds (overflow checks are a parameter of the model)."
  },
  {
   "property": "C11",
   "status": "proved",
   "theorems": [
    "C11_store_assertions_hold"
   ],
   "note": "Every state that is reached, between and within calls."
  },
  {
   "property": "C12",
   "status": "proved",
   "theorems": [
    "C12_one_key_per_chain",
    "C12_kroot_keeps_chain_in_force",
    "C12_keys_move_forward"
   ],
   "note": ""
  },
  {
   "property": "C13",
   "status": "proved",
   "theorems": [
    "C13_pkid_never_decreases",
    "C13_only_newer_keys_are_stored",
    "C13_kroot_names_its_key"
   ],
   "note": ""
  },
  {
   "property": "C14",
   "status": "proved",
   "theorems": [
    "C14_constructors_well_formed",
    "C14_validate_key_exact"
   ],
   "note": ""
  },
  {
   "property": "C15",
   "status": "proved",
   "theorems": [
    "C15_derive_add",
    "C15_sequence_anchored"
   ],
   "note": ""
  },
  {
   "property": "C16",
   "status": "proved",
   "theorems": [
    "C16_accepted_is_verified",
    "C16_verified_is_accepted",
    "C16_key_determined_by_signed_bytes"
   ],
   "note": ""
  },
  {
   "property": "C17",
   "status": "proved",
   "theorems": [
    "C17_tag_accepted_iff",
    "C17_tag0_accepted_iff",
    "C17_mac_input_unambiguous"
   ],
   "note": ""
  },
  {
   "property": "C18",
   "status": "proved",
   "theorems": [
    "C18_dummy_tags_do_not_count",
    "C18_dummy_tag_changes_nothing"
   ],
   "note": ""
  },
  {
   "property": "C19",
   "status": "proved",
   "theorems": [
    "C19_mack_validate_exact",
    "C19_mack_validate_panics_iff"
   ],
   "note": ""
  },
  {
   "property": "C20",
   "status": "proved",
   "theorems": [
    "C20_announced_sizes",
    "C20_mack_layout",
    "C20_tag_and_info_layout"
   ],
   "note": "All sizes a KROOT can announce, all 60-byte messages."
  },
  {
   "property": "C21",
   "status": "proved",
   "theorems": [
    "C21_lookup_matches_icd",
    "C21_lookup_panics_iff",
    "C21_flx_indices_exact",
    "C21_validate_adkd_never_panics"
   ],
   "note": "The specification is the table of the ICD as text, written independently of the code's table."
  },
  {
   "property": "C22",
   "status": "proved",
   "theorems": [
    "C22_public_key_binding",
    "C22_alert_binding",
    "C22_position_has_one_key",
    "C22_public_key_accepted",
    "C22_alert_accepted"
   ],
   "note": ""
  },
  {
   "property": "C23",
   "status": "proved",
   "theorems": [
    "C23_subframe_exact",
    "C23_expected_iff",
    "C23_output_is_history",
    "C23_at_most_once"
   ],
   "note": "Refinement of the collector to a specification over the whole history of words."
  },
  {
   "property": "C24",
   "status": "proved",
   "theorems": [
    "C24_no_interference",
    "C24_no_interference_model"
   ],
   "note": "Within a subframe; a word of another subframe from any satellite resets everything (example)."
  },
  {
   "property": "C25",
   "status": "proved",
   "theorems": [
    "C25_dsm_exact",
    "C25_output_is_history",
    "C25_complete_iff",
    "C25_at_most_once"
   ],
   "note": "Refinement of the collector to a specification over the whole history of blocks."
  },
  {
   "property": "C26",
   "status": "proved",
   "theorems": [
    "C26_store_never_panics",
    "C26_get_only_what_was_stored"
   ],
   "note": ""
  },
  {
   "property": "C27",
   "status": "proved",
   "theorems": [
    "C27_retention",
    "C27_stretches_count"
   ],
   "note": ""
  },
  {
   "property": "C28",
   "status": "proved",
   "theorems": [
    "C28_navigation_data_layout"
   ],
   "note": "Every subset of the words, every order, every previous content; words of other satellites in between if there is room for the satellites received."
  },
  {
   "property": "C29",
   "status": "proved",
   "theorems": [
    "C29_changed_data_is_not_authenticated"
   ],
   "note": ""
  },
  {
   "property": "C30",
   "status": "proved",
   "theorems": [
    "C30_eviction_of_the_oldest",
    "C30_kept_while_there_is_room",
    "C30_full_storage_never_evicts"
   ],
   "note": "Every history and storage size."
  },
  {
   "property": "C31",
   "status": "partial",
   "theorems": [
    "C31_reported_time_partial",
    "C31_reported_time_no_gaps_partial",
    "C31_refuted"
   ],
   "note": "False as stated: C31_refuted gives the witness (a gap in the reception makes the reported time too late). C31_reported_time_partial gives what the reported time is in every history, C31_reported_time_no_gaps_partial proves the statement when no subframe is missed."
  },
  {
   "property": "C32",
   "status": "proved",
   "theorems": [
    "C32_most_recent_authenticated_data",
    "C32_nothing_only_if_there_is_none",
    "C32_subframes_held",
    "C32_latest_first"
   ],
   "note": "For the histories in which time does not go backwards."
  },
  {
   "property": "C33",
   "status": "proved",
   "theorems": [
    "C33_valid_tag_authenticates",
    "C33_valid_slow_tag_authenticates"
   ],
   "note": ""
  },
  {
   "property": "C34",
   "status": "proved",
   "theorems": [
    "C34_cop"
   ],
   "note": ""
  },
  {
   "property": "C35",
   "status": "proved",
   "theorems": [
    "C35_zeros_are_ignored",
    "C35_zeros_leave_no_trace"
   ],
   "note": ""
  },
  {
   "property": "C36",
   "status": "proved",
   "theorems": [
    "C36_feeding_inav_authenticates_nothing"
   ],
   "note": "Includes that feed_inav does not panic in any reachable state."
  },
  {
   "property": "C37",
   "status": "proved",
   "theorems": [
    "C37_add_seconds_exact",
    "C37_add_seconds_panics_iff",
    "C37_add_subframes_exact",
    "C37_add_subframes_panics_iff"
   ],
   "note": "Exact on the absolute time scale, with the exact condition for a panic."
  },
  {
   "property": "C38",
   "status": "partial",
   "theorems": [
    "C38_add_seconds_total_refuted",
    "C38_add_seconds_total_partial"
   ],
   "note": "False as stated: C38_add_seconds_total_refuted gives the witness (offsets of a week or more backwards). C38_add_seconds_total_partial proves it for offsets greater than -604800."
  },
  {
   "property": "C39",
   "status": "proved",
   "theorems": [
    "C39_gst_subframe_largest",
    "C39_gst_subframe_idempotent",
    "C39_subframes_difference_exact",
    "C39_subframes_difference_inverts",
    "C39_subframes_difference_add",
    "C39_order_is_time_order"
   ],
   "note": ""
  },
  {
   "property": "C40",
   "status": "partial",
   "theorems": [
    "C40_subframes_difference_unaligned_refuted",
    "C40_subframes_difference_error"
   ],
   "note": "False as stated: refuted with a witness; C40_subframes_difference_error gives the exact error for every pair of times. True for aligned times (C39)."
  },
  {
   "property": "C41",
   "status": "proved",
   "theorems": [
    "C41_try_from_iff",
    "C41_round_trip",
    "C41_iter_exact"
   ],
   "note": "All integers; the three integer types only differ in their range."
  },
  {
   "property": "C42",
   "status": "proved",
   "theorems": [
    "C42_written",
    "C42_round_trip",
    "C42_prefix",
    "C42_errors",
    "C42_read_never_panics",
    "C42_write_panics"
   ],
   "note": "For every codec that round-trips; the protobuf encoding itself (prost) is a parameter."
  },
  {
   "property": "C43",
   "status": "partial",
   "theorems": [
    "C43_cut_header_refuted",
    "C43_cut_partial",
    "C43_failing_stream"
   ],
   "note": "False as stated: C43_cut_header_refuted gives a stream that ends inside the six header bytes of a packet and is reported as a normal end. C43_cut_partial gives the result for every cut: an error exactly if the whole header is there."
  },
  {
   "property": "C44",
   "status": "proved",
   "theorems": [
    "C44_calls",
    "C44_valid_and_ordered",
    "C44_correction",
    "C44_program"
   ],
   "note": "Ordered by subframe, as the property says; times inside a subframe may go backwards. The packets for which the program panics are characterised exactly."
  },
  {
   "property": "C45",
   "status": "proved",
   "theorems": [
    "C45_line",
    "C45_line_fits",
    "C45_lines",
    "C45_client",
    "C45_unchecked_satellite"
   ],
   "note": "Lines with bytes of 128 or more are not modelled faithfully; the client does not send any."
  },
  {
   "property": "C46",
   "status": "partial",
   "theorems": [
    "C46_previous_chain_authenticates",
    "C46_refuted"
   ],
   "note": "False as stated: C46_refuted gives a history in which another KROOT with the same chain in force makes the receiver forget when the chain changed. C46_previous_chain_authenticates proves it for every history as long as the time of the change is remembered, that is (C54) until the next accepted KROOT."
  },
  {
   "property": "C47",
   "status": "partial",
   "theorems": [
    "C47_revocation_removes_the_chain",
    "C47_revoked_until_new_kroot",
    "C47_refuted"
   ],
   "note": "False as stated: C47_refuted gives a history in which the KROOT sent before the revocation is repeated and brings the revoked chain back. C47_revocation_removes_the_chain and C47_revoked_until_new_kroot prove it up to the next KROOT of the chain that verifies."
  },
  {
   "property": "C48",
   "status": "proved",
   "theorems": [
    "C48_public_key_revocation"
   ],
   "note": "For the KROOT with which the revocation is announced, in every reachable state."
  },
  {
   "property": "C49",
   "status": "proved",
   "theorems": [
    "C49_authbits_never_decrease"
   ],
   "note": ""
  },
  {
   "property": "C50",
   "status": "proved",
   "theorems": [
    "C50_page_fields",
    "C50_conversion",
    "C50_output_error",
    "C50_invalid_file",
    "C50_time_range",
    "C50_read_back",
    "C50_every_page_once",
    "C50_time_order",
    "C50_fed_to_the_library",
    "C50_pipe"
   ],
   "note": "The time in seconds that the date in the file name stands for is a parameter here; C77 starts from the name. Any protobuf codec. Includes the exact set of accepted files and the composition with galmon-osnma."
  },
  {
   "property": "C51",
   "status": "proved",
   "theorems": [
    "C51_filter",
    "C51_filter_error",
    "C51_output_error"
   ],
   "note": ""
  },
  {
   "property": "C52",
   "status": "proved",
   "theorems": [
    "C52_logged_data_is_authenticated",
    "C52_logged_when_new"
   ],
   "note": "Standard error output is modelled as a list of events."
  },
  {
   "property": "C53",
   "status": "proved",
   "theorems": [
    "C53_one_byte_while_busy",
    "C53_calls_in_order",
    "C53_ends",
    "C53_no_deadlock",
    "C53_packets_to_library"
   ],
   "note": "The queues between the two are unbounded lists of bytes; the theorem about one byte bounds the one that matters. The firmware is assumed to read bytes as they come while it is in rx_line, and to be started after the client."
  },
  {
   "property": "C54",
   "status": "proved",
   "theorems": [
    "C54_kroot_sets_the_chain_in_force",
    "C54_chain_in_force_was_announced",
    "C54_tags_need_the_chain_in_force"
   ],
   "note": "For every history; C54_chain_in_force_was_announced gives the KROOT that put the chain in force and that it has not changed since."
  },
  {
   "property": "C55",
   "status": "proved",
   "theorems": [
    "C55_key_of_each_subframe",
    "C55_honest_reception_authenticates"
   ],
   "note": "The transmission is described in Spec/HonestSpec.v from the ICD; it may have any length and up to 12 DSM-KROOTs, with different ids and root keys of one chain. For receivers started with a public key only (C61 has the others), storages with room for the satellites received, tags of at least 40 bits and a reception without gaps of more than 25 hours ([no_long_gap]; the receiver does not accept a key later than that, C67); the KROOT week is at least 1."
  },
  {
   "property": "C56",
   "status": "proved",
   "theorems": [
    "C56_held_keys_are_of_the_system",
    "C56_returned_data_is_of_the_system"
   ],
   "note": "A reduction: no assumption is made about the primitives; each forgery is exhibited in terms of the messages received. The same tag may be counted more than once (C57). What the system did is any record galileo (Spec/GalileoSpec.v) that only signs its own root keys."
  },
  {
   "property": "C57",
   "status": "partial",
   "theorems": [
    "C57_each_tag_counts_once_partial",
    "C57_two_chains_partial",
    "C57_refuted"
   ],
   "note": "False as stated: C57_refuted gives a history, in order of time, in which a revoked chain is taken up again from its repeated KROOT, a key is accepted a second time and one tag of 20 bits is counted twice, so that the data is returned with 40 bits. Proved when no chain dropped by the receiver is taken up again (C57_each_tag_counts_once_partial); C57_two_chains_partial gives a condition on what is received."
  },
  {
   "property": "C58",
   "status": "proved",
   "theorems": [
    "C58_configuration",
    "C58_one_meaning",
    "C58_program",
    "C58_program_panics",
    "C58_program_completes",
    "C58_no_configuration",
    "C58_large_id",
    "C58_firmware_constants",
    "C58_firmware"
   ],
   "note": "The arguments are given parsed (crate clap), PEM files are a parameter (crate spki); with the protobuf codec of C59. In builds without overflow checks the week numbers of the packets have to fit in 16 bits."
  },
  {
   "property": "C59",
   "status": "proved",
   "theorems": [
    "C59_fields_of_the_file",
    "C59_decoder",
    "C59_packet_fields",
    "C59_encoder",
    "C59_round_trip",
    "C59_packet_round_trip",
    "C59_decoded_values",
    "C59_unknown_fields_and_order",
    "C59_filter",
    "C59_filter_selects",
    "C59_filter_output",
    "C59_filter_can_panic",
    "C59_test_vectors_readable",
    "C59_test_vectors",
    "C59_pipe"
   ],
   "note": "The codec is that of Model/Protobuf.v, written from the protobuf documentation and the behaviour of prost, whose source is not in the repository. C59_encoder says which bytes are written, field by field. C59_fields_of_the_file derives the field tables of the model from the text of navmon.proto. C59_filter_selects says which messages the galmon programs look at: those in which the file has a field with number 5 (GalileoInav)."
  },
  {
   "property": "C60",
   "status": "partial",
   "theorems": [
    "C60_stored_satellites_partial",
    "C60_two_new_satellites_starve",
    "C60_refuted"
   ],
   "note": "False: C60_refuted (twelve entries, two satellites that rise at the same time take the place of each other for ever). It holds for satellites that have an entry already (C60_stored_satellites_partial), and if there is room for all the satellites ever received (C30)."
  },
  {
   "property": "C61",
   "status": "proved",
   "theorems": [
    "C61_key_of_each_subframe",
    "C61_merkle_tree_reception_authenticates"
   ],
   "note": "Transmission as in C55 (storages with room for the satellites received, tags of at least 40 bits, no gap of more than 25 hours). If the receiver has no public key at the start, the first DSM-PKR that leads to the root must be the one of the key in use; C61_example_results shows that with the next key first the key in use is not accepted later."
  },
  {
   "property": "C62",
   "status": "proved",
   "theorems": [
    "C62_logging_is_transparent",
    "C62_level_only_selects_lines"
   ],
   "note": "The lines that a call writes before it panics are not in the model."
  },
  {
   "property": "C63",
   "status": "proved",
   "theorems": [
    "C63_nothing_is_authenticated_silently"
   ],
   "note": "One direction: with the NMA status Don't Use a line is written but nothing is counted. Example C63_example reaches the bound."
  },
  {
   "property": "C64",
   "status": "proved",
   "theorems": [
    "C64_dsm_lines_are_true",
    "C64_mack_lines_are_true",
    "C64_no_key_line_is_true",
    "C64_lines_are_true",
    "C64_correct_tag_is_verified",
    "C64_navigation_lines_are_true",
    "C64_contents_are_shown"
   ],
   "note": "The statement for each line is the definition claim in Spec/LogSpec.v; lines that only show parts of the state have none there. The theorem names the call that writes the line. The lines about DSM blocks and the MACK storage have more exact statements in Spec/DsmLogSpec.v (C64_dsm_lines_are_true, C64_mack_lines_are_true), those about the navigation data storage in Spec/NavLogSpec.v (C64_navigation_lines_are_true, C64_contents_are_shown). The reasons of the errors are those of C73 (Spec/ErrorSpec.v). C64_correct_tag_is_verified states the case of a correct tag in the terms of C01. The claim of the lines about a revoked public key is False: they are never written. C64_no_key_line_is_true is about the line that says that there is no key."
  },
  {
   "property": "C65",
   "status": "partial",
   "theorems": [
    "C65_refuted",
    "C65_word_line_partial"
   ],
   "note": "False: C65_refuted, log_word passes the satellite and the word type in the wrong order. C65_word_line_partial: they are exchanged in every such line, and the line is written only for words with data of its kind."
  },
  {
   "property": "C66",
   "status": "partial",
   "theorems": [
    "C66_counting_changes_nothing",
    "C66_work_bounded_partial",
    "C66_no_future_keys_partial",
    "C66_nominal_work_bounded",
    "C66_refuted"
   ],
   "note": "False: C66_refuted, after a change of chain the key for the Slow MAC is derived from the key of the other chain without a limit; a root key of week 4000 received in week 1200 makes one call evaluate the function 56 million times. C66_work_bounded_partial: the exact dependence on the latest time of a call or root key; C66_no_future_keys_partial: 3010 if there is no root key of the future; C66_nominal_work_bounded: 3010 in nominal operation. The evaluations of MACs are not counted."
  },
  {
   "property": "C67",
   "status": "partial",
   "theorems": [
    "C67_resumes_partial",
    "C67_long_outage",
    "C67_refuted"
   ],
   "note": "False: C67_refuted, after an outage of 26 hours the key of a complete subframe is not held although a newer DSM-KROOT, with a root key 30 seconds old, has been received. C67_long_outage: after an outage of more than 25 hours the keys never change again, whatever is received of the transmission (a newer root key of a chain that is held is ignored). C67_resumes_partial: after an outage of at most 25 hours the first complete subframe gives its key, without the DSM-KROOT."
  },
  {
   "property": "C68",
   "status": "partial",
   "theorems": [
    "C68_key_of_each_subframe_partial",
    "C68_no_panic_partial",
    "C68_authenticates_partial",
    "C68_same_dsm_never_collected_again",
    "C68_refuted"
   ],
   "note": "False: C68_refuted, one forged block of the DSM-KROOT is kept in place of the correct copies, and the transmission that follows gives no key and no data. C68_same_dsm_never_collected_again: after a DSM is complete (correct or not), a receiver without a key never gets one while the blocks received are of this DSM id. C68_key_of_each_subframe_partial and C68_authenticates_partial: true after any calls if the first DSM block of the transmission is of another DSM than the last one received before, there are no alert messages and no gap of more than 25 hours (C67), and the receiver does not panic (C68_no_panic_partial: it does not if the chains of the keys held can be used together with the one transmitted and no DSM-PKR panics, see C09)."
  },
  {
   "property": "C69",
   "status": "partial",
   "theorems": [
    "C69_next_chain_partial",
    "C69_announced_too_early",
    "C69_refuted"
   ],
   "note": "False: C69_refuted, the next chain is announced while the old chain is in force and comes into force 26 hours later with a new DSM-KROOT; the receiver has followed the old chain all the time but gets no key of the new one. C69_announced_too_early: if a root key of the next chain is held and all its subframes are more than 25 hours later, this root key is the only key of the chain ever held, whatever DSM-KROOTs are received. C69_next_chain_partial: true, without panic, if the next chain was not announced before, the DSM id changes with the chain, and there are no alert messages and no gap of more than 25 hours. An announcement at most 25 hours before is covered by C68_key_of_each_subframe_partial."
  },
  {
   "property": "C70",
   "status": "proved",
   "theorems": [
    "C70_headers",
    "C70_kroot_fields",
    "C70_kroot_checks",
    "C70_kroot_panics",
    "C70_pkr_fields",
    "C70_pkr_reserved_type"
   ],
   "note": "The messages are given by the layouts of Spec/KrootSpec.v and Spec/MerkleSpec.v; the tables of codes are in Spec/FieldSpec.v. The accessors of the MACK message are the subject of C16 and C20."
  },
  {
   "property": "C71",
   "status": "partial",
   "theorems": [
    "C71_check_padding_partial",
    "C71_usual_sizes_partial",
    "C71_reserved_rejected",
    "C71_refuted",
    "C71_key_does_not_fit"
   ],
   "note": "False: C71_refuted, a DSM-PKR of 16 blocks with a P-256 key has 45 bytes of padding and the hash only 32; C71_key_does_not_fit: a P-521 key announced in fewer than 16 blocks makes the accessors of the key, leaf and padding panic too (through Osnma this is C09_unverified_pkr_refuted). check_padding itself is public but not called by Osnma. C71_check_padding_partial: true exactly for messages with at most 32 bytes of padding; C71_usual_sizes_partial: all messages except P-256 keys in more than 14 blocks."
  },
  {
   "property": "C72",
   "status": "proved",
   "theorems": [
    "C72_nothing_after_reset",
    "C72_only_bits_change"
   ],
   "note": "The calls are those of the public interface of the store, with any arguments; Osnma never calls the reset."
  },
  {
   "property": "C73",
   "status": "partial",
   "theorems": [
    "C73_kroot_errors",
    "C73_mack_errors",
    "C73_public_key_errors",
    "C73_alert_errors_refuted",
    "C73_alert_errors_partial",
    "C73_not_alert_is_never_returned",
    "C73_key_errors_refuted",
    "C73_key_errors_partial"
   ],
   "note": "True of DSM-KROOT, MACK and validate_pkr. False of two: C73_alert_errors_refuted, validate_alert_message rejects a message that is not an alert with NoPublicKey although it has a public key (C73_not_alert_is_never_returned: NotAlert never occurs); C73_key_errors_refuted, DifferentChain is documented as chains with different ids but is returned for equal ids with any other parameter different. The two partial theorems say what those errors mean and that the other ones are as documented."
  },
  {
   "property": "C74",
   "status": "proved",
   "theorems": [
    "C74_responses",
    "C74_client_prints",
    "C74_at_the_end"
   ],
   "note": "What is written, byte for byte, for any received part of the lines; what is printed, in any interleaving, at any moment and at the end. The last answer is never printed: the client exits after it has sent the last line."
  },
  {
   "property": "C75",
   "status": "proved",
   "theorems": [
    "C75_galmon_osnma",
    "C75_test_vectors",
    "C75_client_and_firmware"
   ],
   "note": "Joins the completeness of the library (C55, C61) with the programs (C44, C45, C50, C52, C58, C59, C74): from the bytes of the command line and the input to what is logged or printed. Assumed are what C55 assumes: no gap of more than 25 hours, enough room in the storage, week 0 left out, the words after the first ones repeat the data."
  },
  {
   "property": "C76",
   "status": "proved",
   "theorems": [
    "C76_short_tags_add_up"
   ],
   "note": "Uses the vocabulary of C55 and C61 for the reception; the words of the data must be received again in the subframe before each of the tags, as the code requires. The example has a chain of 20-bit tags and two tags in two subframes; after the first key nothing is returned, after the second the data is."
  },
  {
   "property": "C77",
   "status": "proved",
   "theorems": [
    "C77_name_gives_time",
    "C77_conversion",
    "C77_from_the_name_to_the_log",
    "C77_no_such_date",
    "C77_leap_second",
    "C77_before_the_start_panics"
   ],
   "note": "The parsing of dates by chrono is modelled from its documentation, as its source is not in /repo. The calendar of the specification is the relation that says which day is next; the model computes day numbers. The panic before 22 August 1999 is a finding: the quotient truncates towards zero and the negative remainder does not fit."
  },
  {
   "property": "C78",
   "status": "proved",
   "theorems": [
    "C78_no_warnings",
    "C78_merkle_tree_root",
    "C78_missed_subframe_refuted"
   ],
   "note": "The transmission keeps one TESLA chain and the public key of the receiver (chain and public key status nominal, end of chain or new public key); DSM-PKRs give the key that is held. C78_merkle_tree_root is for a receiver without the key. The refutation is a finding: the ages of words count only the subframes in which words were received (CollectNavMessage::increase_age), so after a total gap the receiver combines words older than the cut-off point of the tag and reports a correct tag as wrong."
  },
  {
   "property": "C79",
   "status": "proved",
   "theorems": [
    "C79_trust_is_kept",
    "C79_key_is_kept",
    "C79_kroot_gives_key"
   ],
   "note": "An alert is one that was verified (alerted in Spec/LogSpec.v), not merely received. The example has a renewal of the public key; and an alert, after which nothing is kept (C06). What takes the key of the chain in force away is key_withdrawn in Spec/KeptKeySpec.v."
  },
  {
   "property": "C80",
   "status": "proved",
   "theorems": [
    "C80_no_key_no_authentication"
   ],
   "note": "The condition is about the state after each completing call: no held key has the time of the completed subframe. C67_long_outage uses it for a receiver that is stuck after an outage."
  },
  {
   "property": "C81",
   "status": "proved",
   "theorems": [
    "C81_changes_are_logged",
    "C81_silent_calls_change_nothing"
   ],
   "note": "The lines are those of the model with logging (C62 shows that it behaves as the model without). A key slot that is overwritten is logged with the new key and the slot, not with the key that was there; the public key store never logs a revocation (C48, C64)."
  },
  {
   "property": "C82",
   "status": "proved",
   "theorems": [
    "C82_order_does_not_matter",
    "C82_order_of_navigation_words",
    "C82_order_of_navigation_words_full_storage"
   ],
   "note": "For OSNMA words, equality of states; for navigation data words, equality of everything but the places of the entries (these do change: C82_example_navigation). Two words of one satellite cannot be exchanged (C82_example_same_satellite), and with fewer entries than satellites the order decides what is evicted (C82_example_room_is_needed)."
  },
  {
   "property": "C83",
   "status": "proved",
   "theorems": [
    "C83_repeated_osnma_word",
    "C83_repeated_navigation_word",
    "C83_repeats_can_be_left_out",
    "C83_repeats_can_be_left_out_full_storage"
   ],
   "note": "Equality of states. The condition on the times is needed: a word that came too early is ignored and is used when it comes again (C83_example_times_are_needed). With fewer entries than satellites a repeated word can take an entry back (C83_example_room_is_needed)."
  }
 ]
}

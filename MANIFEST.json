{
 "claims": [
  {
   "property": "C01",
   "status": "proved",
   "theorems": [
    "C01_oprf_round_trip"
   ],
   "note": ""
  },
  {
   "property": "C02",
   "status": "proved",
   "theorems": [
    "C02_blinding_hides_input"
   ],
   "note": ""
  },
  {
   "property": "C03",
   "status": "proved",
   "theorems": [
    "C03_expand_message_xmd_rfc9380",
    "C03_tag"
   ],
   "note": ""
  },
  {
   "property": "C04",
   "status": "proved",
   "theorems": [
    "C04_finalize_unambiguous",
    "C04_finalize_encoding"
   ],
   "note": ""
  },
  {
   "property": "C05",
   "status": "partial",
   "theorems": [
    "C05_every_byte_counts_refuted",
    "C05_only_length_mod_256_counts",
    "C05_every_byte_counts_partial"
   ],
   "note": "REFUTED as stated: oprf_Blind takes the length as uint8_t, so only the first |x| mod 256 bytes count. Proved exactly what happens for every length, and the full claim for at most 255 bytes."
  },
  {
   "property": "C06",
   "status": "proved",
   "theorems": [
    "C06_unblind_accepts_exactly"
   ],
   "note": ""
  },
  {
   "property": "C07",
   "status": "proved",
   "theorems": [
    "C07_create_shares_polynomial"
   ],
   "note": "n <= 254 and a canonical secret (< L); n = 255 is the subject of C15."
  },
  {
   "property": "C08",
   "status": "proved",
   "theorems": [
    "C08_any_quorum_reconstructs"
   ],
   "note": ""
  },
  {
   "property": "C09",
   "status": "proved",
   "theorems": [
    "C09_fewer_shares_reveal_nothing",
    "C09_zero_coefficient_caveat"
   ],
   "note": "Perfect secrecy as existence and uniqueness of the matching coefficients in [0,L); the caveat theorem shows what drawing only non-zero coefficients leaks."
  },
  {
   "property": "C10",
   "status": "proved",
   "theorems": [
    "C10_thresholdmult_any_quorum",
    "C10_evaluate_succeeds"
   ],
   "note": ""
  },
  {
   "property": "C11",
   "status": "proved",
   "theorems": [
    "C11_thresholdmult_order",
    "C11_thresholdcombine_order"
   ],
   "note": ""
  },
  {
   "property": "C12",
   "status": "proved",
   "theorems": [
    "C12_evaluate_then_combine",
    "C12_evaluate_succeeds"
   ],
   "note": ""
  },
  {
   "property": "C13",
   "status": "partial",
   "theorems": [
    "C13_thresholdcombine_rejects_invalid_refuted",
    "C13_thresholdmult_rejects_invalid",
    "C13_thresholdcombine_drops_invalid"
   ],
   "note": "REFUTED as stated for toprf_thresholdcombine: an undecodable response is silently left out and 0 returned. Proved for toprf_thresholdmult; exact behaviour of thresholdcombine proved."
  },
  {
   "property": "C14",
   "status": "proved",
   "theorems": [
    "C14_3hashtdh_equals_threshold_oprf"
   ],
   "note": ""
  },
  {
   "property": "C15",
   "status": "partial",
   "theorems": [
    "C15_share_generation_safe_refuted",
    "C15_share_generation_safe_partial"
   ],
   "note": "REFUTED as stated: with n = 255 the uint8_t counter wraps and the loop writes out of bounds; threshold 0 gives a negative array bound. Proved safe for all n <= 254, 1 <= t <= 255."
  },
  {
   "property": "C16",
   "status": "proved",
   "theorems": [
    "C16_coeff_lagrange",
    "C16_coeff_nonzero"
   ],
   "note": ""
  },
  {
   "property": "C17",
   "status": "proved",
   "theorems": [
    "C17_honest_shares_verify"
   ],
   "note": ""
  },
  {
   "property": "C18",
   "status": "partial",
   "theorems": [
    "C18_verified_share_is_committed_refuted",
    "C18_bit255_always_accepted",
    "C18_verified_share_is_committed_partial",
    "C18_verify_return_code"
   ],
   "note": "REFUTED as stated: a share value with bit 255 set verifies but dkg_finish adds the unmasked value. Proved for all values below 2^255, with the exact meaning of the return code for arbitrary bytes."
  },
  {
   "property": "C19",
   "status": "partial",
   "theorems": [
    "C19_fails_list_exact_refuted",
    "C19_fails_list"
   ],
   "note": "REFUTED as stated: the first dealer with an undecodable commitment makes the function return -1 at once, later cheaters stay unreported. Exact behaviour on all inputs proved."
  },
  {
   "property": "C20",
   "status": "proved",
   "theorems": [
    "C20_dkg_consistent",
    "C20_quorums_agree",
    "C20_honest_run"
   ],
   "note": ""
  },
  {
   "property": "C21",
   "status": "proved",
   "theorems": [
    "C21_inverted_vandermonde"
   ],
   "note": ""
  },
  {
   "property": "C22",
   "status": "proved",
   "theorems": [
    "C22_multiplication_polynomial",
    "C22_product_reconstructs"
   ],
   "note": ""
  },
  {
   "property": "C23",
   "status": "proved",
   "theorems": [
    "C23_mul_start_refuses"
   ],
   "note": ""
  },
  {
   "property": "C24",
   "status": "proved",
   "theorems": [
    "C24_sent_message_accepted"
   ],
   "note": ""
  },
  {
   "property": "C25",
   "status": "proved",
   "theorems": [
    "C25_acceptance_checks",
    "C25_fields_unique"
   ],
   "note": ""
  },
  {
   "property": "C26",
   "status": "partial",
   "theorems": [
    "C26_bodies_authenticated_refuted",
    "C26_body_not_covered",
    "C26_header_authenticated_partial"
   ],
   "note": "REFUTED as stated: send_msg and recv_msg sign and verify only the 47 header bytes after the signature, so any body of the same length is accepted. Proved that the body never matters to the check and that the header is authenticated."
  },
  {
   "property": "C27",
   "status": "partial",
   "theorems": [
    "C27_accepted_timestamps_sorted",
    "C27_consecutive_within_window_refuted",
    "C27_consecutive_within_window_partial",
    "C27_drift_partial"
   ],
   "note": "Monotonicity proved for all histories. REFUTED as stated for the window: recv_msg records the time stamp before it verifies the signature, so a forged message in between moves the window; proved for histories without signature failures, and for all histories with one window more for each such message (C27_drift_partial)."
  },
  {
   "property": "C28",
   "status": "partial",
   "theorems": [
    "C28_rejected_leaves_state_refuted",
    "C28_recorded_timestamp"
   ],
   "note": "REFUTED as stated: a message rejected for its signature (code 6) has already overwritten the recorded time stamp. Exact behaviour proved for all messages."
  },
  {
   "property": "C29",
   "status": "proved",
   "theorems": [
    "C29_collected_sizes",
    "C29_tp_demands_reported_sizes",
    "C29_peer_demands_reported_sizes",
    "C48_slices_in_bounds",
    "C36_reveal_sizes"
   ],
   "note": "C36_reveal_sizes is the complaint resolution step 7, whose sizes depend on the complaints recorded on both sides."
  },
  {
   "property": "C30",
   "status": "proved",
   "theorems": [
    "C30_tp_moves_forward",
    "C30_peer_moves_forward",
    "C30_tp_finishes",
    "C30_peer_finishes",
    "C30_tp_stays_done",
    "C30_peer_stays_done"
   ],
   "note": ""
  },
  {
   "property": "C31",
   "status": "partial",
   "theorems": [
    "C31_peer_error_ends",
    "C31_tp_error_ends_refuted",
    "C31_tp_step6_always_continues",
    "C31_tp_error_ends_partial"
   ],
   "note": "REFUTED as stated: in step 6 tpdkg_tp_next does not set the final step on errors, the trusted party goes on to step 7 or 8. Proved for the peers and for every other step of the trusted party."
  },
  {
   "property": "C32",
   "status": "partial",
   "theorems": [
    "C32_tp_in_bounds_partial",
    "C32_unlogged",
    "C32_log_refuted",
    "C32_count_refuted"
   ],
   "note": "REFUTED as stated: tp_step68_handler prints to the log stream without checking it, so without logging a refused handshake message is a null pointer access; and in step 6 the announced number of complaints is compared with the message length in the wrong byte order, so it can exceed the input. Proved for every history, step, input content and length under exactly these two conditions; without logging the behaviour in steps 2 and 3 is characterised exactly."
  },
  {
   "property": "C33",
   "status": "partial",
   "theorems": [
    "C33_peer_in_bounds_partial",
    "C33_free_defined",
    "C33_free_once",
    "C33_free_after_success",
    "C33_use_after_free_refuted",
    "C33_double_free_refuted",
    "C33_free_early_refuted",
    "C33_complaints_refuted"
   ],
   "note": "REFUTED as stated: the peer ignores failures of the Noise handshake, so a bad handshake message leaves a freed session that the next step uses (C33_use_after_free_refuted) and tpdkg_peer_free frees again (C33_double_free_refuted); with uninitialised session variables, as in the documented example, freeing after an early error is undefined (C33_free_early_refuted); an oversized complaint list in step 6 overflows the complaint buffer (C33_complaints_refuted). Proved: every call of every history is defined if these causes are excluded, tpdkg_peer_free is defined exactly if no variable is uninitialised or freed, frees each live session once, and is defined for every peer past step 5."
  },
  {
   "property": "C34",
   "status": "proved",
   "theorems": [
    "C34_cheater_list"
   ],
   "note": ""
  },
  {
   "property": "C35",
   "status": "proved",
   "theorems": [
    "C35_complaints_well_formed",
    "wf_reachable"
   ],
   "note": "With the buffer sizes the library asks for; wf_reachable shows the hypothesis tp_wf of this and the following claims holds in every history of a trusted party set up by the caller."
  },
  {
   "property": "C36",
   "status": "proved",
   "theorems": [
    "C36_complaints_agree",
    "C36_reveal_sizes",
    "C36_no_complaints_before"
   ],
   "note": ""
  },
  {
   "property": "C37",
   "status": "partial",
   "theorems": [
    "C37_answered_partial",
    "C37_bad_key_partial",
    "C37_unanswered_blames_complainer_refuted"
   ],
   "note": "REFUTED as stated: tp_step18_handler records an unanswered complaint with the complainer as the culprit. Proved for every answered complaint: exactly one of the two is blamed, according to the share; a key that does not open the share is blamed on the accused."
  },
  {
   "property": "C38",
   "status": "partial",
   "theorems": [
    "C38_report_names_peer_refuted",
    "C38_reports_partial"
   ],
   "note": "REFUTED as stated: tpdkg_cheater_msg names nobody for error codes 65 and 71 and for refused digest messages. Proved: the set of entries any history can record, and for each of them whom the report names."
  },
  {
   "property": "C39",
   "status": "proved",
   "theorems": [
    "C39_digests_agree",
    "C39_same_broadcasts_or_collision"
   ],
   "note": "Up to an explicit collision of the hash function."
  },
  {
   "property": "C40",
   "status": "proved",
   "theorems": [
    "C40_transcript_unambiguous"
   ],
   "note": "Messages shorter than 2^32 bytes (the absorbed length field has 32 bits)."
  },
  {
   "property": "C41",
   "status": "proved",
   "theorems": [
    "C41_relayed_unchanged",
    "C41_relayed_authentic"
   ],
   "note": "The signature covers the header (see C26)."
  },
  {
   "property": "C42",
   "status": "proved",
   "theorems": [
    "C42_share_only_after_ok"
   ],
   "note": ""
  },
  {
   "property": "C43",
   "status": "partial",
   "theorems": [
    "C43_all_peers_stop_refuted",
    "C43_unaccused_continues",
    "C43_unaccused_sends_digest",
    "C43_tp_fails_partial",
    "C43_accused_done_partial"
   ],
   "note": "REFUTED as stated: a peer nobody complained about goes on to the transcript step. Proved for the trusted party and the accused peers."
  },
  {
   "property": "C44",
   "status": "partial",
   "theorems": [
    "C44_honest_run",
    "C44_clocks",
    "C44_slow_clock_refuted"
   ],
   "note": "REFUTED as stated for the clocks: the trusted party initialises the last time stamp of every peer with its own clock, so a peer whose clock is one second behind is refused and reported as a cheater. Proved for all n, t, keys and randomness under the exact freshness condition the code checks (a simple sufficient condition is C44_clocks), for peers that draw different Noise keys (the Noise library refuses to register a key twice) and with memory locking successful."
  },
  {
   "property": "C45",
   "status": "partial",
   "theorems": [
    "C45_same_parameters_refuted",
    "C45_same_parameters_partial"
   ],
   "note": "REFUTED as stated: tpdkg_start_tp accepts thresholds 0 and 1, which tpdkg_start_peer refuses. Proved: a peer accepts iff t>=2, and then agrees on all parameters."
  },
  {
   "property": "C46",
   "status": "partial",
   "theorems": [
    "C46_acks_ok_refuted",
    "C46_acks_signed_partial",
    "C46_honest_ack_partial"
   ],
   "note": "REFUTED as stated: tp_step22_handler only logs an acknowledgement that does not say OK. Proved that every peer signed an acknowledgement header and that a peer following the code only ever sends OK."
  },
  {
   "property": "C47",
   "status": "partial",
   "theorems": [
    "C47_no_suppression_refuted",
    "C47_complaints_partial"
   ],
   "note": "REFUTED as stated: a dealer with unusable commitments (identity or undecodable) stops the verification, bad shares of later dealers are not complained about. Proved exactly which dealers are named."
  },
  {
   "property": "C48",
   "status": "proved",
   "theorems": [
    "C48_slices_in_bounds",
    "C48_slices_apart"
   ],
   "note": ""
  },
  {
   "property": "C49",
   "status": "partial",
   "theorems": [
    "C49_log_refuted",
    "C49_tp_partial",
    "C49_tp_log_harmless",
    "C32_unlogged",
    "C49_peer_partial"
   ],
   "note": "REFUTED as stated: see C32; without logging a refused message in steps 2 and 3 of the trusted party is undefined behaviour. Proved: no influence in all other steps, and in those steps if no message is refused; for peers no influence provided the Noise library knows the peers of the sessions it created."
  },
  {
   "property": "C50",
   "status": "proved",
   "theorems": [
    "C50_cheater_excludes_success",
    "C50_success_means_no_cheaters"
   ],
   "note": ""
  },
  {
   "property": "C51",
   "status": "proved",
   "theorems": [
    "C51_keys_signed"
   ],
   "note": ""
  },
  {
   "property": "C52",
   "status": "proved",
   "theorems": [
    "C52_keys_agree"
   ],
   "note": ""
  },
  {
   "property": "C53",
   "status": "proved",
   "theorems": [
    "C53_commitments_agree"
   ],
   "note": ""
  },
  {
   "property": "C54",
   "status": "partial",
   "theorems": [
    "C54_python_shares_refuted",
    "C54_python_shares_undefined",
    "C54_python_shares_partial",
    "C54_python_shares_return"
   ],
   "note": "REFUTED as stated: n and t are passed to C as bytes without a check, so for more than 254 shares the call is undefined (n mod 256 = 255 or t mod 256 = 0) or shares a secret with the wrong parameters; and __check tests the return value of a void function, so whether the call raises depends on a register. Proved for n <= 254, and exactly when it returns."
  },
  {
   "property": "C55",
   "status": "partial",
   "theorems": [
    "C55_python_oprf_refuted",
    "C55_python_blind_prefix",
    "C55_python_oprf_partial"
   ],
   "note": "REFUTED as stated: the length of the input is truncated to 8 bits in blind and 16 bits in finalize, so inputs of 65536 bytes or more have colliding outputs and for more than 255 bytes only a prefix is blinded. Proved for inputs of at most 255 bytes."
  },
  {
   "property": "C56",
   "status": "partial",
   "theorems": [
    "C56_start_refuted",
    "C56_verify_refuted",
    "C56_reconstruct_exact",
    "C56_oprf_safe",
    "C56_dkg_safe_partial"
   ],
   "note": "REFUTED as stated: 255 parties make the loops of the C code run on; dkg_reconstruct reads outside responses that are too short (characterised exactly). Proved: the other functions for all arguments, and create_shares, dkg_start and dkg_verify_commitments for up to 254 parties. A wrong number of coefficients cannot occur."
  },
  {
   "property": "C57",
   "status": "partial",
   "theorems": [
    "C57_verify_reports_refuted",
    "C57_verify_outcome_partial"
   ],
   "note": "REFUTED as stated: __check turns the return value of the C function into an exception before the list is built. Proved: the call returns the empty list or raises, and raises exactly if a dealer cheated or has unusable commitments (n <= 254)."
  },
  {
   "property": "C58",
   "status": "partial",
   "theorems": [
    "C58_started_parameters_refuted",
    "C58_trusted_party_refuted",
    "C58_start_peer_refuted",
    "C58_peer_message_refuted",
    "C58_started_parameters",
    "C58_started_session_partial",
    "C58_start_returns",
    "C58_trusted_party_undefined_exactly_partial",
    "C58_trusted_party_call",
    "C58_peer_call",
    "C58_peer_message",
    "C58_peer_message_defined",
    "C58_start_peer_short",
    "C58_start_peer_partial",
    "C58_started_peer_can_be_freed",
    "C58_peer_defined_partial"
   ],
   "note": "REFUTED as stated: parameters are taken modulo 256; the bindings leave the log stream unset (a program can set it through ctypes, as the example does), so without that a refused handshake message in step 2 or 3 of the trusted party is a null pointer access; a first message of fewer than 142 bytes is read out of bounds. Proved: what session is started, exactly when a call on the trusted party is undefined (in step 6 for messages whose announced lengths lie inside them), peers under the conditions of C33, and what an exception leaves behind."
  },
  {
   "property": "C59",
   "status": "partial",
   "theorems": [
    "C59_late_answer_refuted",
    "C59_own_stream",
    "C59_same_value",
    "C59_raw_messages",
    "C59_in_order_partial",
    "C59_message_sizes"
   ],
   "note": "REFUTED as stated: if fewer answers than there are peers are asked for, the answer of a late peer is returned as its answer to the next request. Proved for every call: each entry is made from the next messages of its own peer and does not depend on schedule or other peers; and for sequences of calls that wait for all peers: answers are the successive messages."
  },
  {
   "property": "C60",
   "status": "partial",
   "theorems": [
    "C60_short_answer_refuted",
    "C60_failure_counts_refuted",
    "C60_other_peer_refuted",
    "C60_enough_partial",
    "C60_full_if_connected",
    "C60_returns_partial"
   ],
   "note": "REFUTED as stated: a closed connection counts as an empty answer, a failure report counts as an answer, and one peer that sends part of a message makes the call raise. Proved: n different peers answered or reported failure, at least one with a value; answers of peers still connected are complete; the call returns if n peers deliver and the others are silent."
  },
  {
   "property": "C61",
   "status": "partial",
   "theorems": [
    "C61_too_few_refuted",
    "C61_python_thresholdmult_partial",
    "C61_python_combine_partial",
    "C61_python_3hashtdh_partial",
    "C61_python_servers_answer"
   ],
   "note": "REFUTED as stated in one point: empty lists of responses are accepted. Proved for all sets of at least t responses and n <= 254."
  },
  {
   "property": "C62",
   "status": "proved",
   "theorems": [
    "C62_key_update"
   ],
   "note": "Inputs of any length whose first (length mod 256) bytes (what the C library is told to use, see C55) do not hash to the neutral element; memory locking succeeds."
  },
  {
   "property": "C63",
   "status": "partial",
   "theorems": [
    "C63_python_dkg_partial"
   ],
   "note": "REFUTED as stated for 255 parties, where the C functions loop out of bounds (see C56_start_refuted); proved for every number up to 254."
  },
  {
   "property": "C64",
   "status": "partial",
   "theorems": [
    "C64_tcp_refuted",
    "C64_certificate_refuted",
    "C64_interrupted_read_refuted",
    "C64_authenticated_exactly",
    "C64_read_partial",
    "C64_in_order_partial",
    "C64_close_partial",
    "C64_close_refuted"
   ],
   "note": "REFUTED as stated: a peer of type TCP can never be connected; giving a certificate file switches all checks of the certificate off; a read interrupted by a timeout loses the bytes already received. Proved: authentication exactly, reads in order while no read raises, nothing after close; closing a peer that is marked closed although a later connect failed leaves the new socket open."
  },
  {
   "property": "C65",
   "status": "proved",
   "theorems": [
    "C65_initiator_conforms",
    "C65_responder_conforms"
   ],
   "note": "The specification (XkSpec, part 1) is written after the Noise specification revision 34, sections 5 and 7.5, with HMAC and HKDF of section 4.3. Deviation stated in part 2: messages are limited to 32-bit lengths, not to 65535 bytes. Incoming messages of more than 2^32-64 bytes are excluded."
  },
  {
   "property": "C66",
   "status": "proved",
   "theorems": [
    "C66_honest_channel"
   ],
   "note": ""
  },
  {
   "property": "C67",
   "status": "proved",
   "theorems": [
    "C67_responder_identity",
    "C67_initiator_identity"
   ],
   "note": ""
  },
  {
   "property": "C68",
   "status": "partial",
   "theorems": [
    "C68_out_of_turn_refuted",
    "C68_outcomes",
    "C68_causes",
    "C68_read_out_of_turn_partial",
    "C68_write_out_of_turn"
   ],
   "note": "REFUTED as stated in one point: sending out of turn ends the session (reading out of turn does no harm). Proved: what each return code means, the complete list of causes that end a session, reads out of turn, and that a write out of turn always ends the session."
  },
  {
   "property": "C69",
   "status": "proved",
   "theorems": [
    "C69_nonces",
    "C69_nonces_differ",
    "C69_failures_leave_no_trace"
   ],
   "note": ""
  },
  {
   "property": "C70",
   "status": "proved",
   "theorems": [
    "C70_registry"
   ],
   "note": ""
  },
  {
   "property": "C71",
   "status": "proved",
   "theorems": [
    "C71_device_roundtrip",
    "C71_peer_roundtrip",
    "C71_restored_is_authentic"
   ],
   "note": ""
  },
  {
   "property": "C72",
   "status": "proved",
   "theorems": [
    "C72_lengths_and_levels",
    "C72_send_rule",
    "C72_receive_rule"
   ],
   "note": "Level 1 (encryption to an ephemeral recipient) is not provided by level 2, as in the code and the table of the Noise specification; see conf_met."
  },
  {
   "property": "C73",
   "status": "proved",
   "theorems": [
    "C73_channel_laws",
    "C73_honest_run"
   ],
   "note": "The laws of the libsodium primitives (xprims_ok) are hypotheses."
  },
  {
   "property": "C74",
   "status": "partial",
   "theorems": [
    "C74_session_delivers_partial",
    "C74_failure_keeps_session",
    "C74_responder_first_refuted",
    "C74_prologue_refuted",
    "C74_abi_refuted",
    "C74_long_message_refuted"
   ],
   "note": "REFUTED as stated: if the responder sends first, its call raises and the session is dead for good; two different str tags can be accepted as equal, as only the first quarter of the UTF-32 encoding is used; return structures of two bytes are read as four, so calls may fail depending on unspecified register contents; messages of 2^32 bytes or more are cut silently. Proved: delivery when the registers are clear, the tags agree in the bytes used and the responder waits for the first message; calls that raise after the handshake change nothing."
  },
  {
   "property": "C75",
   "status": "partial",
   "theorems": [
    "C75_high_level_safe_partial",
    "C75_low_level_refuted"
   ],
   "note": "REFUTED as stated for the low-level functions: get_pubkey before the end of the handshake, using the None returned by create_session_initiator for an unknown peer or by add_peer for a known key, and keys shorter than 31 bytes are undefined. Proved: the high-level functions and all uses of their sessions never are, for keys of at least 31 bytes."
  },
  {
   "property": "C76",
   "status": "proved",
   "theorems": [
    "C76_responder_knows_its_peer"
   ],
   "note": "For clear return registers (see C74)."
  },
  {
   "property": "C77",
   "status": "proved",
   "theorems": [
    "C77_falsely_accused"
   ],
   "note": "Uses the laws of the channel (crypto_ok), including that the key an initiator reveals decrypts what it sent first; the Noise library is proved to meet them (C73)."
  },
  {
   "property": "C78",
   "status": "proved",
   "theorems": [
    "C78_used_once",
    "C78_kept_on_error"
   ],
   "note": "The second theorem records what happens if the first call fails."
  },
  {
   "property": "C79",
   "status": "partial",
   "theorems": [
    "C79_wrong_text_refuted",
    "C79_swapped_peers_refuted",
    "C79_reports_true_partial"
   ],
   "note": "REFUTED as stated: for a revealed key that does not fit, the printed text says that the key was not asked for; for an unanswered complaint the two peers are swapped. What is proved: every entry stands for something that happened, for every history; the texts are true except for the listed kinds of entries (judging step: codes 3, 4, 5, 7, 127; message faults 65 and 71; step 20: all codes but 1), and for these, except for the two with swapped numbers, never true."
  },
  {
   "property": "C80",
   "status": "partial",
   "theorems": [
    "C80_one_key_refuted",
    "C80_one_key_bit255_refuted",
    "C80_one_polynomial_partial",
    "C80_one_key_partial",
    "C80_quorums_agree_partial",
    "C80_contribution"
   ],
   "note": "REFUTED as stated: a dealer that publishes the identity (or anything that is not a point) as a commitment other than the first stops the verification in every peer without a complaint (peer_step15_handler ignores the return code), and can deal inconsistent shares; so can a dealer that sets bit 255 of a share. Proved for every session in which all published commitments but the first of each dealer are points other than the identity and the received share values are below 2^255."
  },
  {
   "property": "C81",
   "status": "proved",
   "theorems": [
    "C81_honest_shares",
    "C81_honest_oprf",
    "C81_shares",
    "C81_oprf"
   ],
   "note": "The two conditions of the second case are needed: C80 refutes agreement on the key without them."
  },
  {
   "property": "C82",
   "status": "proved",
   "theorems": [
    "C82_python_keygen",
    "C82_same_as_C"
   ],
   "note": "Memory can be allocated and the state buffers lie at addresses the bindings accept (C58 says which). The comparison of public keys needs non-zero shares: libsodium refuses to multiply by zero."
  },
  {
   "property": "C83",
   "status": "proved",
   "theorems": [
    "C83_tampered",
    "C83_guess",
    "C83_other_key"
   ],
   "note": ""
  },
  {
   "property": "C84",
   "status": "proved",
   "theorems": [
    "C84_assertion",
    "C84_returns",
    "C84_any_quorum"
   ],
   "note": ""
  },
  {
   "property": "C85",
   "status": "proved",
   "theorems": [
    "C85_blamed_unanswered",
    "C85_start"
   ],
   "note": "The second disjunct names the two keys and the encrypted share. That an honest complainer can be blamed when the accused does not answer is C37; the nonvacuity example shows such a run."
  },
  {
   "property": "C86",
   "status": "proved",
   "theorems": [
    "C86_answer",
    "C86_mask_bound",
    "C86_answers_hide"
   ],
   "note": "Perfect hiding as a bijection between the possible sharings of zero; the model has no probabilities. The answers of the third theorem are those of the first (masked). A session id of 65536 bytes or more cannot be passed (uint16_t)."
  },
  {
   "property": "C87",
   "status": "proved",
   "theorems": [
    "C87_dealer_shares_hide",
    "C87_commitments_bind",
    "C87_product_shares_hide"
   ],
   "note": "Perfect hiding as uniqueness of the random values; the model has no probabilities. The shares alone are meant: the commitments of dkg_start determine the secret (second theorem) and hide it only as far as discrete logarithms are hard."
  },
  {
   "property": "C88",
   "status": "proved",
   "theorems": [
    "C88_reveals_only_answers"
   ],
   "note": "Says which keys are revealed and what the peer had read. That a complaint in the broadcast was made by the peer it names is not implied: signatures cover only the header (C26, refuted), so whoever controls the channel can put complaints into it."
  },
  {
   "property": "C89",
   "status": "partial",
   "theorems": [
    "C89_peers_named_refuted",
    "C89_get_cheaters_partial"
   ],
   "note": "REFUTED as stated: the condition 0 >= p > n of tpdkg_get_cheaters is never true, so 0 enters the set for every report that names nobody (for instance a message with a wrong length). All the rest is proved: no exception, one complete text for each entry in order, and the set is exactly that of the peers named, each of them 1..n apart from 0."
  },
  {
   "property": "C90",
   "status": "proved",
   "theorems": [
    "C90_product_sharing",
    "C90_product_oprf",
    "C90_generated_keys",
    "C90_generated_keys_others_malicious"
   ],
   "note": "The dealers of the multiplication follow the protocol: Simple-Mult has no verification (src/mpmult.c implements only that step). At most 254 recipients (C15)."
  },
  {
   "property": "C91",
   "status": "proved",
   "theorems": [
    "C91_status",
    "C91_max_security",
    "C91_next_length",
    "C91_next_length_true",
    "C91_ids",
    "C91_id_kept"
   ],
   "note": "A session that died in the handshake still reports the status it had when it was created (handshake_write for the initiator, handshake_read for the responder): the status does not show that it is of no more use; first theorem."
  },
  {
   "property": "C92",
   "status": "proved",
   "theorems": [
    "C92_conversation",
    "C92_connect_in_order",
    "C92_broadcast_in_order"
   ],
   "note": "gather without a proc and for the answers of all peers (for fewer, C59 is refuted). A broadcast that raises has reached some of the peers: repeating it sends them the request twice."
  },
  {
   "property": "C93",
   "status": "partial",
   "theorems": [
    "C93_longterm_signature_refuted",
    "C93_unreported_is_good_partial",
    "C93_failure_names_somebody_partial",
    "C93_complaints",
    "C93_complaints_settled",
    "C93_digests"
   ],
   "note": "REFUTED as stated: at the first long-term signature that is wrong tp_step4_handler returns without recording anything and without looking at the other messages, so the session ends and nobody is named. With all long-term signatures right, and as long as the list has room, everything else holds."
  },
  {
   "property": "C94",
   "status": "proved",
   "theorems": [
    "C94_trusted_party",
    "C94_peer",
    "C94_session"
   ],
   "note": "Relational: two histories that differ in the long-term keys and signatures only. In C94_trusted_party all inputs are arbitrary as long as the signatures under the long-term keys are valid in both histories (an invalid one ends the session with code 3, C93). C94_session covers any schedule of the driver loop of src/tests/tp-dkg.c, failing ones included."
  },
  {
   "property": "C95",
   "status": "partial",
   "theorems": [
    "C95_shared_page_refuted",
    "C95_lock_leak_refuted",
    "C95_input_left_refuted",
    "C95_coefficients_left_refuted",
    "C95_lock_failure",
    "C95_wiped_partial",
    "C95_locked_partial",
    "C95_released_partial",
    "C95_same_functions"
   ],
   "note": "REFUTED as stated, in four ways: locks do not nest, so voprf_hash_to_group's unlock also unlocks the hashed input of oprf_Blind when both lie on one page; oprf_Blind does not unlock when the second lock fails; expand_message_xmd leaves the input itself on the stack; toprf_create_shares neither locks nor wipes the coefficients. For the temporaries the library asks to lock: they are wiped on every path, locked while used if these two are on different pages, released except for that one failure; a lock that fails fails the call and nothing is written."
  },
  {
   "property": "C96",
   "status": "partial",
   "theorems": [
    "C96_leak_refuted",
    "C96_secrets_refuted",
    "C96_device_first_refuted",
    "C96_all_freed_partial",
    "C96_documented_use_defined",
    "C96_defined_exactly",
    "C96_memory",
    "C96_wiped_only_public_keys",
    "C96_secrets_never_wiped"
   ],
   "note": "REFUTED as stated, in three ways: device_free leaves the symmetric key of the device and everything of the peers that are still registered except the list cells; no private, symmetric or session key is ever wiped before it is freed (only the public key of a removed peer is); a responder that reads a handshake message uses its device, also after the device was freed. The rest holds: C96_documented_use_defined (no use after free, no double free under the documented use), C96_defined_exactly (the only undefined call), C96_memory (exact content of the memory after any calls), C96_all_freed_partial (exactly what is left). Needs xprims_ok only for the length of decrypted payloads."
  },
  {
   "property": "C97",
   "status": "partial",
   "theorems": [
    "C97_wrong_refuted",
    "C97_repeated_refuted",
    "C97_one_wrong_never_right_partial",
    "C97_one_change_changes_mult",
    "C97_one_change_changes_combine",
    "C97_repeated_changes_combine",
    "C97_two_wrong_can_cancel",
    "C97_last_answer_decides"
   ],
   "note": "REFUTED as stated: the combining calls verify nothing, a wrong or repeated response gives success with a wrong value, and the last to answer can choose the outcome (all but at most one group element). What holds: with exactly one wrong response the outcome is never the right one, so it cannot pass unnoticed if the right value is recognised later; two wrong ones can cancel out."
  },
  {
   "property": "C98",
   "status": "proved",
   "theorems": [
    "C98_rest_fixed",
    "C98_key_moves_with_secret",
    "C98_nothing_before",
    "C98_only_one_call_draws"
   ],
   "note": "Sessions that end well, with sound commitments and share values below 2^255 (without these C80 is refuted and there need not be one key). All commitments are published in the same round, so a dealer that colludes with the trusted party can see those of the others before it chooses its own: it can then bias the public key (as known for this kind of key generation); what is proved is that it cannot fix or cancel the contribution once its commitments are chosen."
  },
  {
   "property": "C99",
   "status": "partial",
   "theorems": [
    "C99_hostile_network_refuted",
    "C99_one_polynomial_partial",
    "C99_one_key_partial",
    "C99_quorums_agree_partial"
   ],
   "note": "REFUTED as stated: the signatures of the messages cover the header only (C26), so a network without any key can change the bodies; if it empties the lists of complaints about a dealer that sent inconsistent shares, every call returns 0 and the honest peers hold shares of different keys. It holds (also needed: sound commitments and shares below 2^255 as in C80) if the signed messages of the trusted party and of the honest peers arrive unaltered or not at all; all other traffic, and what carries signatures of the other peers, is arbitrary, and the peers are not assumed to have started with the trusted party's numbers (C103)."
  },
  {
   "property": "C100",
   "status": "partial",
   "theorems": [
    "C100_keys_authentic_refuted",
    "C100_keys_authentic_partial",
    "C100_keys_substituted",
    "C100_shares_overheard",
    "C100_secret_overheard"
   ],
   "note": "REFUTED as stated: the trusted party's signature on the broadcast of keys covers its header only (C26), and the messages in it are signed with the session keys they carry; peers do not see the long-term signatures. So somebody on the network without any participant's key can put in keys of its own for any set of peers and the peer accepts (C100_keys_substituted: for every accepted broadcast, every set, all keys), reads the shares dealt to them (C100_shares_overheard), and with threshold many of them computes the peer's contribution to the key (C100_secret_overheard). It holds if the broadcast arrives unaltered (C100_keys_authentic_partial)."
  },
  {
   "property": "C101",
   "status": "partial",
   "theorems": [
    "C101_network_kept_out_refuted",
    "C101_network_learns_key",
    "C101_digest_arrived_partial",
    "C101_watched_unchanged"
   ],
   "note": "REFUTED as stated, for every session of honest parties: a relay that knows only the number of peers and the threshold and has keys of its own replaces the keys in the key broadcast (C100) and later the transcript digests, which are not covered by the signatures either (C26); it reads all shares and computes the key. All return codes are 0, nothing is recorded, the shares are those of the undisturbed session (C101_network_learns_key). The relay's keys must differ from each other and from the peers' (relay_keys). What the digests achieve: a digest message that arrives unaltered means that this peer heard the same broadcasts as the trusted party sent, or a collision of the hash (C101_digest_arrived_partial); if all messages arrive unaltered the session is the undisturbed one (C101_watched_unchanged)."
  },
  {
   "property": "C102",
   "status": "partial",
   "theorems": [
    "C102_honest_accepted_refuted",
    "C102_line_rejected",
    "C102_evaluates_partial",
    "C102_agreement_partial"
   ],
   "note": "REFUTED as stated: vsps_check reads its matrix with rows of t instead of t+1 entries, does not set the last of the left positions, and takes the right commitments one place too late; commitments to the line f(x)=x are rejected for all but one value of the random point whatever the byte not set (other than 1) is. What holds of its parts, given the matrix with rows of t+1 entries and the commitments at its positions: _vsps computes the commitment at the random point (C102_evaluates_partial), and two windows agree for more than t points only if everything lies on one polynomial with t+1 coefficients (C102_agreement_partial). The code is in src/tests, not in the library."
  },
  {
   "property": "C103",
   "status": "partial",
   "theorems": [
    "C103_once_refuted",
    "C103_trusted_party_refuted",
    "C103_numbers_refuted",
    "C103_joins_iff_partial",
    "C103_joined_partial",
    "C103_nothing_remembered",
    "C103_again_while_fresh",
    "C103_window_partial",
    "C103_renumbered",
    "C103_numbers_noticed_partial"
   ],
   "note": "REFUTED as stated, in all three parts: tpdkg_start_peer takes the session id and the key for checking the signature from the announcement itself and keeps no record, so a peer joins the same session again, and anybody's session; and the signature covers the header only, so the number of peers and the threshold can be changed on the way. docs/tp-dkg.txt says a peer SHOULD check that the session id is fresh; there is no such check, only the time stamp. Exact: C103_joins_iff_partial, C103_joined_partial; what remains of protection against replay is the window (C103_again_while_fresh, C103_window_partial, the latter for clocks at least a window away from 0 and 2^64). Changed numbers do not survive the session: C103_numbers_noticed_partial, if nobody forges headers and all calls return 0."
  },
  {
   "property": "C104",
   "status": "proved",
   "theorems": [
    "C104_hash",
    "C104_binding",
    "C104_two_ends"
   ],
   "note": "A collision is named: two different strings, each among those that one of the two handshakes hashed. C104_two_ends assumes that both static public keys belong to their private keys, as device_create makes them."
  },
  {
   "property": "C105",
   "status": "proved",
   "theorems": [
    "C105_shares",
    "C105_serves",
    "C105_old_results",
    "C105_old_values",
    "C105_goes_through",
    "C105_memory"
   ],
   "note": "The protocol of docs/tp-update.txt as a composition of the functions that exist; how its messages travel is not in the code. 2t-1 dealers are enough (the document asks for 2t+1). Deltas must not be 0."
  },
  {
   "property": "C106",
   "status": "proved",
   "theorems": [
    "C106_mobile_adversary"
   ],
   "note": "Passive adversary, perfect secrecy in the sense of C09 and with its caveat: the code never draws the coefficient 0, so a compatible run may need coefficients with negligible probability the code does not draw. Fewer servers see less, so t-1 is the strongest case."
  },
  {
   "property": "C107",
   "status": "partial",
   "theorems": [
    "C107_product_refuted",
    "C107_one_dealer_short",
    "C107_any_dealers",
    "C107_enough_dealers_partial"
   ],
   "note": "REFUTED as stated: toprf_mpc_mul_finish takes any number of dealers and does not know the threshold of the old sharing; with 2t-2 dealers the servers always end with consistent shares of a key that is not the product (C107_one_dealer_short), and any non-empty set of dealers gives shares of some key. Proved if at least 2t-1 deal."
  },
  {
   "property": "C108",
   "status": "partial",
   "theorems": [
    "C108_tampering_refuted",
    "C108_dealer_chooses",
    "C108_goes_through",
    "C108_exact_partial"
   ],
   "note": "REFUTED as stated: what a dealer deals is not checked against its two shares; one dealer shifts the new key by any amount it likes, computed from the numbers of the dealers alone (C108_dealer_chooses), and the update goes through with consistent shares. Proved: the new servers hold shares of one key, which is the product exactly if the dealer adds nothing."
  },
  {
   "property": "C109",
   "status": "partial",
   "theorems": [
    "C109_quorums_agree_refuted",
    "C109_right_quorums_partial",
    "C109_goes_through"
   ],
   "note": "REFUTED as stated: toprf_mpc_mul_finish has nothing to check a received share against, so one dealer spoils the share of one server of its choice. Proved: exactly the quorums without that server put together the product; every quorum with it, of any size, puts together something else (unless nothing was added)."
  },
  {
   "property": "C110",
   "status": "partial",
   "theorems": [
    "C110_noticed_refuted",
    "C110_delta_partial",
    "C110_clients_partial",
    "C110_server_chooses"
   ],
   "note": "REFUTED as stated: dkg_reconstruct takes any shares and cannot fail, even if more than the threshold are reported; the server shifts delta by any amount it chooses (C110_server_chooses) and the client ends with a wrong result without an error. Proved: delta, and what the client then has, are right exactly if no reported share is wrong."
  },
  {
   "property": "C111",
   "status": "proved",
   "theorems": [
    "C111_key_put_together",
    "C111_goes_through",
    "C111_one_wrong_share"
   ],
   "note": "For 3hashtdh the masking shares of 0 are those of one sharing, with at least its threshold of servers asked."
  },
  {
   "property": "C112",
   "status": "proved",
   "theorems": [
    "C112_mixed_sessions",
    "C112_sessions_apart"
   ],
   "note": "C112_mixed_sessions is exact (right if and only if the server is not asked or the two masks coincide); the absence of a collision on the two inputs named is a hypothesis of C112_sessions_apart."
  },
  {
   "property": "C113",
   "status": "proved",
   "theorems": [
    "C113_two_keys",
    "C113_right_masks",
    "C113_one_wrong_mask"
   ],
   "note": "For answers none of which is the identity; with such an answer toprf_thresholdmult returns an error."
  }
 ]
}

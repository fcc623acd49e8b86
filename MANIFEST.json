{
 "claims": [
  {
   "property": "C01",
   "status": "proved",
   "theorems": [
    "C01_round_trip",
    "C01_round_trip_any_state"
   ],
   "note": "All key materials, roles, histories; all environments."
  },
  {
   "property": "C02",
   "status": "proved",
   "theorems": [
    "C02_C03_stream_conforms",
    "C02_bodies_conform"
   ],
   "note": ""
  },
  {
   "property": "C03",
   "status": "proved",
   "theorems": [
    "C02_C03_stream_conforms"
   ],
   "note": ""
  },
  {
   "property": "C04",
   "status": "proved",
   "theorems": [
    "C04_length_counter_debug",
    "C04_length_counter_release",
    "C04_prefix_conformance_refuted"
   ],
   "note": "Debug: panic at packet 2^32. Release: exact prefix given; _refuted theorem shows deviation from BIP-324 (witness environment)."
  },
  {
   "property": "C05",
   "status": "proved",
   "theorems": [
    "C05_packet_nonces_unique",
    "C05_rekey_nonces_disjoint",
    "C05_rekey_nonces_unique",
    "C05_length_positions_disjoint"
   ],
   "note": "Nonces are those the cipher state uses before each packet; length positions for the first 2^32 packets."
  },
  {
   "property": "C06",
   "status": "proved",
   "theorems": [
    "C06_encrypt_contract",
    "C06_packet_size"
   ],
   "note": ""
  },
  {
   "property": "C07",
   "status": "proved",
   "theorems": [
    "C07_oversize_misframed",
    "C07_oversize_unreadable",
    "C07_accepted_is_readable_refuted"
   ],
   "note": "The code misbehaves; proved for all oversize contents, plus refutation of the natural expectation."
  },
  {
   "property": "C08",
   "status": "proved",
   "theorems": [
    "C08_packet_len_range",
    "C08_packet_len_exact",
    "C08_packet_len_injective"
   ],
   "note": ""
  },
  {
   "property": "C09",
   "status": "proved",
   "theorems": [
    "C09_accept_iff",
    "C09_accepted_is_encryption",
    "C09_accepted_matches_sender",
    "C09_tampered_tag_rejected"
   ],
   "note": ""
  },
  {
   "property": "C10",
   "status": "proved",
   "theorems": [
    "C10_failed_in_place",
    "C10_failed_decrypt",
    "C10_failed_vec"
   ],
   "note": ""
  },
  {
   "property": "C11",
   "status": "proved",
   "theorems": [
    "C11_decrypt_agree"
   ],
   "note": ""
  },
  {
   "property": "C12",
   "status": "proved",
   "theorems": [
    "C12_in_place_too_small_iff",
    "C12_decrypt_size_errors",
    "C12_vec_size_errors",
    "C12_vec_short",
    "C12_documented_error_refuted"
   ],
   "note": "decrypt_to_vec misreports inputs shorter than 16 bytes; proved exactly, documented behaviour refuted."
  },
  {
   "property": "C13",
   "status": "proved",
   "theorems": [
    "C13_replay_needs_collision"
   ],
   "note": ""
  },
  {
   "property": "C14",
   "status": "proved",
   "theorems": [
    "C14_no_panic"
   ],
   "note": ""
  },
  {
   "property": "C15",
   "status": "proved",
   "theorems": [
    "C15_mirror",
    "C15_directions_independent"
   ],
   "note": ""
  },
  {
   "property": "C16",
   "status": "proved",
   "theorems": [
    "C16_header_bytes",
    "C16_from_byte_decoy_iff",
    "C16_bip_flag_refuted"
   ],
   "note": "The code deviates from the BIP for 127 header values; proved."
  },
  {
   "property": "C17",
   "status": "proved",
   "theorems": [
    "C17_send_key"
   ],
   "note": ""
  },
  {
   "property": "C18",
   "status": "proved",
   "theorems": [
    "C18_v1_detection",
    "C18_honest_v2_peer_never_v1_refuted"
   ],
   "note": "Exact condition; the refutation records that an honest V2 peer can be mistaken for V1."
  },
  {
   "property": "C19",
   "status": "proved",
   "theorems": [
    "C19_derivation",
    "C19_derivation_unique"
   ],
   "note": ""
  },
  {
   "property": "C20",
   "status": "proved",
   "theorems": [
    "C20_same_session"
   ],
   "note": "Assumes the ECDH agreement law EcdhAgrees of the secp256k1 primitive."
  },
  {
   "property": "C21",
   "status": "proved",
   "theorems": [
    "C21_send_version",
    "C21_send_version_small",
    "C21_send_version_len"
   ],
   "note": "Layout stated against SpecHandshake.v for up to 2^32-2 decoys."
  },
  {
   "property": "C22",
   "status": "proved",
   "theorems": [
    "C22_garbage_exact",
    "C22_garbage_total"
   ],
   "note": ""
  },
  {
   "property": "C23",
   "status": "proved",
   "theorems": [
    "C23_garbage_chunks",
    "C23_garbage_stable"
   ],
   "note": ""
  },
  {
   "property": "C24",
   "status": "proved",
   "theorems": [
    "C24_version_accepts",
    "C24_version_outcome",
    "C24_version_error",
    "C24_version_phase",
    "C24_garbage_authenticated"
   ],
   "note": ""
  },
  {
   "property": "C25",
   "status": "proved",
   "theorems": [
    "C25_honest_handshake",
    "C25_after_handshake",
    "C25_any_garbage_completes_refuted"
   ],
   "note": "Assumes EcdhAgrees. Terminator-in-garbage exception stated exactly; refutation shows it is real."
  },
  {
   "property": "C26",
   "status": "proved",
   "theorems": [
    "C26_no_panic_remote",
    "C26_no_panic_calls"
   ],
   "note": "In builds with overflow checks: fewer than 2^35 bytes of handshake data (u32 chunk counter, see C04)."
  },
  {
   "property": "C27",
   "status": "proved",
   "theorems": [
    "C27_segmentation",
    "C27_drivers_agree",
    "C27_interrupted_refuted"
   ],
   "note": "Streams up to the first error or close; Interrupted excluded for the synchronous driver, where the refutation shows that it matters."
  },
  {
   "property": "C28",
   "status": "proved",
   "theorems": [
    "C28_no_byte_lost",
    "C28_reader_delivers",
    "C28_reader_exact"
   ],
   "note": "For every script, including errors and interruptions."
  },
  {
   "property": "C29",
   "status": "proved",
   "theorems": [
    "C29_two_endpoints"
   ],
   "note": "Assumes EcdhAgrees; healthy writers; garbage free of the own terminator (see C25)."
  },
  {
   "property": "C30",
   "status": "proved",
   "theorems": [
    "C30_writes",
    "C30_no_deadlock"
   ],
   "note": "Deadlock freedom stated as: if each side received exactly what the other wrote, both completed. Assumes EcdhAgrees."
  },
  {
   "property": "C31",
   "status": "proved",
   "theorems": [
    "C31_truncated",
    "C31_end_errors",
    "C31_suggestions",
    "C31_handshake_errors",
    "C31_established",
    "C31_retry_means_v1_refuted"
   ],
   "note": "Refutation: RetryV1 is also suggested when an established V2 session ends."
  },
  {
   "property": "C32",
   "status": "proved",
   "theorems": [
    "C32_handshake_allocs",
    "C32_handshake_refuses",
    "C32_established",
    "C32_announced_size",
    "C32_allocation_limit_refuted"
   ],
   "note": "Handshake refuses before allocation; established synchronous sessions do not, refuted for those."
  },
  {
   "property": "C33",
   "status": "proved",
   "theorems": [
    "C33_reads_decode",
    "C33_reads_sound",
    "C33_end"
   ],
   "note": ""
  },
  {
   "property": "C34",
   "status": "proved",
   "theorems": [
    "C34_part_is_lost",
    "C34_tokio_keeps",
    "C34_resumable_refuted"
   ],
   "note": "Exact loss for every cut; resumability refuted; tokio reader shown to keep the part."
  },
  {
   "property": "C35",
   "status": "proved",
   "theorems": [
    "C35_in_order",
    "C35_all_arrive",
    "C35_cancel_irrelevant",
    "C35_total"
   ],
   "note": ""
  },
  {
   "property": "C36",
   "status": "proved",
   "theorems": [
    "C36_readers_agree"
   ],
   "note": "One read of both readers on the same stream; the result satisfies the hypotheses again, so it iterates."
  },
  {
   "property": "C37",
   "status": "proved",
   "theorems": [
    "C37_progress",
    "C37_closed",
    "C37_failure_repeats"
   ],
   "note": ""
  },
  {
   "property": "C38",
   "status": "proved",
   "theorems": [
    "C38_one_packet",
    "C38_failed_write",
    "C38_healthy",
    "C38_flushed",
    "C38_ok_is_delivered_refuted"
   ],
   "note": "Refutation: an Ok write after a failed one is never read by the peer, however often it reads."
  },
  {
   "property": "C39",
   "status": "proved",
   "theorems": [
    "C39_accessors",
    "C39_read_payloads"
   ],
   "note": ""
  },
  {
   "property": "C40",
   "status": "proved",
   "theorems": [
    "C40_terminates"
   ],
   "note": ""
  },
  {
   "property": "C41",
   "status": "proved",
   "theorems": [
    "C41_handshake",
    "C41_garbage_accepted",
    "C41_decoys",
    "C41_padding"
   ],
   "note": "The random source is any function whose gen_range stays in its range and whose fill_bytes fills the buffer."
  },
  {
   "property": "C42",
   "status": "proved",
   "theorems": [
    "C42_shaper",
    "C42_connect",
    "C42_blocking",
    "C42_task"
   ],
   "note": "Both drivers; the shaped handshake equals the plain one as a function."
  },
  {
   "property": "C43",
   "status": "proved",
   "theorems": [
    "C43_blocks",
    "C43_inside",
    "C43_wire",
    "C43_peer",
    "C43_no_panic"
   ],
   "note": "Schedules over an interleaving model with the mutex; a write is one step under the lock. Atomics sequentially consistent."
  },
  {
   "property": "C44",
   "status": "proved",
   "theorems": [
    "C44_stops",
    "C44_terminates",
    "C44_after"
   ],
   "note": "At most five further moves of the thread; a moving thread is never stuck, so join returns."
  },
  {
   "property": "C45",
   "status": "proved",
   "theorems": [
    "C45_in_order",
    "C45_own_result",
    "C45_progress"
   ],
   "note": "select! with random branch order and disabled branches; awaits inside a branch are not split (only the task uses writer and shaper)."
  },
  {
   "property": "C46",
   "status": "proved",
   "theorems": [
    "C46_never_exits",
    "C46_else_never_taken",
    "C46_keeps_emitting",
    "C46_exits_without_senders_refuted"
   ],
   "note": "Exit is unreachable from every schedule; refutation of the comment at futures.rs:247."
  },
  {
   "property": "C47",
   "status": "proved",
   "theorems": [
    "C47_thread",
    "C47_task",
    "C47_ok_is_delivered_refuted",
    "C47_task_ok_is_delivered_refuted"
   ],
   "note": "The swallowed error for every failure point inside a decoy; undeliverability shown by witness for both drivers (the general claim would need authenticity of the MAC)."
  },
  {
   "property": "C48",
   "status": "proved",
   "theorems": [
    "C48_sums",
    "C48_ratio",
    "C48_idle",
    "C48_latest_refuted"
   ],
   "note": "Interleavings of the individual atomic operations of any number of threads. The stored time need not be the latest (refuted)."
  },
  {
   "property": "C49",
   "status": "proved",
   "theorems": [
    "C49_handshake",
    "C49_calls",
    "C49_reads",
    "C49_total",
    "C49_counted_is_written_refuted"
   ],
   "note": "Recording precedes the write; refutation shows failed writes are counted."
  },
  {
   "property": "C50",
   "status": "proved",
   "theorems": [
    "C50_filter_genuine"
   ],
   "note": ""
  },
  {
   "property": "C51",
   "status": "proved",
   "theorems": [
    "C51_encrypts_first",
    "C51_dropped",
    "C51_awaited",
    "C51_cancel_safe_refuted"
   ],
   "note": "Refutation of cancellation safety with a witness environment."
  },
  {
   "property": "C52",
   "status": "proved",
   "theorems": [
    "C52_into_inner",
    "C52_any_time_refuted"
   ],
   "note": "Proved between packets, refuted inside packets."
  },
  {
   "property": "C53",
   "status": "proved",
   "theorems": [
    "C53_handshake_no_panic",
    "C53_sync_no_panic",
    "C53_tokio_no_panic"
   ],
   "note": "Bounds on the counters only in builds with overflow checks (see C04)."
  },
  {
   "property": "C54",
   "status": "proved",
   "theorems": [
    "C54_shaped_session"
   ],
   "note": "Assumes EcdhAgrees. Garbage containing its own terminator is the exception stated in C25."
  },
  {
   "property": "C55",
   "status": "proved",
   "theorems": [
    "C55_new",
    "C55_key_sent"
   ],
   "note": "Validity of a secret key is the abstract predicate sk_valid of the environment."
  },
  {
   "property": "C56",
   "status": "proved",
   "theorems": [
    "C56_like_unsplit",
    "C56_wire",
    "C56_progress",
    "C56_kill_between_packets_refuted"
   ],
   "note": "At most 2^31 events where overflow checks are on; payloads whose accessors do not panic."
  },
  {
   "property": "C57",
   "status": "proved",
   "theorems": [
    "C57_abandoned_writes_are_sent"
   ],
   "note": "Transport without failures; contents the peer's reader accepts."
  },
  {
   "property": "C58",
   "status": "proved",
   "theorems": [
    "C58_blocking",
    "C58_async_reads",
    "C58_async_writes",
    "C58_in_order",
    "C58_no_panic",
    "C58_dropped_write_refuted"
   ],
   "note": "The asynchronous statement is about sequences of uses the borrow checker allows: one future at a time. Dropped writes are the exception (refuted without it, as in C51)."
  },
  {
   "property": "C59",
   "status": "proved",
   "theorems": [
    "C59_reader",
    "C59_writer",
    "C59_raw_reads",
    "C59_raw_polls",
    "C59_leftover_first"
   ],
   "note": "Blocking reader; the asynchronous reader's into_inner is C52. Buffers of size 0 are left out of the raw reads."
  },
  {
   "property": "C60",
   "status": "proved",
   "theorems": [
    "C60_never_stuck",
    "C60_write_returns",
    "C60_own_moves",
    "C60_after_panic",
    "C60_bounded_wait_refuted"
   ],
   "note": "Schedules over the interleaving model of C43; bounded waiting refuted."
  },
  {
   "property": "C61",
   "status": "proved",
   "theorems": [
    "C61_oversized_decoy",
    "C61_sender_unaware",
    "C61_accepted_is_acceptable_refuted"
   ],
   "note": "Assumes EcdhAgrees; garbage that contains its own terminator early is excluded as in C25. The refutation is the theorem at a decoy of 4000000 bytes."
  },
  {
   "property": "C62",
   "status": "proved",
   "theorems": [
    "C62_async",
    "C62_blocking",
    "C62_counted_once"
   ],
   "note": "The clock inside record_read is not in the model (C48)."
  },
  {
   "property": "C63",
   "status": "proved",
   "theorems": [
    "C63_steps",
    "C63_pipes",
    "C63_plain",
    "C63_shaped",
    "C63_decoys",
    "C63_reliable_transport_completes_refuted"
   ],
   "note": "Assumes EcdhAgrees; garbage that contains its own terminator early is excluded as in C25. HsSteps.v cuts the handshake at every transport call; C63_steps shows it is the handshake of Io.v."
  },
  {
   "property": "C64",
   "status": "proved",
   "theorems": [
    "C64_builders",
    "C64_handshake",
    "C64_pad",
    "C64_decoy",
    "C64_overhead",
    "C64_padding_is_separate",
    "C64_padding_follows_refuted",
    "C64_handshake_bytes"
   ],
   "note": "The overhead bound is for transports that work; sessions of either driver reach it through C43_blocks and C45_in_order. Write and flush calls are what an observer below the library sees."
  },
  {
   "property": "C65",
   "status": "proved",
   "theorems": [
    "C65_calls",
    "C65_bytes",
    "C65_reads",
    "C65_polls"
   ],
   "note": "Unforgeability of Poly1305 is not assumed: the forgery is the other side of a disjunction. C65_bytes needs the receiver to be in step with the sender in both ciphers, C65_reads and C65_polls only in the packet cipher."
  },
  {
   "property": "C66",
   "status": "proved",
   "theorems": [
    "C66_session"
   ],
   "note": "Assumes EcdhAgrees. The keys themselves are not authenticated in BIP-324; altered keys are outside this statement."
  },
  {
   "property": "C67",
   "status": "proved",
   "theorems": [
    "C67_plain",
    "C67_shaped"
   ],
   "note": "The keys themselves are not authenticated by BIP-324: the attacker is assumed to pass the two 64-byte keys on. The schedule of a blocking shaped writer ends with the mutex free."
  },
  {
   "property": "C68",
   "status": "proved",
   "theorems": [
    "C68_any_moment",
    "C68_handshake",
    "C68_independent",
    "C68_responder_waits_refuted"
   ],
   "note": "The moments are the write, flush and read calls of HsSteps.v, which C63_steps shows to be the handshake. Decoys: fewer than 2^32 - 1."
  },
  {
   "property": "C69",
   "status": "proved",
   "theorems": [
    "C69_from_seed",
    "C69_oblivious"
   ],
   "note": "For payloads whose contents can be read (all but an empty Decrypted one) and fewer than 2^32 packets. The schedule of a blocking writer ends with the mutex free. Time is not in the model: that the ticks do not depend on the data is assumed."
  },
  {
   "property": "C70",
   "status": "proved",
   "theorems": [
    "C70_position",
    "C70_writes",
    "C70_shaped_writes",
    "C70_gap",
    "C70_async",
    "C70_torn_packet_is_lost_refuted"
   ],
   "note": "The reader's packet cipher is in step with the writer's before the first message; C25, C29 and C66 provide that after a handshake. Writes are whole calls; abandoned asynchronous writes are C51."
  },
  {
   "property": "C71",
   "status": "proved",
   "theorems": [
    "C71_unshaped",
    "C71_decoys_deadlock",
    "C71_small_messages_arrive_refuted"
   ],
   "note": "One thread per application, which writes and reads in turn; the case of a reading thread is C72. 'Can go on to its end' and not 'comes to its end': scheduling is not assumed fair, and the decoy thread never ends. Padding is off in the positive statement; the drawn padding would only add to what the transports must hold."
  },
  {
   "property": "C72",
   "status": "proved",
   "theorems": [
    "C72_reader_thread",
    "C72_drop_waits",
    "C72_drop_returns_refuted"
   ],
   "note": "Fewer than 2^32 - 8 packets. 'Can return' and not 'returns': scheduling is not assumed fair. Behind into_split the two directions share nothing but the statistics, so one direction is the general case."
  },
  {
   "property": "C73",
   "status": "proved",
   "theorems": [
    "C73_taking_peer",
    "C73_decoys_stall",
    "C73_small_messages_arrive_refuted"
   ],
   "note": "Fewer than 2^32 packets. 'Can come': fair polling is not assumed. The transport flushes at once and never fails."
  },
  {
   "property": "C74",
   "status": "proved",
   "theorems": [
    "C74_as_if_later",
    "C74_stale_loads",
    "C74_drop_returns",
    "C74_bounded_after_store_refuted"
   ],
   "note": "Staleness is that of one location stored to once (coherence); everything else the threads share is ordered by the mutex and by join."
  },
  {
   "property": "C75",
   "status": "proved",
   "theorems": [
    "C75_fine_clock",
    "C75_blocking",
    "C75_blocking_after",
    "C75_task",
    "C75_read",
    "C75_counts",
    "C75_read_again_refuted",
    "C75_recorded_is_written_refuted",
    "C75_new"
   ],
   "note": "Fewer than 2^32 packets. The awaits inside the writer task are not split here; C115 splits them."
  },
  {
   "property": "C76",
   "status": "proved",
   "theorems": [
    "C76_write",
    "C76_write_returns",
    "C76_drop",
    "C76_weakly_fair_write_refuted",
    "C76_task",
    "C76_polled_enough_refuted"
   ],
   "note": "Transport calls return (a transport that blocks for ever is C71, C72 and C73). The task's awaits are not split here; see C56 for them."
  },
  {
   "property": "C77",
   "status": "proved",
   "theorems": [
    "C77_no_panic",
    "C77_receive_key",
    "C77_receive_garbage",
    "C77_invalid_key_refuted",
    "C77_incomplete_garbage_refuted"
   ],
   "note": "The keys StdRng gives for the fixed seeds are not computed: their validity is a hypothesis. Agreement of ECDH is a hypothesis for the outcomes of receive_garbage."
  },
  {
   "property": "C78",
   "status": "proved",
   "theorems": [
    "C78_bounds",
    "C78_settled",
    "C78_monotone",
    "C78_one_moment_refuted",
    "C78_invariant_refuted",
    "C78_since_creation",
    "C78_default",
    "C78_default_since_creation_refuted"
   ],
   "note": "Refutations: the pair is not a snapshot; default() does not count the idle time from the creation as documented."
  },
  {
   "property": "C79",
   "status": "proved",
   "theorems": [
    "C79_ratio",
    "C79_below_2_53",
    "C79_equal",
    "C79_comparison_refuted"
   ],
   "note": "f64 is the binary64 of the standard library's SpecFloat (definitions only), rounding to nearest, ties to even. Refutation: for counters above 2^53 a ratio of 1 can hide that less was written than read."
  },
  {
   "property": "C80",
   "status": "proved",
   "theorems": [
    "C80_contents",
    "C80_both_directions",
    "C80_chosen",
    "C80_any_stream",
    "C80_same_keys_refuted"
   ],
   "note": "Confidentiality in the sense of perfect secrecy relative to an unknown key stream: that ChaCha20 looks like one is not modelled. The key streams of the toy and of RFC 8439 are shown to split as required. Refutation: without the hypothesis that the keys differ, messages of equal length can be told apart."
  },
  {
   "property": "C81",
   "status": "proved",
   "theorems": [
    "C81_past_hidden",
    "C81_epoch_exposed",
    "C81_future_exposed",
    "C81_safe_once_sent_refuted"
   ],
   "note": "That the overwritten key is gone from memory is not modelled. The receiver is in the same state (C01). Refutation: up to 223 messages already sent are exposed by the state."
  },
  {
   "property": "C82",
   "status": "proved",
   "theorems": [
    "C82_reuse",
    "C82_hidden_refuted",
    "C82_one_transport",
    "C82_inbound"
   ],
   "note": "Clone copies keys and counters; nothing in the types prevents both values from being used. Refutation: the hiding of C80 fails for copies."
  },
  {
   "property": "C83",
   "status": "proved",
   "theorems": [
    "C83_any_bytes",
    "C83_sizes"
   ],
   "note": "Whether ChaCha20, Poly1305, HKDF and the ElligatorSwift encoding look random is not modelled; as in C80 the length keys of the direction have to differ from the packet keys. Extends C80_any_stream to the handshake."
  },
  {
   "property": "C84",
   "status": "proved",
   "theorems": [
    "C84_in_the_middle",
    "C84_session_ids",
    "C84_same_session_refuted"
   ],
   "note": "Complements C66 and C67, which need the peer's key to arrive. Nothing in the library compares session ids. Refutation: both endpoints complete with different session ids."
  },
  {
   "property": "C85",
   "status": "proved",
   "theorems": [
    "C85_tells",
    "C85_tells_task",
    "C85_hides",
    "C85_any_size_refuted"
   ],
   "note": "C64 shows what somebody learns who sees the single writes. Decoys that are on widen the window by 1023 bytes for each one sent (C64_overhead). Refutation: payloads of 0 and 1024 bytes."
  },
  {
   "property": "C86",
   "status": "proved",
   "theorems": [
    "C86_recorded",
    "C86_bounded",
    "C86_reached",
    "C86_full_reads",
    "C86_looked_at_once_refuted"
   ],
   "note": "SearchCost.v repeats the loop of Io.v with a record of the buffers; C86_recorded shows that leaving out the record gives the loop. Cost is counted in comparisons of 16-byte windows. Refutation: 4096 comparisons are not enough."
  },
  {
   "property": "C87",
   "status": "proved",
   "theorems": [
    "C87_echo",
    "C87_completes_by_coincidence",
    "C87_packet",
    "C87_own_key_refused_refuted"
   ],
   "note": "The single exception of the first step is an own key that begins with the network magic (C18). Refutation: receive_key does not refuse the endpoint's own key."
  },
  {
   "property": "C88",
   "status": "proved",
   "theorems": [
    "C88_patient",
    "C88_stalled",
    "C88_bounded_refuted"
   ],
   "note": "patient writes down what &mut self gives: every earlier write has returned. Refutation: there is no bound on the channel. What is sent of the abandoned commands later is C57."
  },
  {
   "property": "C89",
   "status": "proved",
   "theorems": [
    "C89_occupied",
    "C89_bounded_refuted"
   ],
   "note": "The counter limit of C04 applies if overflow checks are on. Refutation: there is no bound. The application has to limit the time of Protocol::new itself."
  },
  {
   "property": "C90",
   "status": "proved",
   "theorems": [
    "C90_blocking",
    "C90_one_call",
    "C90_async",
    "C90_patient",
    "C90_one_held_refuted"
   ],
   "note": "Refutation: one borrow at a time does not bound what is held for the writer by one command, since the future of a write may be dropped and its command stays."
  },
  {
   "property": "C91",
   "status": "proved",
   "theorems": [
    "C91_flipped",
    "C91_chosen",
    "C91_waits",
    "C91_noticed",
    "C91_noticed_at_once_refuted"
   ],
   "note": "BIP-324 accepts this for the length; the size allocated before is C32's. Refutation: an altered length is not noticed at once."
  },
  {
   "property": "C92",
   "status": "proved",
   "theorems": [
    "C92_bufreader",
    "C92_handshake",
    "C92_read",
    "C92_polls",
    "C92_in_order",
    "C92_few_calls",
    "C92_two_calls"
   ],
   "note": "Makes scripts stand for every reader. The asynchronous statement asks that the counters do not overflow, as C35."
  },
  {
   "property": "C93",
   "status": "proved",
   "theorems": [
    "C93_bufwriter",
    "C93_plain",
    "C93_handshake",
    "C93_write",
    "C93_sent_after_all",
    "C93_error_means_unsent_refuted"
   ],
   "note": "Makes writer scripts stand for every writer."
  },
  {
   "property": "C94",
   "status": "proved",
   "theorems": [
    "C94_by_coincidence",
    "C94_fresh_key",
    "C94_same_key",
    "C94_replay_refused_refuted"
   ],
   "note": "Key generation is outside the model; new_with_rng takes the generator from the caller."
  },
  {
   "property": "C95",
   "status": "proved",
   "theorems": [
    "C95_handshake",
    "C95_session",
    "C95_reads",
    "C95_three_bytes",
    "C95_memory_follows_input_refuted"
   ],
   "note": "Counted are the sizes the buffers are allocated with. Not counted: the temporary 256 bytes, the garbage buffer that stays in scope behind the handshake's garbage phase (at most 4366), the plaintext of a packet while it is opened, and what the endpoint sends."
  },
  {
   "property": "C96",
   "status": "proved",
   "theorems": [
    "C96_strangers",
    "C96_for_ever",
    "C96_reported_refuted"
   ],
   "note": "Whether the terminators coincide is up to the hash functions, so the theorem assumes they do not; that the keys are derived from different inputs is part of the statement (keys_of). The V1 check of the key is assumed to pass. A transport closed by the peer, or a timeout of the caller, is what ends the wait."
  },
  {
   "property": "C97",
   "status": "proved",
   "theorems": [
    "C97_same",
    "C97_task_rate",
    "C97_task_catches_up",
    "C97_thread_spacing",
    "C97_task_spacing_refuted"
   ],
   "note": "tokio's interval with its default MissedTickBehavior::Burst and thread::sleep are modelled by their documentation (ready at the deadline or later, never before; the next deadline one period after the last one); the 5 ms tolerance inside tokio changes nothing for Burst. The times are those at which the shaper makes the decoy, not those at which its bytes leave."
  },
  {
   "property": "C98",
   "status": "proved",
   "theorems": [
    "C98_pair",
    "C98_hello_world",
    "C98_bench",
    "C98_bench_received",
    "C98_client",
    "C98_panics",
    "C98_hello_world_always_refuted",
    "C98_client_segments_refuted"
   ],
   "note": "The tests that go through Protocol or ShapedProtocol are sessions of the I/O models and not repeated. regtest_handshake is modelled up to its CipherSession; the messages behind it go through the bitcoin crate. The honest peer of the client is the driver of C25."
  },
  {
   "property": "C99",
   "status": "proved",
   "theorems": [
    "C99_text",
    "C99_protocol_text",
    "C99_sources",
    "C99_required_encrypt",
    "C99_required_decrypt",
    "C99_required_key",
    "C99_required_version",
    "C99_numbers",
    "C99_garbage",
    "C99_own_garbage",
    "C99_4MiB_refuted",
    "C99_big_refuted",
    "C99_text_of_source",
    "C99_source_shown_refuted",
    "C99_one_stop_refuted"
   ],
   "note": "What secp256k1, hkdf, chacha20_poly1305 and std::io print is a parameter; their own sources are taken as absent. send_key and send_version take the handshake by value, so that trying again needs a size asked for beforehand or a new handshake; the theorem speaks of the values."
  },
  {
   "property": "C100",
   "status": "proved",
   "theorems": [
    "C100_benchmark",
    "C100_two_calls",
    "C100_few_calls",
    "C100_never_more",
    "C100_scenarios",
    "C100_always_fewer_refuted"
   ],
   "note": "Sockets are scripts and writers; listening, connecting, the clock and the printing are left out. Reads are polls of the transport. Keys whose encoding starts with the network magic are excluded as in C25."
  },
  {
   "property": "C101",
   "status": "proved",
   "theorems": [
    "C101_public_key",
    "C101_any_bytes",
    "C101_secret",
    "C101_hypotheses",
    "C101_two_endpoints"
   ],
   "note": "The curve functions are those of Rfc.v, written from BIP-324 and SEC 2, not the code of libsecp256k1. That every point has an encoding, and that the encoder finds one, is not shown: a key counts as valid if its encoding names the public key. The order of the group is not used."
  },
  {
   "property": "C102",
   "status": "proved",
   "theorems": [
    "C102_order",
    "C102_points",
    "C102_public_key",
    "C102_secret_key",
    "C102_same_key",
    "C102_exchange",
    "C102_every_secret",
    "C102_distinct",
    "C102_not_zero",
    "C102_hash_input"
   ],
   "note": "About the functions of Rfc.v, not the code of libsecp256k1. The number of the curve's points is not taken from Hasse's theorem: at most 2p + 1 points, a subgroup of prime order n with 2p + 1 < 3n and no point of order 2 leave no room for another coset. How hard it is to compute a discrete logarithm is no part of it."
  },
  {
   "property": "C103",
   "status": "proved",
   "theorems": [
    "C103_untouched",
    "C103_second_attempt",
    "C103_peer_key",
    "C103_peer_waits",
    "C103_peer_completes",
    "C103_start_over_refuted"
   ],
   "note": "What a second call can do; the documentation says only that it is not safe. A coincidental terminator and tag is not excluded, but said to be what completing takes."
  },
  {
   "property": "C104",
   "status": "proved",
   "theorems": [
    "C104_candidates",
    "C104_few",
    "C104_packets",
    "C104_attempts",
    "C104_reads",
    "C104_endpoints",
    "C104_one_message_per_tag_refuted"
   ],
   "note": "About Poly1305 and ChaCha20 as written in Rfc.v, not the code of the crate. It counts keys; that an attacker cannot do better than guess the one-time key, which comes from ChaCha20, is the assumption left."
  },
  {
   "property": "C105",
   "status": "proved",
   "theorems": [
    "C105_outcomes",
    "C105_advantage",
    "C105_repeats",
    "C105_however_often_refuted"
   ],
   "note": "Each outcome of gen_range counts the same; that the generator is uniform and unpredictable is rand's. The observer gets the count of every payload separately; one who sees less is covered, since a test may ignore part of it. The separate writes of padding and payload (C64) are not part of the view."
  },
  {
   "property": "C106",
   "status": "proved",
   "theorems": [
    "C106_terminators",
    "C106_receiver",
    "C106_keys",
    "C106_endpoints",
    "C106_whole_prefix_refuted"
   ],
   "note": "It counts strings; that keys and terminators are spread evenly over them is an assumption about ElligatorSwift and HKDF."
  },
  {
   "property": "C107",
   "status": "proved",
   "theorems": [
    "C107_task_grid",
    "C107_off_grid",
    "C107_thread_grid",
    "C107_silence",
    "C107_how_many",
    "C107_any_time_refuted"
   ],
   "note": "A punctual task or thread is the ideal case; delays of the scheduler blur the grid, and C97 says what holds with them. Each outcome of gen_range counts the same."
  },
  {
   "property": "C108",
   "status": "proved",
   "theorems": [
    "C108_writers",
    "C108_same",
    "C108_task",
    "C108_thread",
    "C108_bursts",
    "C108_tells",
    "C108_both",
    "C108_alike",
    "C108_hidden_refuted",
    "C108_follows_refuted"
   ],
   "note": "What the operating system makes of two writes shortly after each other (one segment or two) is outside the model; the statement is about what the library gives it, and when. The async task has an await between the two packets."
  },
  {
   "property": "C109",
   "status": "proved",
   "theorems": [
    "C109_turns",
    "C109_how_many",
    "C109_waits",
    "C109_punctual",
    "C109_behind",
    "C109_bound_refuted"
   ],
   "note": "The coin is the random branch tokio::select! starts with; that it is even, and that tosses are independent, is read from its documentation and not modelled. Polls of the task are given; one in which neither branch is ready changes nothing."
  },
  {
   "property": "C110",
   "status": "proved",
   "theorems": [
    "C110_task",
    "C110_thread",
    "C110_cover_mean",
    "C110_padding_mean"
   ],
   "note": "The means count the writer's own draws as even: which decoys there are by the draws out of 100 and their sizes by the draws out of 1024, each list of draws once. That the generator gives them so is not modelled. The bytes of the handshake come on top (C64)."
  },
  {
   "property": "C111",
   "status": "proved",
   "theorems": [
    "C111_waits",
    "C111_within",
    "C111_returns",
    "C111_at_once_refuted"
   ],
   "note": "Time passes only where the schedule says so: a write of the last decoy that blocks (C72) makes drop take longer, as the second claim's assumption says."
  },
  {
   "property": "C112",
   "status": "proved",
   "theorems": [
    "C112_terminators",
    "C112_search",
    "C112_handshake"
   ],
   "note": "That keys of different sessions are independent is an assumption on HKDF and ECDH that is not part of the theorem; it counts keys."
  },
  {
   "property": "C113",
   "status": "proved",
   "theorems": [
    "C113_writers",
    "C113_pair"
   ],
   "note": "The transport between the two is unbounded here; C63 bounds it."
  },
  {
   "property": "C114",
   "status": "proved",
   "theorems": [
    "C114_pipes",
    "C114_helps_refuted"
   ],
   "note": "Both directions have the same capacity, as in C63."
  },
  {
   "property": "C115",
   "status": "proved",
   "theorems": [
    "C115_not_read",
    "C115_ends_at_select",
    "C115_wire"
   ],
   "note": "Fewer than 2^32 packets."
  },
  {
   "property": "C116",
   "status": "proved",
   "theorems": [
    "C116_no_panic",
    "C116_blocking",
    "C116_blocking_after",
    "C116_task",
    "C116_panic_ends",
    "C116_error_means_unsent_refuted"
   ],
   "note": "Fewer than 2^32 packets. The transport does what its script says until it panics; the runtime catches the panic of the task, as tokio does by default."
  },
  {
   "property": "C117",
   "status": "proved",
   "theorems": [
    "C117_how_many",
    "C117_plain",
    "C117_blocking",
    "C117_task",
    "C117_write_returns_refuted"
   ],
   "note": "Only with overflow checks; in a release build the counter wraps (C04). The task is at its select!; inside a branch it first finishes the packet it is writing."
  },
  {
   "property": "C118",
   "status": "proved",
   "theorems": [
    "C118_how_many",
    "C118_blocking",
    "C118_async",
    "C118_never_panics_refuted"
   ],
   "note": "Only with overflow checks; in a release build the counter wraps on both sides (C04)."
  },
  {
   "property": "C119",
   "status": "proved",
   "theorems": [
    "C119_only",
    "C119_decided",
    "C119_v1_peer",
    "C119_one_message",
    "C119_v1_gets_retry_refuted"
   ],
   "note": "Pairs with C18, which is about receive_key alone, and C31, about streams that end early."
  },
  {
   "property": "C120",
   "status": "proved",
   "theorems": [
    "C120_only",
    "C120_all_occur",
    "C120_documented",
    "C120_listed",
    "C120_handshake_documented_refuted",
    "C120_listed_occurs_refuted"
   ],
   "note": "Pairs with C12, which says when the size errors occur, and C99, what the texts say."
  },
  {
   "property": "C121",
   "status": "proved",
   "theorems": [
    "C121_blocking",
    "C121_task",
    "C121_task_gone",
    "C121_connect",
    "C121_connect_all",
    "C121_suggestion_by_kind_refuted"
   ],
   "note": "Pairs with C120, the errors of the plain functions; C116 and C117 say when the task ends by a panic."
  }
 ]
}
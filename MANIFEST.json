{
 "claims": [
  {
   "property": "C01",
   "status": "proved",
   "theorems": [
    "C01_extend_congruent_nearest",
    "C01_extend_recovers",
    "C01_extend_first",
    "C01_every_counter_recovers"
   ],
   "note": "Stated for the wire value and any previous 64-bit counter below 2^63."
  },
  {
   "property": "C02",
   "status": "proved",
   "theorems": [
    "C02_accepted_at_most_once",
    "C02_accepts_predicts_update",
    "C02_never_accepts_a_seen_number",
    "C02_window_bounded",
    "C02_max_seq_is_maximum"
   ],
   "note": "Numbers below 2^54, as the stream bounds them."
  },
  {
   "property": "C03",
   "status": "proved",
   "theorems": [
    "C03_asked_at_most_five_times",
    "C03_report_names_exactly_the_missing"
   ],
   "note": ""
  },
  {
   "property": "C04",
   "status": "partial",
   "theorems": [
    "C04_nothing_missing_is_forgotten_partial",
    "C04_completeness_refuted"
   ],
   "note": "Full completeness is false: a forward jump of more than 101 makes missing numbers leave the window early (C04_completeness_refuted). Proved for jumps the window can hold."
  },
  {
   "property": "C05",
   "status": "proved",
   "theorems": [
    "C05_entry_meaning",
    "C05_sender_reads_the_missing_numbers"
   ],
   "note": ""
  },
  {
   "property": "C06",
   "status": "partial",
   "theorems": [
    "C06_report_counts_the_missing",
    "C06_loss_fits_the_wire",
    "C06_fraction_of_interval_partial",
    "C06_fraction_refuted",
    "C06_negative_clamp_refuted"
   ],
   "note": "The count of missing numbers is proved in full; the interval fraction is false when late packets make the interval loss negative (C06_fraction_refuted), and the negative clamp constant has one digit too many (C06_negative_clamp_refuted, not reachable from an ordinary start)."
  },
  {
   "property": "C07",
   "status": "proved",
   "theorems": [
    "C07_get_returns_last_push",
    "C07_contains",
    "C07_contains_exact",
    "C07_contains_other_position_refuted",
    "C07_backwards_clock_refuted"
   ],
   "note": ""
  },
  {
   "property": "C08",
   "status": "partial",
   "theorems": [
    "C08_count_bounded",
    "C08_recent_packets_are_retained",
    "C08_expired_packets_are_gone_partial",
    "C08_expiry_refuted",
    "C08_retention_with_gaps_refuted"
   ],
   "note": "Count limit and retention proved; expiry is false after packets were overwritten (C08_expiry_refuted) and retention is false for numbers with gaps (C08_retention_with_gaps_refuted)."
  },
  {
   "property": "C09",
   "status": "partial",
   "theorems": [
    "C09_smaller_lookup_is_sound",
    "C09_smaller_lookup_finds_partial",
    "C09_smaller_lookup_refuted",
    "C09_panics_exactly_on_oversize"
   ],
   "note": "Soundness and the exact panic conditions proved; completeness is false after overwriting (C09_smaller_lookup_refuted)."
  },
  {
   "property": "C10",
   "status": "proved",
   "theorems": [
    "C10_queue_is_a_fifo_with_exact_accounting",
    "C10_nothing_lost_or_reordered",
    "C10_timeout_releases_everything",
    "C10_asks_for_timeout"
   ],
   "note": ""
  },
  {
   "property": "C11",
   "status": "partial",
   "theorems": [
    "C11_frames_genuine",
    "C11_order_in_order_arrival_partial",
    "C11_order_hold_back_one_partial",
    "C11_padding_bounded",
    "C11_order_refuted"
   ],
   "note": "Genuineness and absence of panics proved for all histories and codecs. Order is false in general (C11_order_refuted: the look-ahead cache is keyed by queue position); proved for increasing arrival and for hold_back=1."
  },
  {
   "property": "C12",
   "status": "partial",
   "theorems": [
    "C12_vp8_decisions",
    "C12_vp9_decisions_partial",
    "C12_vp9_wrap_refuted",
    "C12_vp9_base_wrap_refuted",
    "C12_sequence_gaps_in_order",
    "C12_sequence_gaps_hold_back_one"
   ],
   "note": "VP8 decisions proved right for every layering, loss pattern and wrap. VP9 only until a wire number wraps: after picture id 32767 every frame is dropped for ever (C12_vp9_wrap_refuted). Sequence-number contiguity proved for codecs that accept every payload, under the arrival conditions of C11."
  },
  {
   "property": "C13",
   "status": "proved",
   "theorems": [
    "C13_rebase_rounds_down",
    "C13_rebase_to_multiple_lossless",
    "C13_rebase_monotone",
    "C13_comparison",
    "C13_comparison_antisymmetric",
    "C13_equality_transitive_refuted",
    "C13_checked_sub",
    "C13_add",
    "C13_duration_round_trip",
    "C13_overflow_refuted"
   ],
   "note": "Ordering and rebase exact within 64 bits; the *_refuted theorems are witnesses of extra facts (Eq is not transitive across frequencies, rebase wraps past 64 bits)."
  },
  {
   "property": "C14",
   "status": "proved",
   "theorems": [
    "C14_parse_never_panics",
    "C14_round_trip",
    "C14_csrc_exact",
    "C14_no_extension_refuted"
   ],
   "note": "Round trip for headers with has_extension=true (the only ones str0m sends); C14_no_extension_refuted shows the writer ignores has_extension=false."
  },
  {
   "property": "C15",
   "status": "proved",
   "theorems": [
    "C15_unpad_safe",
    "C15_unpad_padded",
    "C15_unpad_rejects",
    "C15_padding_packet",
    "C15_rtx_sequence_number"
   ],
   "note": ""
  },
  {
   "property": "C16",
   "status": "proved",
   "theorems": [
    "C16_round_trip_voice",
    "C16_round_trip_exact",
    "C16_voice_activity_refuted",
    "C16_parse_total",
    "C16_unknown_skipped",
    "C16_unknown_skipped_two_byte",
    "C16_lookup_range",
    "C16_empty_mid_refuted",
    "C16_absolute_send_time",
    "C16_resolve_total",
    "C16_id_text"
   ],
   "note": "Proved in full for the exact claim (C16_round_trip_exact); C16_voice_activity_refuted: the voice activity flag does not survive; C16_empty_mid_refuted: an empty mid is not read."
  },
  {
   "property": "C17",
   "status": "proved",
   "theorems": [
    "C17_classify",
    "C17_unique",
    "C17_rtp_own"
   ],
   "note": "Every datagram; the classification is compared with an RFC 7983 table."
  },
  {
   "property": "C18",
   "status": "proved",
   "theorems": [
    "C18_protect_conforms",
    "C18_unprotect_exact",
    "C18_round_trip",
    "C18_iv_unique",
    "C18_iv_beyond_48_bits_refuted",
    "C18_session_keys",
    "C18_session_keys_ok",
    "C18_labels_separate",
    "C18_end_to_end"
   ],
   "note": "Primitives (AES block, HMAC-SHA1, GCM seal/open) are parameters with the laws of prims_ok (sizes; open accepts exactly sealed texts). IV uniqueness for indices below 2^48; C18_iv_beyond_48_bits_refuted shows the bound is needed."
  },
  {
   "property": "C19",
   "status": "proved",
   "theorems": [
    "C19_fresh_index",
    "C19_iv_unique",
    "C19_index_wraps_refuted",
    "C19_unprotect_exact",
    "C19_round_trip",
    "C19_feedback_fits_partial",
    "C19_feedback_fits_refuted"
   ],
   "note": "Primitives are parameters. Extra size claim: C19_feedback_fits_partial (proved unless the MTU is divisible by 4 with GCM), C19_feedback_fits_refuted (the assert in session.rs:981 then panics), C19_index_wraps_refuted (after 2^31 packets)."
  },
  {
   "property": "C20",
   "status": "proved",
   "theorems": [
    "C20_pack",
    "C20_reports_first",
    "C20_peer_reads",
    "C20_drain",
    "C20_blocking_refuted",
    "C20_text"
   ],
   "note": "Packing, draining, reports-first and what the peer reads are proved for every queue and size; C20_blocking_refuted: an item that never fits blocks the queue behind it."
  },
  {
   "property": "C21",
   "status": "proved",
   "theorems": [
    "C21_no_panic",
    "C21_roundtrip",
    "C21_roundtrip_exact",
    "C21_exact_unless",
    "C21_remb_precision",
    "C21_write_length",
    "C21_remb_zero_refuted",
    "C21_empty_refuted",
    "C21_long_sdes_refuted",
    "C21_invalid_utf8_refuted"
   ],
   "note": "No panic for every byte string; C21_roundtrip gives exactly what is read back for every list; exact round trip fails only in the cases of the refuted theorems (empty lists, REMB 0, long SDES, invalid UTF-8)."
  },
  {
   "property": "C22",
   "status": "proved",
   "theorems": [
    "C22_new",
    "C22_len",
    "C22_empty_full",
    "C22_push",
    "C22_get",
    "C22_index",
    "C22_iter",
    "C22_split",
    "C22_append"
   ],
   "note": ""
  },
  {
   "property": "C23",
   "status": "partial",
   "theorems": [
    "C23_report",
    "C23_deltas",
    "C23_times",
    "C23_size",
    "C23_wellformed",
    "C23_successive",
    "C23_no_arrival_lost",
    "C23_arrival_accepted",
    "C23_no_panic_partial",
    "C23_report_panics_refuted",
    "C23_count_overflow_refuted",
    "C23_gap_8192_refuted",
    "C23_drift_refuted",
    "C23_forgotten_refuted"
   ],
   "note": "Every produced report is exact within its range and quantisation. Refuted: panic at twcc.rs:451 for some patterns, overflow of the count, unbounded drift, forgotten packets after a late one, 8192 gap."
  },
  {
   "property": "C24",
   "status": "partial",
   "theorems": [
    "C24_parse_no_panic",
    "C24_iterate",
    "C24_iterate_ends",
    "C24_roundtrip",
    "C24_iterator_panics_refuted",
    "C24_roundtrip_refuted"
   ],
   "note": "Parsing never panics (all byte strings); iteration exact for well formed messages; crafted run chunks make the iterator panic (refuted)."
  },
  {
   "property": "C25",
   "status": "proved",
   "theorems": [
    "C25_acked_once",
    "C25_records",
    "C25_apply",
    "C25_overflow_refuted",
    "C25_gap_refuted"
   ],
   "note": "Proved for all histories; the overflow and gap panics are exact (refuted theorems)."
  },
  {
   "property": "C26",
   "status": "proved",
   "theorems": [
    "C26_parse_no_panic",
    "C26_layout",
    "C26_round_trip",
    "C26_binding_request",
    "C26_binding_replies",
    "C26_accepted_shape",
    "C26_verify_exact",
    "C26_verify_without_integrity",
    "C26_verify_panics_refuted",
    "C26_verify_panics_only",
    "C26_software_not_written_refuted",
    "C26_fingerprint_unchecked_refuted",
    "C26_address_past_attribute_refuted",
    "C26_long_username_refuted"
   ],
   "note": "Refuted parts: verify panics for integrity as first attribute, long usernames, addresses read past the attribute, fingerprint not checked, SOFTWARE not written. Round trip and layout proved for every writable message."
  },
  {
   "property": "C27",
   "status": "proved",
   "theorems": [
    "C27_candidate_priority",
    "C27_priority_range",
    "C27_candidate_order",
    "C27_type_order",
    "C27_default_preferences",
    "C27_preferences_no_panic",
    "C27_pair_symmetric",
    "C27_pair_priority",
    "C27_pair_overflow_refuted",
    "C27_pair_order",
    "C27_pair_order_out_of_range_refuted",
    "C27_relay_preference_unique_refuted",
    "C27_many_candidates_panic_refuted",
    "C27_custom_preference_refuted"
   ],
   "note": "Proved for components and preferences in range; the refuted theorems show what happens outside (remote priority unchecked, custom preferences, many relays)."
  },
  {
   "property": "C28",
   "status": "proved",
   "theorems": [
    "C28_no_panic",
    "C28_zero_retransmits_refuted",
    "C28_pairs",
    "C28_events",
    "C28_pair_limit",
    "C28_invalidate",
    "C28_invalidate_false",
    "C28_no_redundant_local",
    "C28_no_redundant_remote",
    "C28_no_redundant_recreate",
    "C28_redundant_request_refuted",
    "C28_limit_request_refuted",
    "C28_redundant_local_refuted",
    "C28_recreate_versions_refuted"
   ],
   "note": "The refuted theorems show where the informal claims fail in the code: requests create redundant pairs and exceed the limit, discarded local candidates return, recreate_candidate_pairs mixes IP versions, zero retransmissions panics."
  },
  {
   "property": "C29",
   "status": "proved",
   "theorems": [
    "C29_open_written",
    "C29_open_panics_iff",
    "C29_long_label_refuted",
    "C29_open_read",
    "C29_open_refused_otherwise",
    "C29_open_round_trip",
    "C29_ack",
    "C29_reliability_truncated_refuted"
   ],
   "note": "Refuted: labels above 1488 bytes panic; 32-bit reliability parameter truncated to 16 bits. Everything else proved, with the exact panic condition."
  },
  {
   "property": "C30",
   "status": "proved",
   "theorems": [
    "C30_unique",
    "C30_channel_ids_fresh",
    "C30_allocation",
    "C30_no_needless_wait",
    "C30_opened_exactly",
    "C30_held_until_reset",
    "C30_opened_only_when_confirmed",
    "C30_opened_once",
    "C30_opened_when_ready",
    "C30_negotiated_taken_refuted"
   ],
   "note": "Uniqueness, parity, freshness and opened-exactly proved; refuted: an automatic channel created first can take a later negotiated id."
  },
  {
   "property": "C31",
   "status": "proved",
   "theorems": [
    "C31_rate_bound",
    "C31_rate_bound_varying",
    "C31_one_packet_per_timeout",
    "C31_no_packet_before_timeout",
    "C31_debt_not_negative",
    "C31_unpaced_first",
    "C31_promised_time_is_kept",
    "C31_padding_request",
    "C31_polled_queue_was_offered",
    "C31_probe_complete",
    "C31_starvation_by_rounding_refuted",
    "C31_rate_bound_without_rounding_refuted",
    "C31_probe_padding",
    "C31_probe_padding_in_time",
    "C31_padding_time_is_kept"
   ],
   "note": "Rates are exact rationals. The rate bound includes the rounding term per timeout; without it the claim is false (refuted). Padding for probes and the promised padding time: PacerProps3."
  },
  {
   "property": "C32",
   "status": "partial",
   "theorems": [
    "C32_av1_round_trip",
    "C32_av1_depacketize",
    "C32_av1_packetize_never_panics",
    "C32_av1_small_mtu_drops",
    "C32_av1_never_panics",
    "C32_av1_lost_beginning",
    "C32_av1_identity_refuted",
    "C32_av1_vanishes",
    "C32_av1_one_head_refuted",
    "C32_h264_round_trip",
    "C32_h264_bare_unit",
    "C32_h264_lossless",
    "C32_h264_sets_too_large_refuted",
    "C32_h264_unfinished_fragment_refuted",
    "C32_h264_one_byte_head_refuted",
    "C32_h264_keyframe_packets",
    "C32_h265_h266_round_trip",
    "C32_h265_h266_bare_unit",
    "C32_h265_h266_lossless",
    "C32_h265_h266_decoding_order",
    "C32_h265_h266_depacketize",
    "C32_h265_h266_append_only",
    "C32_h265_h266_never_panics",
    "C32_h264_packetize_never_panics",
    "C32_h265_aggregate_accessor",
    "C32_h265_h266_keyframe_packets",
    "C32_two_byte_unit_refuted",
    "C32_h265_donl_over_mtu_refuted",
    "C32_h266_long_start_code_refuted",
    "C32_tail_of_slice_refuted",
    "C32_h265_paci_refuted",
    "C32_h265_second_sps_refuted",
    "C32_donl_mismatch_refuted",
    "C32_plain_round_trip",
    "C32_noise_round_trip",
    "C32_vp8_round_trip",
    "C32_vp8_picture_id",
    "C32_vp8_small_mtu_drops",
    "C32_vp9_round_trip",
    "C32_vp9_flexible_round_trip",
    "C32_vp9_picture_id",
    "C32_vp9_small_mtu_drops",
    "C32_vp9_never_panics",
    "C32_vp9_descriptor",
    "C32_vp9_layers",
    "C32_vp9_keyframe",
    "C32_vp9_profile2_keyframe_refuted",
    "C32_vp9_flexible_keyframe_refuted",
    "C32_vp9_reserved_bits_refuted",
    "C32_vp9_layer_order_refuted",
    "C32_vp9_stale_picture_id_refuted",
    "C32_vp9_memory_refuted"
   ],
   "note": "Opus, G7xx, comfort noise, null, VP8, VP9, AV1, H264, H265, H266.  Fails for two-byte units of H265/H266, DONL on H265 (two bytes over the MTU) and what else the _refuted theorems show."
  },
  {
   "property": "C33",
   "status": "proved",
   "theorems": [
    "C33_direction_algebra",
    "C33_unknown_word_inactive",
    "C33_answer_fits_offer",
    "C33_accepted_answer_fits",
    "C33_default_direction_refuted"
   ],
   "note": "C33_default_direction_refuted records an extra fact: a line without direction attribute is read as inactive (RFC 8866: sendrecv)."
  },
  {
   "property": "C34",
   "status": "proved",
   "theorems": [
    "C34_round_trip",
    "C34_params",
    "C34_candidate",
    "C34_parsed",
    "C34_offer",
    "C34_configs_writable",
    "C34_enabled_offer",
    "C34_trailing_semicolon_refuted",
    "C34_rewrite_refuted",
    "C34_rid_pt_refuted",
    "C34_mid_refuted",
    "C34_junk_refuted",
    "C34_ssrc_refuted",
    "C34_write_panic_refuted"
   ],
   "note": "combine's parser semantics (consumed/not consumed), Display/FromStr of IpAddr, DefaultHasher, HashMap order and Unicode alphanumerics are parameters or modelled as described in TextModel/SdpModel. The _refuted theorems show what holds no further: a trailing semicolon in fmtp loses the parameters or the next line, an accepted description rewritten need not be accepted, rid with pt= is not read, mids are rewritten and can collide, text after an unknown line is dropped silently, ssrc without a value swallows the next line, and writing panics for an empty fingerprint or simulcast."
  },
  {
   "property": "C35",
   "status": "proved",
   "theorems": [
    "C35_match_exact",
    "C35_match_symmetric",
    "C35_best",
    "C35_unique",
    "C35_stable",
    "C35_settled",
    "C35_levels",
    "C35_g722_clock",
    "C35_suggestions_total",
    "C35_insisted_exact",
    "C35_line_roundtrip",
    "C35_agree",
    "C35_number_means",
    "C35_shared_usable",
    "C35_enabled_configs",
    "C35_no_panic_refuted",
    "C35_remote_panic_refuted",
    "C35_reuse_panic_refuted",
    "C35_answer_offered_refuted",
    "C35_feedback_flags",
    "C35_feedback_only_if_listed_refuted"
   ],
   "note": "Two-peer theorems need configurations in which a remote description fits at most one entry (C35_enabled_configs: every sequence of enable calls gives one) and at most 21 entries. The _refuted theorems show what does not hold beyond that: crafted remote SDP or two levels of one H.264 profile panic, and an answer can then list a codec that was not offered. C35_feedback_flags: what a remote line's rtcp-fb attributes switch on."
  },
  {
   "property": "C36",
   "status": "partial",
   "theorems": [
    "C36_parse_conforms",
    "C36_write_conforms_partial",
    "C36_round_trip_partial",
    "C36_no_panic_partial",
    "C36_no_panic_refuted",
    "C36_round_trip_refuted",
    "C36_write_panics_refuted"
   ],
   "note": "Refuted: dimension 0xFFFF panics; writer wrong for some 3-4 stream shapes. Proved under the exact conditions."
  },
  {
   "property": "C37",
   "status": "proved",
   "theorems": [
    "C37_views_agree",
    "C37_patch"
   ],
   "note": ""
  },
  {
   "property": "C38",
   "status": "proved",
   "theorems": [
    "C38_answer_mirrors_offer",
    "C38_live_media_kept",
    "C38_stale_offer_refused",
    "C38_exchange_keeps_agreement",
    "C38_agreement_over_histories",
    "C38_from_the_start",
    "C38_stop_last_media_refuted",
    "C38_no_common_codec_refuted",
    "C38_answer_panics_refuted",
    "C38_stopped_stays_inactive_refuted",
    "C38_refused_offer_atomic_refuted",
    "C38_drop_rolls_back_refuted",
    "C38_change_event_refuted",
    "C38_bundle_check_refuted"
   ],
   "note": "Proved with the stated conditions (fresh mids, shared codecs, one live m-line). The *_refuted theorems show what fails outside them: stopping the last media, no common codec, a duplicate-mid answer panics, stopped media can be given a sending direction, refused offers are not atomic, dropped calls are not rolled back, MediaChanged can be lost, the BUNDLE consistency check never fires."
  },
  {
   "property": "C39",
   "status": "proved",
   "theorems": [
    "C39_nomination_cause",
    "C39_datagrams",
    "C39_highest_priority",
    "C39_nothing_better",
    "C39_connected_unchecked_refuted",
    "C39_replacement_refuted"
   ],
   "note": "'Only succeeded pairs carry data' is false in the code (C39_connected_unchecked_refuted, C39_replacement_refuted); the exact causes are proved instead."
  },
  {
   "property": "C40",
   "status": "proved",
   "theorems": [
    "C40_given_up",
    "C40_state_full",
    "C40_state_lite",
    "C40_answer",
    "C40_timeout"
   ],
   "note": "The state is exact after every answered check and every timeout; between them (e.g. right after a request or add_remote_candidate) the code does not reevaluate it."
  },
  {
   "property": "C41",
   "status": "proved",
   "theorems": [
    "C41_poll_bounds",
    "C41_timer_fires",
    "C41_one_datagram",
    "C41_first_timeout_refuted",
    "C41_restart_events_refuted"
   ],
   "note": "Refuted: the first timeout with a queued request leaves no timer; ice_restart discards unpolled events."
  },
  {
   "property": "C42",
   "status": "proved",
   "theorems": [
    "C42_conflict_kept",
    "C42_conflict_switched",
    "C42_told",
    "C42_role_change_cause",
    "C42_roles_settle",
    "C42_equal_refuted"
   ],
   "note": "C42_equal_refuted documents that equal tie-breakers do not settle. Integrity-protected messages are assumed to be genuine; forged ones failing the integrity check are included."
  },
  {
   "property": "C43",
   "status": "proved",
   "theorems": [
    "C43_keyframe_request",
    "C43_remb_request",
    "C43_stream_refines_automaton",
    "C43_media_in_order",
    "C43_media_is_a_prefix",
    "C43_rtx_numbers_increase",
    "C43_resends_only_what_was_asked",
    "C43_rtx_repeats_an_earlier_packet",
    "C43_transport_numbers_consecutive",
    "C43_padding_bounded",
    "C43_media_is_delivered",
    "C43_nack_is_answered",
    "C43_nack_without_rtx_ssrc_refuted",
    "C43_padding_with_large_mtu_refuted",
    "C43_mid_on_every_packet"
   ],
   "note": "C43_stream_refines_automaton gives the exact packets; the other theorems read off order, completeness, NACK answers, padding and transport numbers. Requests (PLI/FIR/REMB) are in SrProps. Not covered: round-trip/loss statistics; the f32 comparison with the retransmission cap is an arbitrary function (assumed never exceeded in C43_nack_is_answered). The _refuted theorems are panics outside the proved conditions."
  },
  {
   "property": "C44",
   "status": "partial",
   "theorems": [
    "C44_no_panic",
    "C44_only_authentic_packets",
    "C44_at_most_once",
    "C44_fresh_packet_delivered",
    "C44_asked_repair_delivered",
    "C44_repair_restores_what_was_written",
    "C44_rejected_packet_changes_nothing_partial",
    "C44_forged_packet_diverts_stream_refuted",
    "C44_forged_packet_uses_up_roc_refuted",
    "C44_replay_after_forged_packet_refuted",
    "C44_early_repair_kills_stream_refuted",
    "C44_one_byte_repair_refuted"
   ],
   "note": "Proved: no panic, authenticity, at most once (SSRCs split into media and repair), delivery of fresh packets and of repairs that were asked for. False as stated for rejected packets, hence _partial and _refuted: before SRTP is asked a forged packet can move a stream to another SSRC, use up reset_roc, or reopen the replay window; a repair for a number before the first index kills the stream; a one-byte repair is taken for packet 0. SRTP itself is the parameter dec (C15-C17)."
  },
  {
   "property": "C45",
   "status": "partial",
   "theorems": [
    "C45_counts_partial",
    "C45_rtp_time",
    "C45_counts_own_packets_refuted",
    "C45_counts_sent_packets_refuted",
    "C45_rtp_time_exact_refuted",
    "C45_future_wallclock_refuted"
   ],
   "note": "Proved for streams with an RTX SSRC whose payload types stay known: SSRC, NTP time, cname, packet and octet counts as the code counts them (media and retransmissions), RTP time within a tick and 2 us. False as stated (_refuted): the counts include retransmissions (another SSRC) and dropped packets; the RTP time is not exact, and 0 when the wallclock lies ahead."
  },
  {
   "property": "C46",
   "status": "partial",
   "theorems": [
    "C46_requests_served",
    "C46_report_due",
    "C46_next_report_later_partial",
    "C46_probe_stream_spins_refuted",
    "C46_nack_switched_on_unnoticed_refuted",
    "C46_sender_reports_told"
   ],
   "note": "Proved over all histories: requests served exactly once, FIR numbering, report times, reports when due. The next report instant is later (C46_next_report_later_partial) only without a probe stream: one unauthenticated datagram with SSRC 0 makes the timeout loop spin for ever (_refuted). Refuted too: switching NACKs on through stream_rx is not noticed."
  },
  {
   "property": "C47",
   "status": "proved",
   "theorems": [
    "C47_pause_events",
    "C47_earliest_pause_refuted",
    "C47_event_is_a_change_refuted"
   ],
   "note": "Proved for SSRCs split into media and repair, the stream declared and left in place. Which packets count is existential but must include every packet handed on. Refuted side claims: the wake-up instant is the first stream's, not the earliest; an event may repeat the last one."
  },
  {
   "property": "C48",
   "status": "proved",
   "theorems": [
    "C48_events_in_order",
    "C48_close_is_reported",
    "C48_handle",
    "C48_open_before_data_refuted",
    "C48_always_announced_refuted",
    "C48_close_early_refuted",
    "C48_announcement"
   ],
   "note": "Order of events, reporting of closes and availability of the handle proved for an arbitrary SCTP implementation. Refuted neighbours: data can precede ChannelOpen; a negotiated channel can become usable without ever being announced; a close before the channel has a stream is lost."
  },
  {
   "property": "C49",
   "status": "proved",
   "theorems": [
    "C49_delivered",
    "C49_received",
    "C49_written",
    "C49_acts_are_real"
   ],
   "note": "Proved for an arbitrary SCTP implementation and every history: what is delivered was just read, what is read is delivered, what is written is the application's message or a DCEP message in its place. Partial writes and message size limits of the peer are not modelled."
  },
  {
   "property": "C50",
   "status": "proved",
   "theorems": [
    "C50_wait_is_bounded",
    "C50_retry_timer",
    "C50_no_panic",
    "C50_poll_returns"
   ],
   "note": "Waiting bounded by 10 s, retry timer within 500 ms, polls return if the event queue is finite (`finite`), no panic if reads give bytes and listed streams exist (`sane`) and labels fit (see C29_long_label_refuted)."
  },
  {
   "property": "C51",
   "status": "proved",
   "theorems": [
    "C51_connected_told_refuted",
    "C51_certificate_checked",
    "C51_only_verified_peers",
    "C51_connected_once",
    "C51_sent_to_nominated",
    "C51_no_panic",
    "C51_acts_are_real"
   ],
   "note": "Proved for arbitrary components and all histories. Refuted beyond the statement: Connected may never be told (C51_connected_told_refuted)."
  },
  {
   "property": "C52",
   "status": "proved",
   "theorems": [
    "C52_errors_have_a_cause",
    "C52_dtls_timer_failure_told",
    "C52_session_failure_told",
    "C52_dtls_input_failure_told",
    "C52_start_failure_told",
    "C52_close_failure_told",
    "C52_closed_once_refuted",
    "C52_close_refused_refuted",
    "C52_dead_is_final",
    "C52_close",
    "C52_death",
    "C52_close_waits_for_ice"
   ],
   "note": "Proved for arbitrary components and all histories. Refuted beyond the statement: Closed only once; close() that fails leaves the Rtc half closed."
  },
  {
   "property": "C53",
   "status": "proved",
   "theorems": [
    "C53_receive_time_refuted",
    "C53_timeout_is_last_refuted",
    "C53_time_goes_forward",
    "C53_soonest"
   ],
   "note": "Proved for arbitrary components and all histories. Refuted beyond the statement: times of received datagrams are not held back; nothing to poll after a timeout."
  },
  {
   "property": "C54",
   "status": "proved",
   "theorems": [
    "C54_write",
    "C54_in_order",
    "C54_timeout",
    "C54_right_stream",
    "C54_one_packetizer",
    "C54_on_the_wire",
    "C54_none_rid_is_checked_refuted",
    "C54_none_rid_has_one_stream_refuted",
    "C54_no_medium_stops_another_refuted"
   ],
   "note": "Proved for any packetizer. The numbers of the packets must fit 64 bits and media times must have a positive denominator. The _refuted theorems: a RID of None is never checked, on a simulcast medium it goes to an arbitrary layer, and a medium whose samples fail stops those after it."
  },
  {
   "property": "C55",
   "status": "proved",
   "theorems": [
    "C55_cleared_is_gone",
    "C55_fresh_nonces",
    "C55_rtcp_index",
    "C55_transport_numbers",
    "C55_feedback_once",
    "C55_goodbye",
    "C55_silent_without_keys",
    "C55_close_ends_refuted",
    "C55_fresh_nonces_rtp_mode_refuted",
    "C55_feedback_waits_for_keys_refuted",
    "C55_target_mtu_refuted"
   ],
   "note": "Frame API; the numbers must fit 48 bits and the SSRCs be distinct (hypotheses in `sending`). Goodbye: the polls must not panic (GCM with a target MTU divisible by 4: see C19) and the MTU be at least 148. The _refuted theorems: application feedback bigger than a datagram pushed after the close blocks the goodbyes for good, RTP mode reuses a nonce if the application writes a number twice, feedback polled before there are keys is lost, and packetized datagrams can exceed the target MTU."
  },
  {
   "property": "C56",
   "status": "proved",
   "theorems": [
    "C56_probe_justified",
    "C56_probe_capped",
    "C56_ids_increase",
    "C56_no_busy_loop",
    "C56_result_measured",
    "C56_clusters_bounded",
    "C56_probing_begins",
    "C56_probing_resumes_refuted",
    "C56_ids_unique_across_reset_refuted"
   ],
   "note": "For any arithmetic with four laws (f64 without NaN has them). Estimates, causes and the application-limited region are inputs. Ids and results: fewer than 2^63 calls (64-bit ids). The _refuted theorems: after an interruption (no padding queue) with an unchanged estimate no probe is asked for ever again; Bwe::reset restarts cluster ids, so packets of an old probe count for the new one with its id."
  }
 ]
}
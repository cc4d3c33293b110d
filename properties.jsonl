{"id": "C01", "title": "Extended sequence numbers are exact and nearest", "statement": "Extending a truncated wire number (7, 8, 15, 16 or 32 bits) against the previously extended 64-bit value yields a value congruent to the wire number modulo 2^b and, unless that would be negative or past 2^64, at distance at most 2^(b-1) from the previous value; with no previous value it is the wire number itself.", "quantifier": "every b in {7,8,15,16,32}, every 64-bit previous value, every wire value", "why_tests_cant": "the domain is 2^64 x 2^b; only boundary samples can be tested", "anchors": ["src/rtp/header.rs: mk_extend!, extend_u7, extend_u8, extend_u15, extend_u16, extend_u32"]}
{"id": "C02", "title": "A sequence number is accepted at most once", "statement": "Along any history of received sequence numbers, the NACK register reports a number as new ('accepted') at most once, and never accepts a number older than its window.", "quantifier": "every finite history of sequence numbers, in any order with any duplicates", "why_tests_cant": "needs an invariant over all histories, including wrap-around of the 101-slot ring", "anchors": ["src/streams/register_nack.rs: NackRegister::update, accepts, init_with_seq"]}
{"id": "C03", "title": "NACK requests only name missing packets and stop after five tries", "statement": "Every sequence number named in a NACK report lies in the active window, is strictly older than the newest received, has not been received, and no number is requested more than five times between two receptions/resets of its slot; the window never exceeds 100 entries.", "quantifier": "every history of updates and report generations", "why_tests_cant": "history property", "anchors": ["src/streams/register_nack.rs: NackRegister::nack_reports, NackIterator"]}
{"id": "C04", "title": "NACK completeness within the window", "statement": "After any history, every number in the last 100 before the newest that was never received (and not yet requested five times) is requested by the next report. (Claim is examined; the code loses numbers on large forward jumps.)", "quantifier": "every history of received sequence numbers", "why_tests_cant": "the failing histories need an aliasing jump that no unit test contains", "anchors": ["src/streams/register_nack.rs: NackRegister::update"]}
{"id": "C05", "title": "NACK entry wire encoding is lossless", "statement": "The list of numbers expanded from a received NACK entry (pid, 16-bit blp) is exactly pid plus each pid+i+1 whose bit i is set, and the entries built by the register expand back to exactly the missing numbers they were built from.", "quantifier": "every pid, blp and window content", "why_tests_cant": "2^32 entries; relation between builder and expander over all windows", "anchors": ["src/rtp/rtcp/nack.rs: NackEntryIterator", "src/streams/register_nack.rs: NackIterator::next"]}
{"id": "C06", "title": "Receiver report statistics", "statement": "The receiver report produced at any time carries the highest received extended sequence number (low 32 bits), a fraction lost in 0..255 consistent with lost/expected since the last report, and a cumulative loss clamped to the signed 24-bit range.", "quantifier": "every history of received packets and report times", "why_tests_cant": "counters over unbounded histories; clamps only matter at 2^23 losses", "anchors": ["src/streams/register.rs: ReceiverRegister::reception_report, packets_lost, fraction_lost, max_seq", "src/rtp/rtcp/rr.rs: ReceptionReport::write_to"]}
{"id": "C07", "title": "Evicting buffer returns what was last stored at a position", "statement": "Looking up a position in the evicting ring buffer returns either nothing or exactly the value most recently pushed at that very position, never a value pushed at another position.", "quantifier": "every sequence of push/evict/get operations", "why_tests_cant": "ring aliasing over all histories and sizes", "anchors": ["src/streams/rtx_cache_buf.rs: EvictingBuffer::push, get, maybe_evict"]}
{"id": "C08", "title": "Evicting buffer respects count and age limits", "statement": "After eviction the buffer holds no more than the configured number of positions, and nothing older than the configured age survives beyond the retained maximum.", "quantifier": "every sequence of operations, every configured limits", "why_tests_cant": "needs invariants over the ring with growth", "anchors": ["src/streams/rtx_cache_buf.rs: EvictingBuffer"]}
{"id": "C09", "title": "RTX cache lookup by size", "statement": "The packet handed out for padding of at most n bytes is one of the cached packets and its payload is at most n bytes; a lookup by sequence number returns the cached packet with that number.", "quantifier": "every cache history and every size", "why_tests_cant": "index by quantised size versus ring eviction over all histories", "anchors": ["src/streams/rtx_cache.rs: RtxCache"]}
{"id": "C10", "title": "Send queue is FIFO and its accounting is exact", "statement": "Packets leave the send queue in the order pushed, none duplicated or lost except by clear, and the reported queue snapshot (packet count, byte size, total queue time) equals that of the packets actually inside.", "quantifier": "every sequence of push, timeout, pop, clear", "why_tests_cant": "history property including asserts that would panic on underflow", "anchors": ["src/streams/send_queue.rs: SendQueue, TotalQueue"]}
{"id": "C11", "title": "Depacketizer emits frames in order without duplicates", "statement": "The sequence ranges of emitted frames are strictly increasing and disjoint, each emitted frame is built of packets that were pushed, contiguous in sequence number with one RTP time.", "quantifier": "every sequence of push and pop calls, with arbitrary loss, reorder and duplication", "why_tests_cant": "all arrival orders", "anchors": ["src/packet/buffer_rx.rs: DepacketizingBuffer"]}
{"id": "C12", "title": "Decodability (contiguity) decisions are sound", "statement": "A VP8/VP9/H264 frame is marked contiguous only if no picture was missed since the previously emitted one according to picture id/tl0picidx, or it may be decoded independently.", "quantifier": "every sequence of frames", "why_tests_cant": "history over wrapped picture ids", "anchors": ["src/packet/contiguity.rs", "src/packet/contiguity_vp8.rs", "src/packet/contiguity_vp9.rs"]}
{"id": "C13", "title": "MediaTime arithmetic", "statement": "Rebasing to a multiple of the frequency is lossless, rebasing is monotone, and comparison of two times agrees with comparison of the rationals they denote up to one tick of the finer base.", "quantifier": "every 64-bit numerator and every frequency", "why_tests_cant": "unbounded numeric domain", "anchors": ["src/rtp/mtime.rs: MediaTime"]}
{"id": "C14", "title": "RTP header write/parse round trip and no panic", "statement": "Parsing never panics for any input bytes; parsing the serialization of any valid header gives back its fields and the exact header length, so the payload is recovered byte for byte.", "quantifier": "every byte string; every valid header", "why_tests_cant": "2^(8n) inputs", "anchors": ["src/rtp/header.rs: RtpHeader::parse, write_to"]}
{"id": "C15", "title": "RTP padding", "statement": "Removing padding never panics and never returns bytes outside the packet; a payload followed by n padding bytes (the last one n) unpads to the payload; a padding-only packet is the requested length rounded up to the block size (at most 240) and unpads to nothing.", "quantifier": "every payload and block size", "why_tests_cant": "all lengths / malformed final byte", "anchors": ["src/rtp/header.rs: unpad_payload, do_pad, create_padding_packet"]}
{"id": "C16", "title": "RTP header extensions", "statement": "Each extension value the crate sends, written with the one- or two-byte form under any extension map, is parsed back to the same value up to its documented quantisation; the voice activity flag, which the writer and reader place in different bits, is the one exception and what arrives instead is stated exactly. Unknown ids are skipped without affecting others and malformed extension bytes never panic.", "quantifier": "every extension map, every value set, every byte string", "why_tests_cant": "combinatorial domain", "anchors": ["src/rtp/ext.rs: ExtensionMap::write_to, parse"]}
{"id": "C17", "title": "UDP demultiplexing", "statement": "Every datagram is classified to exactly one of STUN, DTLS, RTP, RTCP or rejected, following RFC 7983 first-byte ranges and the RTCP packet-type range.", "quantifier": "every datagram", "why_tests_cant": "all byte strings", "anchors": ["src/io/mod.rs: MultiplexKind::try_from"]}
{"id": "C18", "title": "SRTP: IVs are never reused and unprotect inverts protect", "statement": "Under one session key two different (ssrc, extended sequence number) pairs give different IVs; unprotect(protect(p)) = p and any change of tag or authenticated bytes is rejected up to the primitive; no input panics.", "quantifier": "every packet, key, ssrc, sequence number below 2^48", "why_tests_cant": "cryptographic nonce uniqueness is a universally quantified injectivity claim", "anchors": ["src/rtp/srtp.rs: SrtpContext::protect_rtp, unprotect_rtp", "src/crypto/srtp.rs: rtp_iv"]}
{"id": "C19", "title": "SRTCP index", "statement": "Each outgoing SRTCP packet uses a fresh index (until 2^31 packets), the index is carried in the packet with the E bit, no IV repeats, unprotect accepts exactly what protect produced and uses the carried index; malformed packets are rejected without a panic.", "quantifier": "every history of packets; every byte string", "why_tests_cant": "history property", "anchors": ["src/rtp/srtp.rs: protect_rtcp, unprotect_rtcp"]}
{"id": "C20", "title": "RTCP compound packing", "statement": "Packing a queue of feedback into compound packets loses nothing, never exceeds the size limit, places a full SR/RR first, leaves what does not fit in the queue in order, and repeated packing drains a queue whose items each fit; the peer reads exactly what was packed. (An item that never fits blocks the queue behind it.)", "quantifier": "every feedback queue and buffer size", "why_tests_cant": "combinatorial domain", "anchors": ["src/rtp/rtcp/mod.rs: Rtcp::write_packet, merge, pack"]}
{"id": "C21", "title": "RTCP parse/write round trip and no panic", "statement": "Reading any bytes never panics. For every list of feedback messages the bytes written have the announced length and are read back as the same messages, except exactly: empty item lists, REMB 0, SDES text beyond 255 bytes and non-UTF-8 text, for which what is read is stated.", "quantifier": "every byte string; every list of feedback", "why_tests_cant": "combinatorial domain", "anchors": ["src/rtp/rtcp/mod.rs: Rtcp::read_packet", "src/rtp/rtcp/*.rs"]}
{"id": "C22", "title": "ReportList behaves as a bounded list", "statement": "A ReportList holds at most 31 reports in insertion order; appending as much as possible moves a prefix of the source to the end of the destination, nothing lost or duplicated.", "quantifier": "every pair of lists and capacities", "why_tests_cant": "all fill levels", "anchors": ["src/rtp/rtcp/list.rs: ReportList"]}
{"id": "C23", "title": "TWCC receiver reports reflect reception", "statement": "Each report produced states for every sequence number in its range whether it was received, with receive time deltas within quantisation; ranges of successive reports don't skip received packets.", "quantifier": "every history of received transport-wide sequence numbers and every report size", "why_tests_cant": "chunk packing over all patterns", "anchors": ["src/rtp/rtcp/twcc.rs: TwccRecvRegister, build_report, ChunkInterim, PacketChunk"]}
{"id": "C24", "title": "TWCC feedback parsing is robust and faithful", "statement": "Parsing any feedback never panics, and iterating a parsed feedback packet never panics and yields at most status_count entries with consecutive sequence numbers. (Examined; the code violates it for crafted chunks.)", "quantifier": "every byte string", "why_tests_cant": "crafted chunk sequences", "anchors": ["src/rtp/rtcp/twcc.rs: Twcc::try_from, TwccIter"]}
{"id": "C25", "title": "TWCC send records", "statement": "Over every history of sends and feedback reports (reordered or repeated), each sent packet is reported acked at most once, the send records are the latest sent without gaps and bounded, and applying a report (without empty runs, not reaching beyond 64-bit numbers) yields exactly the not yet reported records it names, with what it says about them. (Beyond 64 bits it panics.)", "quantifier": "every history of sends and feedback, including reordered/duplicate feedback", "why_tests_cant": "history property", "anchors": ["src/rtp/rtcp/twcc.rs: TwccSendRegister"]}
{"id": "C26", "title": "STUN codec", "statement": "Serializing any STUN message the agent sends and parsing it gives the same message; message integrity and fingerprint cover exactly the bytes before them; parsing never panics for any bytes; verifying a parsed message succeeds exactly when its 20-byte integrity attribute is the HMAC of the bytes before it, and panics exactly when that attribute comes first.", "quantifier": "every message, every byte string", "why_tests_cant": "all attribute combinations, lengths, paddings", "anchors": ["crates/is/src/stun.rs: StunMessage::to_bytes, parse, verify"]}
{"id": "C27", "title": "ICE candidate priority and pair ordering", "statement": "For a candidate without a remote-given priority, the priority is the RFC 8445 formula, lies within the RFC range and is ordered by type preference, then local preference; the preferences given to local candidates are distinct per type and IP version and are computed without a panic for up to 7691 candidates; pair priority is symmetric (both agents compute the same 64-bit value) and orders pairs totally.", "quantifier": "every candidate type, preferences, components", "why_tests_cant": "numeric domain", "anchors": ["crates/is/src/candidate.rs: prio", "crates/is/src/pair.rs: calculate_prio"]}
{"id": "C28", "title": "ICE agent: no panics, consistent pairs and events", "statement": "With at least one retransmission configured and at most 7692 local candidates, no sequence of calls, packets and timeouts makes the agent panic. After any such sequence every candidate pair joins two candidates, pairs are sorted by priority, transaction ids of outstanding checks are unique, the last state event is the state, the last nomination event describes the pair data is sent over, no source is reported twice, invalidating a candidate removes exactly its pairs, and adding candidates neither exceeds the pair limit nor makes redundant pairs. (Incoming requests and recreate_candidate_pairs can.)", "quantifier": "every sequence of API calls, packets and timeouts", "why_tests_cant": "history property", "anchors": ["crates/is/src/agent.rs: IceAgent", "crates/is/src/pair.rs: CandidatePair"]}
{"id": "C29", "title": "DCEP codec", "statement": "A data channel OPEN message for a label and protocol of together at most 1488 bytes is written in the RFC 8832 layout and read by the peer as the same configuration; longer ones panic (exactly then); ACK likewise; every byte string that is not a valid OPEN is refused without a panic, and every valid one is read (its reliability parameter modulo 2^16).", "quantifier": "every configuration; every byte string", "why_tests_cant": "all lengths", "anchors": ["src/sctp/dcep.rs: DcepOpen, DcepAck"]}
{"id": "C30", "title": "Data channel stream id allocation", "statement": "At any time no two channels share a stream id or channel id, lookups are inverse; an automatically allocated id has the parity of the DTLS role and is neither in use nor waiting for a reset, a negotiated id is the one asked for, ids stay with their channel, no channel waits needlessly, and a stream is opened exactly once per confirmation, as soon as possible. (A negotiated id can already have been given to an earlier automatic channel.)", "quantifier": "every sequence of channel creations, confirmations, closings, resets and timeouts", "why_tests_cant": "history property", "anchors": ["src/channel.rs: ChannelHandler"]}
{"id": "C31", "title": "Leaky-bucket pacer", "statement": "Over any interval of any run the pacer releases no more than the pacing rate times the interval plus 40 ms worth, one packet and half a byte per timeout call (rounding); at most one packet per timeout; debts are never negative; unpaced packets go at once, oldest first; a promised time is kept; padding only when all queues are empty; a completed probe has sent its bytes and packets.", "quantifier": "every sequence of queue states, times and bitrates", "why_tests_cant": "history property", "anchors": ["src/pacer/leaky.rs: LeakyBucketPacer"]}
{"id": "C32", "title": "Payload packetizers", "statement": "For each codec, packetizing a frame for an MTU yields payloads not exceeding the MTU, and depacketizing them in order recovers the frame; depacketizing arbitrary bytes never panics.", "quantifier": "every frame, MTU, byte string", "why_tests_cant": "all sizes and NAL structures", "anchors": ["src/packet/vp8.rs", "src/packet/vp9.rs", "src/packet/av1.rs", "src/packet/h264.rs", "src/packet/h265.rs", "src/packet/h266.rs", "src/packet/opus.rs", "src/packet/g7xx.rs"]}
{"id": "C33", "title": "Direction algebra", "statement": "Inverting a direction is an involution swapping send and receive, and the negotiated answer direction never sends where the offer does not receive.", "quantifier": "all directions", "why_tests_cant": "small finite domain but used in every negotiation", "anchors": ["src/rtp/dir.rs: Direction"]}
{"id": "C34", "title": "SDP text round trip", "statement": "A session description made of writable values (every attribute the crate writes; words without spaces, mids of at most 16 letters, digits and underscores, payload types of seven bits, format parameters without duplicate keys when they contain profile/tier/level) is written as text that the crate's own parser accepts to the end, and every session attribute, media line, payload type and attribute is read as it was written (candidates as any remote candidate with the same foundation, priority, address, type, related address, TCP role and ufrag; extmap-allow-mixed as an unused attribute). The codec parameters taken from each media description are unchanged, an offer made from any enabled codec configuration is read as exactly that configuration, and the standalone candidate parser agrees with the SDP parser. Every text that is accepted yields media descriptions with exactly one mid, at most one setup, exactly one direction and at least one payload type for RTP, each payload type described exactly once unless static.", "quantifier": "every session description of writable values, every candidate, every enabled codec configuration, and (for the last sentence) every text", "why_tests_cant": "the values and texts are unbounded; the parser backtracks, so what one attribute reads depends on all characters after it", "anchors": ["src/sdp/data.rs (Display, FormatParam, check_consistent)", "src/sdp/parser.rs", "crates/is/src/candidate.rs (to_sdp_string)", "crates/is/src/parse.rs"]}
{"id": "C35", "title": "Codec payload-type negotiation", "statement": "Negotiating payload types pairs each configured codec entry with at most one compatible remote entry; no two entries ever share a number; an entry, once settled, keeps its numbers, codec, clock rate and channels; two peers whose configurations never fit one description twice (all those the enable calls make) negotiate any sequence of new media without failing and settle the same entries with the same numbers, and every codec both support and one of them offers becomes usable.", "quantifier": "every pair of codec configurations and every history of offers and answers between them, in either direction and with any media directions", "why_tests_cant": "combinatorial", "anchors": ["src/format/codec_config.rs: update_params, match_params, sdp_match_remote", "src/format/payload_params.rs: match_score, update_param", "src/sdp/data.rs: rtp_params, as_media_attrs", "src/change/sdp.rs: add_new_lines, as_media_line"]}
{"id": "C36", "title": "Video layers allocation (VLA) extension", "statement": "Parsing the VLA header extension never panics; writing then parsing yields the same allocation.", "quantifier": "every byte string; every allocation", "why_tests_cant": "bit-packed variable-length format", "anchors": ["src/rtp/vla.rs: VideoLayersAllocation, Serializer"]}
{"id": "C37", "title": "VP8 descriptor patching", "statement": "Rewriting picture id, TL0PICIDX or KEYIDX in a VP8 RTP payload succeeds exactly when the field is present and wide enough; it then changes exactly the requested fields and leaves the media bytes, the length and everything else the receiver reads unchanged; the descriptor parser, the depacketizer and the key frame detector agree on every payload.", "quantifier": "every payload byte string, requested values and receiver state", "why_tests_cant": "all descriptor layouts and values", "anchors": ["src/packet/vp8.rs: Vp8Descriptor::parse", "Vp8PatchBuilder::build", "Vp8Patch::copy_to", "detect_vp8_keyframe"]}
{"id": "C38", "title": "SDP offer/answer keeps two peers in agreement", "statement": "If two sessions that agree on their m-lines run any sequence of complete offer/answer negotiations, started by either side, adding media or a data channel, changing directions, stopping media (but not the last one alive) or restarting ICE, then every negotiation succeeds and afterwards both list the same m-lines (mid, kind, position) with inverse directions and the same stopped state; the answer always has the offer's m-lines in order; no remote description removes or moves a media that is in use; a pending offer is refused without effect once another offer was made or accepted.", "quantifier": "every session state, remote description, call sequence and history of negotiations", "why_tests_cant": "unbounded histories of interleaved local calls and negotiations from both sides", "anchors": ["src/change/sdp.rs: SdpApi, apply_offer, apply_answer, sync_medias, add_new_lines, as_sdp", "src/session.rs", "src/media/mod.rs"]}
{"id": "C39", "title": "ICE: nomination and datagrams are justified", "statement": "A pair is nominated only because it (or the pair it replaced) was, because this agent is controlling and a check of the pair succeeded, or because this agent is controlled and the peer asked for it with USE-CANDIDATE; the pair chosen to carry data has the highest priority among the eligible ones; every datagram the agent sends answers a received request or is a check of a pair in use, between that pair's addresses, with the agent's role and tie-breaker.", "quantifier": "every reachable agent state and every call", "why_tests_cant": "history property over interleaved calls", "anchors": ["crates/is/src/agent.rs: evaluate_nomination, stun_server_handle_request, stun_client_binding_request", "crates/is/src/pair.rs: nominate"]}
{"id": "C40", "title": "ICE: the connection state says what the pairs are", "statement": "After every answered check and every timeout the connection state is Connected/Completed/Checking/Disconnected exactly according to whether a pair is nominated and whether another pair may still succeed; a pair is given up exactly when its newest checks are all unanswered for long enough and the peer is silent.", "quantifier": "every agent state and time", "why_tests_cant": "all combinations of pair histories and times", "anchors": ["crates/is/src/agent.rs: evaluate_state, handle_timeout", "crates/is/src/pair.rs: is_still_possible"]}
{"id": "C41", "title": "ICE: timers", "statement": "Once a timeout was handled, the next timeout is never earlier than the pacing interval (or 3 s, if less) after it and never later than the longest of pacing interval, retransmission interval and 3 s; a timeout handled then sends a check or drops a dead pair; no call sends more than one datagram.", "quantifier": "every history with non-decreasing times", "why_tests_cant": "cached deadlines depend on the whole history", "anchors": ["crates/is/src/agent.rs: poll_timeout, handle_timeout", "crates/is/src/pair.rs: next_binding_attempt"]}
{"id": "C42", "title": "ICE: role conflicts settle", "statement": "Between two agents with different tie-breakers the one with the larger keeps its role forever; once the other has the opposite role it keeps it; a request in the agent's own role is answered with 487 or makes it switch, depending on the tie-breakers; a 487 makes it switch exactly if the check was sent in the present role.", "quantifier": "every pair of agents, every interleaving of calls on both, and every network that delays, drops, repeats or reorders messages", "why_tests_cant": "all schedules of crossing messages", "anchors": ["crates/is/src/agent.rs: switch_role, stun_server_handle_request, stun_client_handle_error"]}
{"id": "C43", "title": "Outgoing stream: what reaches the wire", "statement": "A stream sends the media packets written to it in the order written, each once, unaltered and with the next transport number, and all of them once polled often enough; on the RTX SSRC it sends only blank padding or exact repetitions of earlier nackable packets, with strictly increasing numbers; it retransmits only what was NACKed, answers every NACK for a recent packet, and sends padding only while less than requested went out.", "quantifier": "every sequence of stream calls (write, timeout, poll, feedback, padding request, cache setting, resets) with any arguments in range, any extension map, payload types and clock", "why_tests_cant": "unbounded interleavings of writes, polls, NACKs, padding and resets; numbers wrap at 16 bits", "anchors": ["src/streams/send.rs: StreamTx::poll_packet, write_rtp, handle_rtcp, handle_nack, generate_padding, reset_buffers, reset_ssrc", "src/util/value_history.rs", "src/streams/rtx_cache.rs", "src/streams/send_queue.rs"]}
{"id": "C44", "title": "Incoming RTP: authentic, once, delivered", "statement": "Feeding RTP packets never panics. Every packet the application polls (and every packet given to frame assembly) comes from a fed datagram that SRTP accepted, either as itself or taken out of a repair (RTX) packet; it is polled at most once per SSRC and extended sequence number; a fresh authentic packet of a declared stream is delivered unchanged; a number the session asked for with a NACK was never delivered before and its repair is delivered as the original packet; a datagram SRTP rejects has no effect.", "quantifier": "every interleaving of arriving packets (any header, any SRTP outcome, forged ones included), stream and media declarations, removals, resets, rollover overrides, feedback requests, timeouts and polls, in any hash map order", "why_tests_cant": "unbounded histories; 16-bit numbers wrap; attackers choose the packets; hash map order varies", "anchors": ["src/session.rs: handle_rtp, mid_and_ssrc_for_header, map_dynamic, poll_packet", "src/streams/receive.rs: StreamRx::extend_seq, update_register, un_rtx, handle_rtp, change_ssrc, reset_roc", "src/streams/mod.rs: Streams::mid_ssrc_rx_by_ssrc_or_rtx, map_dynamic_by_rid, map_dynamic_finish, expect_stream_rx, handle_timeout"]}
{"id": "C45", "title": "Sender reports describe the stream", "statement": "A sender report names the stream's SSRC and CNAME, the number of media packets and payload octets sent so far (modulo 2^32), and an RTP time that is where the media clock stands at the report's NTP time: the time of the packet written last plus the wallclock time since.", "quantifier": "every history of writes, polls, NACKs, padding requests, cache changes, resets and timeouts before the report", "why_tests_cant": "counts and clock depend on the whole history; rounding depends on the values", "anchors": ["src/streams/send.rs: create_sr_and_update, sender_info, current_rtp_time, poll_packet_resend, poll_packet_regular, create_sdes", "src/streams/send_stats.rs: update_packet_counts", "src/rtp/mtime.rs: MediaTime"]}
{"id": "C46", "title": "Receiver feedback is sent as asked and when due", "statement": "For a receive stream: each key frame request (PLI or FIR) and each REMB made through the API is sent exactly once, at the next timeout, unless replaced by a later one or taken back when reception stops; FIR numbers are consecutive modulo 256; nothing is requested that was not asked for. Receiver reports about the stream appear at every timeout at or after the report interval and repeat the middle of the last sender report's NTP time and the delay since; after a timeout the next report instant is in the future. What the sender reported last (arrival and NTP time) is given to the application once by polling, later reports replacing untold ones, and nothing about the stream is left untold when there is nothing to poll.", "quantifier": "every history of packets, API calls on this and other streams, timeouts and polls around the stream's lifetime, any hash map order, any instants and intervals", "why_tests_cant": "requests, reports and pauses interleave with arbitrary traffic on other streams; exactly-once and numbering range over unbounded histories", "anchors": ["src/streams/receive.rs: request_keyframe, request_remb, maybe_create_keyframe_request, maybe_create_remb_request, need_rr, create_rr_and_update, set_sender_info, receiver_report_at", "src/streams/mod.rs: handle_timeout, regular_feedback_at, any_nack_enabled", "src/session.rs: handle_timeout, poll_timeout", "src/streams/receive.rs:690-726 poll_sender_info; src/streams/mod.rs: poll_sender_feedback"]}
{"id": "C47", "title": "Stream pause events are true and complete", "statement": "A receive stream is live from an accepted packet on for the pause threshold, and paused from the first timeout that finds the threshold over. A StreamPaused event says how the stream is when it is polled, and when no event is left to poll the last event about each stream says how it is (a stream starts paused).", "quantifier": "every history of packets (any sender), timeouts, threshold changes, API calls and polls in which each SSRC is used either for media or for repair; any hash map order; a declared stream while it stays in place", "why_tests_cant": "event truth depends on arbitrary interleavings of packets, timeouts and polls over several streams", "anchors": ["src/streams/receive.rs: handle_timeout, update_register, poll_paused, set_pause_threshold, paused_at", "src/streams/mod.rs: poll_stream_paused, paused_at"]}
{"id": "C48", "title": "Data channel life cycle", "statement": "Each data channel is announced with ChannelOpen at most once and never after its ChannelClose; ChannelClose comes at most once; no data after ChannelClose nor after the application closed the announced channel; once the application has closed an announced channel, ChannelClose has been delivered by the time poll_output has nothing more from SCTP. From ChannelOpen to ChannelClose Rtc::channel() gives a handle, after ChannelClose never; a handle without ChannelOpen exists only for channels created with a negotiated stream id.", "quantifier": "every SCTP implementation (arbitrary answers and events), every sequence of API calls, datagrams, timeouts and polls", "why_tests_cant": "the order of events depends on arbitrary interleavings of calls, peer messages, stream resets and failures", "anchors": ["src/sctp/mod.rs: RtcSctp (do_poll, open_stream, close_stream, is_open)", "src/channel.rs: ChannelHandler", "src/lib.rs:1703-1780, 2112-2124: do_poll_output, channel"]}
{"id": "C49", "title": "What is sent and received on data channels", "statement": "Every ChannelData event carries the exact content of one message just read from that channel's SCTP stream, text or binary as its protocol identifier says (nothing for the 'empty' identifiers), and every user message read from the stream of a channel is given out at once, exactly one event per message. Channel::write puts the whole message, once, on the channel's stream, under the identifier that makes the peer read back the same message, and only while it fits under the buffered-amount limit; apart from that only DCEP OPEN (for channels created here, right after the stream has been opened with the configured reliability) and DCEP ACK (right after a peer's OPEN was read and applied) are written.", "quantifier": "every SCTP implementation (arbitrary answers and events), every sequence of API calls, datagrams, timeouts and polls", "why_tests_cant": "loss, duplication or mixing of messages shows only in particular interleavings of several channels, closes and stream events", "anchors": ["src/sctp/mod.rs: RtcSctp (do_poll, write, open_stream)", "src/sctp/dcep.rs", "src/channel.rs: Channel::write, ChannelHandler", "src/lib.rs:1703-1780"]}
{"id": "C50", "title": "Data channel opening is bounded, polls return, nothing panics", "statement": "A channel whose SCTP stream cannot be opened stays waiting for at most 10 seconds after the first idle poll that saw it waiting, and meanwhile poll_output asks to be called again within half a second. A poll returns as long as the association's event queue is finite. No data channel operation panics, except creating a channel with a negotiated stream id that is taken (documented) or confirming an unknown channel (never done by callers), provided labels and protocols of in-band channels fit into 1488 bytes.", "quantifier": "every SCTP implementation with a finite event queue that has the streams it lists, every sequence of API calls, datagrams, timeouts and polls", "why_tests_cant": "starvation and panics depend on arbitrary schedules of timeouts, failures of the stream to open and events from the peer", "anchors": ["src/sctp/mod.rs: do_poll, open_stream, poll_timeout", "src/channel.rs: new_channel, confirm"]}
{"id": "C51", "title": "The peer connection only works with the verified peer", "statement": "With fingerprint verification on (the default), every certificate the DTLS engine reports is compared with the fingerprint in force (the last one set with the direct API, or the first one learned from SDP): unless it is the SHA-256 fingerprint in force, that poll_output returns an error, the Rtc is dead, and nothing further (keys, data, datagrams) happens after it was seen. Event::Connected is given at most once, and only when DTLS came up. Everything other than ICE's own messages is sent to the address pair ICE nominated last, nothing before a nomination, and the packets of the DTLS engine are sent once each in the order they were made. No call panics, unless the DTLS engine gives out keys without having been given a datagram.", "quantifier": "every ICE agent, DTLS engine, SCTP, session and statistics component (arbitrary state machines), every sequence of polls, inputs, SDP and API calls", "why_tests_cant": "the order in which the DTLS engine reports certificate, keys and data and the interleaving with ICE nominations and API calls are unbounded", "anchors": ["src/lib.rs: Rtc::poll_output, handle_input, init_dtls (903-939, 1228-1336, 1481-1854, 1959-2098)", "src/dtls.rs", "src/crypto/finger.rs"]}
{"id": "C52", "title": "Life cycle and shutdown of the peer connection", "statement": "A dead Rtc (is_alive() false) stays dead: every poll gives a timeout in the distant future, inputs are ignored, nothing is sent. From a successful close() or Event::Closed on, writers and channels are gone for good, and whenever poll_output gives a timeout the Rtc is dead exactly if the DTLS engine is closed, the RTP session has said goodbye and all DTLS packets are sent. It dies in no other way than that, disconnect(), or an error from poll_output. As long as DTLS packets wait and ICE has never nominated an address, the shutdown does not end. A call answers an error only if a component failed or the certificate is not the known one, and a failure of the DTLS timer, of the session's timeout, of DTLS at a datagram, of starting DTLS and of closing is answered by the call that met it.", "quantifier": "every set of components, every sequence of polls, inputs, SDP and API calls", "why_tests_cant": "shutdown can begin at any point of any handshake, from either side, and repeatedly", "anchors": ["src/lib.rs: close, start_close, start_dtls_close, close_drain_complete, disconnect, is_alive, poll_output, handle_input", "src/dtls.rs: is_closed"]}
{"id": "C53", "title": "Time in the peer connection", "statement": "The clocks of ICE, SCTP, data channels, session and statistics never go back, whatever times are passed to handle_input: an input older than the latest time leaves them alone. The timeout from poll_output is never before the latest time handed in, is the first instant any component wants to be called at (the present if that is over, the distant future if there is none), and the reason names that component.", "quantifier": "every set of components, every sequence of polls and inputs with arbitrary times", "why_tests_cant": "times are arbitrary and come from the application, any of six sources may be first", "anchors": ["src/lib.rs:1827-1853, 2025-2064", "src/util/mod.rs: Soonest", "src/util/time_tricks.rs"]}
{"id": "C54", "title": "Samples become packets", "statement": "Writer::write answers Ok exactly if the payload type is one of the session's, the RID, if given, is allowed on the medium and at most 100 samples wait; otherwise nothing changes. Accepted samples are taken by handle_input(Timeout) one per medium and call, in the order written, none twice and none lost but those whose failure handle_input reports. Each frame goes to a stream of its medium (of its RID if it names one), cut by the packetizer of that medium, payload type and RID. What leaves a stream on its SSRC is a prefix of the packets of its frames: one frame after the other, chunk by chunk, numbered without a gap from the declared first number, with payload type, RTP time (sample time in clock ticks modulo 2^32), marker (last packet of a video frame; every packet of an audio frame that starts a talkspurt, but for CN), and each header extension on all, the first or the last packet of the frame as it must be. Nothing panics.", "quantifier": "every packetizer, every set of media and streams, every history of writes, timeouts, polls, RTCP, padding requests, RID changes and close", "why_tests_cant": "order and numbering must hold for every interleaving of media, layers and resends", "anchors": ["src/media/writer.rs: Writer::write", "src/media/mod.rs: set_to_payload, do_payload, payloader_for", "src/packet/payload.rs: Payloader", "src/session.rs: handle_timeout, do_payload, close_rtp", "src/streams/send.rs"]}
{"id": "C55", "title": "What leaves the session", "statement": "Before keying material is set poll_datagram gives nothing. Afterwards each RTP datagram is the SRTP packet of one packet of one stream, in order, and over the whole session no two RTP packets share an SSRC and 48-bit index, so no cipher input is used twice (frame API); the i-th RTCP datagram uses SRTCP index i modulo 2^31. The transport-wide sequence numbers over all streams count by one from the start. Feedback given to a session with keys reaches the peer: the compounds that leave, undone and parsed, hold each item once or it is still queued. After close_rtp no media leaves; polling sends one goodbye for each SSRC of the session, main and RTX, and then is_rtp_closed holds. Feedback cleared by clear_feedback does not leave.", "quantifier": "every packetizer, cipher, set of media and streams, and history of writes, timeouts, polls (with any choice of stream by the pacer), RTCP, feedback, clear_feedback and close", "why_tests_cant": "nonce reuse between any two packets of a session, of different streams, resends and padding, is a claim over all histories and pairs", "anchors": ["src/session.rs: poll_datagram, poll_feedback, poll_packet, close_rtp, clear_feedback, is_rtp_closed, set_keying_material", "src/streams/mod.rs: local_sender_ssrcs, reset_send_buffers", "src/rtp/rtcp/list.rs: lists_from_iter", "src/rtp/srtp.rs", "src/streams/send.rs"]}
{"id": "C56", "title": "Bandwidth probing", "statement": "handle_timeout of the session asks for a probe only while probing is allowed, the link is not known to be congested and a desired bitrate and an estimate were reported: two initial probes at 3 and 6 times the estimate; exponential ones only after 70 % of the last probe was reached, with a new estimate or a second later; probes in application-limited times only in such times; drop and periodic probes at least 5 s after the last decision. The rate is that of the kind, at most twice the desired bitrate of the time of the decision and at least 5 kbit/s. Cluster ids count up between resets. A timeout that asks for no probe leaves the next poll in the future. A result is for a probe that was started, without an interruption of probing since, and is what all the feedback on its packets since then measures: at least 4 packets and 80 % of the bytes, within a second each way; the lesser of the sending and receiving rates (95 % of the latter if the link is saturated). At most 20 clusters are held.", "quantifier": "every bitrate arithmetic with the stated laws; every history of timeouts (any times, any estimates, causes and application-limited regions), feedback, ends of probes, desired bitrates and resets", "why_tests_cant": "estimates, causes, times and interruptions interleave arbitrarily; a wrong probe shows only as congestion", "anchors": ["src/bwe/probe/control.rs: ProbeControl", "src/bwe/probe/estimator.rs: ProbeEstimator", "src/bwe/probe/cluster.rs", "src/bwe/mod.rs: handle_timeout, propagate_estimate, update, reset, start_probe, end_probe, poll_timeout", "src/session.rs:348-372"]}

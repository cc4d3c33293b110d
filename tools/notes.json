{
 "C01": {
  "note": "Stated for the wire value and any previous 64-bit counter below 2^63."
 },
 "C02": {
  "note": "Numbers below 2^54, as the stream bounds them."
 },
 "C04": {
  "note": "Full completeness is false: a forward jump of more than 101 makes missing numbers leave the window early (C04_completeness_refuted). Proved for jumps the window can hold."
 },
 "C06": {
  "note": "The count of missing numbers is proved in full; the interval fraction is false when late packets make the interval loss negative (C06_fraction_refuted), and the negative clamp constant has one digit too many (C06_negative_clamp_refuted, not reachable from an ordinary start)."
 },
 "C08": {
  "note": "Count limit and retention proved; expiry is false after packets were overwritten (C08_expiry_refuted) and retention is false for numbers with gaps (C08_retention_with_gaps_refuted)."
 },
 "C09": {
  "note": "Soundness and the exact panic conditions proved; completeness is false after overwriting (C09_smaller_lookup_refuted)."
 },
 "C07": {
  "status": "proved",
  "note": ""
 },
 "C13": {
  "status": "proved",
  "note": "Ordering and rebase exact within 64 bits; the *_refuted theorems are witnesses of extra facts (Eq is not transitive across frequencies, rebase wraps past 64 bits)."
 },
 "C14": {
  "status": "proved",
  "note": "Round trip for headers with has_extension=true (the only ones str0m sends); C14_no_extension_refuted shows the writer ignores has_extension=false."
 },
 "C16": {
  "status": "proved",
  "note": "Proved in full for the exact claim (C16_round_trip_exact); C16_voice_activity_refuted: the voice activity flag does not survive; C16_empty_mid_refuted: an empty mid is not read."
 },
 "C11": {
  "status": "partial",
  "note": "Genuineness and absence of panics proved for all histories and codecs. Order is false in general (C11_order_refuted: the look-ahead cache is keyed by queue position); proved for increasing arrival and for hold_back=1."
 },
 "C12": {
  "status": "partial",
  "note": "VP8 decisions proved right for every layering, loss pattern and wrap. VP9 only until a wire number wraps: after picture id 32767 every frame is dropped for ever (C12_vp9_wrap_refuted). Sequence-number contiguity proved for codecs that accept every payload, under the arrival conditions of C11."
 },
 "C33": {
  "status": "proved",
  "note": "C33_default_direction_refuted records an extra fact: a line without direction attribute is read as inactive (RFC 8866: sendrecv)."
 },
 "C38": {
  "status": "proved",
  "note": "Proved with the stated conditions (fresh mids, shared codecs, one live m-line). The *_refuted theorems show what fails outside them: stopping the last media, no common codec, a duplicate-mid answer panics, stopped media can be given a sending direction, refused offers are not atomic, dropped calls are not rolled back, MediaChanged can be lost, the BUNDLE consistency check never fires."
 },
 "C18": {
  "status": "proved",
  "note": "Primitives (AES block, HMAC-SHA1, GCM seal/open) are parameters with the laws of prims_ok (sizes; open accepts exactly sealed texts). IV uniqueness for indices below 2^48; C18_iv_beyond_48_bits_refuted shows the bound is needed."
 },
 "C19": {
  "note": "Primitives are parameters. Extra size claim: C19_feedback_fits_partial (proved unless the MTU is divisible by 4 with GCM), C19_feedback_fits_refuted (the assert in session.rs:981 then panics), C19_index_wraps_refuted (after 2^31 packets).",
  "status": "proved"
 },
 "C28": {
  "note": "The refuted theorems show where the informal claims fail in the code: requests create redundant pairs and exceed the limit, discarded local candidates return, recreate_candidate_pairs mixes IP versions, zero retransmissions panics.",
  "status": "proved"
 },
 "C39": {
  "note": "'Only succeeded pairs carry data' is false in the code (C39_connected_unchecked_refuted, C39_replacement_refuted); the exact causes are proved instead.",
  "status": "proved"
 },
 "C40": {
  "status": "proved",
  "note": "The state is exact after every answered check and every timeout; between them (e.g. right after a request or add_remote_candidate) the code does not reevaluate it."
 },
 "C41": {
  "note": "Refuted: the first timeout with a queued request leaves no timer; ice_restart discards unpolled events.",
  "status": "proved"
 },
 "C42": {
  "status": "proved",
  "note": "C42_equal_refuted documents that equal tie-breakers do not settle. Integrity-protected messages are assumed to be genuine; forged ones failing the integrity check are included."
 },
 "C17": {
  "note": "Every datagram; the classification is compared with an RFC 7983 table."
 },
 "C20": {
  "note": "Packing, draining, reports-first and what the peer reads are proved for every queue and size; C20_blocking_refuted: an item that never fits blocks the queue behind it.",
  "status": "proved"
 },
 "C21": {
  "note": "No panic for every byte string; C21_roundtrip gives exactly what is read back for every list; exact round trip fails only in the cases of the refuted theorems (empty lists, REMB 0, long SDES, invalid UTF-8).",
  "status": "proved"
 },
 "C23": {
  "note": "Every produced report is exact within its range and quantisation. Refuted: panic at twcc.rs:451 for some patterns, overflow of the count, unbounded drift, forgotten packets after a late one, 8192 gap."
 },
 "C24": {
  "note": "Parsing never panics (all byte strings); iteration exact for well formed messages; crafted run chunks make the iterator panic (refuted)."
 },
 "C25": {
  "note": "Proved for all histories; the overflow and gap panics are exact (refuted theorems).",
  "status": "proved"
 },
 "C26": {
  "note": "Refuted parts: verify panics for integrity as first attribute, long usernames, addresses read past the attribute, fingerprint not checked, SOFTWARE not written. Round trip and layout proved for every writable message.",
  "status": "proved"
 },
 "C27": {
  "note": "Proved for components and preferences in range; the refuted theorems show what happens outside (remote priority unchecked, custom preferences, many relays).",
  "status": "proved"
 },
 "C29": {
  "note": "Refuted: labels above 1488 bytes panic; 32-bit reliability parameter truncated to 16 bits. Everything else proved, with the exact panic condition.",
  "status": "proved"
 },
 "C30": {
  "note": "Uniqueness, parity, freshness and opened-exactly proved; refuted: an automatic channel created first can take a later negotiated id.",
  "status": "proved"
 },
 "C31": {
  "note": "Rates are exact rationals. The rate bound includes the rounding term per timeout; without it the claim is false (refuted). Padding for probes and the promised padding time: PacerProps3.",
  "status": "proved"
 },
 "C32": {
  "note": "Opus, G7xx, comfort noise, null, VP8, VP9, AV1, H264, H265, H266.  Fails for two-byte units of H265/H266, DONL on H265 (two bytes over the MTU) and what else the _refuted theorems show."
 },
 "C36": {
  "note": "Refuted: dimension 0xFFFF panics; writer wrong for some 3-4 stream shapes. Proved under the exact conditions."
 },
 "C35": {
  "status": "proved",
  "note": "Two-peer theorems need configurations in which a remote description fits at most one entry (C35_enabled_configs: every sequence of enable calls gives one) and at most 21 entries. The _refuted theorems show what does not hold beyond that: crafted remote SDP or two levels of one H.264 profile panic, and an answer can then list a codec that was not offered. C35_feedback_flags: what a remote line's rtcp-fb attributes switch on."
 },
 "C34": {
  "status": "proved",
  "note": "combine's parser semantics (consumed/not consumed), Display/FromStr of IpAddr, DefaultHasher, HashMap order and Unicode alphanumerics are parameters or modelled as described in TextModel/SdpModel. The _refuted theorems show what holds no further: a trailing semicolon in fmtp loses the parameters or the next line, an accepted description rewritten need not be accepted, rid with pt= is not read, mids are rewritten and can collide, text after an unknown line is dropped silently, ssrc without a value swallows the next line, and writing panics for an empty fingerprint or simulcast."
 },
 "C43": {
  "status": "proved",
  "note": "C43_stream_refines_automaton gives the exact packets; the other theorems read off order, completeness, NACK answers, padding and transport numbers. Requests (PLI/FIR/REMB) are in SrProps. Not covered: round-trip/loss statistics; the f32 comparison with the retransmission cap is an arbitrary function (assumed never exceeded in C43_nack_is_answered). The _refuted theorems are panics outside the proved conditions."
 },
 "C44": {
  "status": "partial",
  "note": "Proved: no panic, authenticity, at most once (SSRCs split into media and repair), delivery of fresh packets and of repairs that were asked for. False as stated for rejected packets, hence _partial and _refuted: before SRTP is asked a forged packet can move a stream to another SSRC, use up reset_roc, or reopen the replay window; a repair for a number before the first index kills the stream; a one-byte repair is taken for packet 0. SRTP itself is the parameter dec (C15-C17)."
 },
 "C45": {
  "status": "partial",
  "note": "Proved for streams with an RTX SSRC whose payload types stay known: SSRC, NTP time, cname, packet and octet counts as the code counts them (media and retransmissions), RTP time within a tick and 2 us. False as stated (_refuted): the counts include retransmissions (another SSRC) and dropped packets; the RTP time is not exact, and 0 when the wallclock lies ahead."
 },
 "C46": {
  "status": "partial",
  "note": "Proved over all histories: requests served exactly once, FIR numbering, report times, reports when due. The next report instant is later (C46_next_report_later_partial) only without a probe stream: one unauthenticated datagram with SSRC 0 makes the timeout loop spin for ever (_refuted). Refuted too: switching NACKs on through stream_rx is not noticed."
 },
 "C47": {
  "note": "Proved for SSRCs split into media and repair, the stream declared and left in place. Which packets count is existential but must include every packet handed on. Refuted side claims: the wake-up instant is the first stream's, not the earliest; an event may repeat the last one.",
  "status": "proved"
 },
 "C48": {
  "note": "Order of events, reporting of closes and availability of the handle proved for an arbitrary SCTP implementation. Refuted neighbours: data can precede ChannelOpen; a negotiated channel can become usable without ever being announced; a close before the channel has a stream is lost.",
  "status": "proved"
 },
 "C49": {
  "note": "Proved for an arbitrary SCTP implementation and every history: what is delivered was just read, what is read is delivered, what is written is the application's message or a DCEP message in its place. Partial writes and message size limits of the peer are not modelled.",
  "status": "proved"
 },
 "C50": {
  "note": "Waiting bounded by 10 s, retry timer within 500 ms, polls return if the event queue is finite (`finite`), no panic if reads give bytes and listed streams exist (`sane`) and labels fit (see C29_long_label_refuted).",
  "status": "proved"
 },
 "C51": {
  "note": "Proved for arbitrary components and all histories. Refuted beyond the statement: Connected may never be told (C51_connected_told_refuted).",
  "status": "proved"
 },
 "C52": {
  "note": "Proved for arbitrary components and all histories. Refuted beyond the statement: Closed only once; close() that fails leaves the Rtc half closed.",
  "status": "proved"
 },
 "C53": {
  "note": "Proved for arbitrary components and all histories. Refuted beyond the statement: times of received datagrams are not held back; nothing to poll after a timeout.",
  "status": "proved"
 },
 "C54": {
  "status": "proved",
  "note": "Proved for any packetizer. The numbers of the packets must fit 64 bits and media times must have a positive denominator. The _refuted theorems: a RID of None is never checked, on a simulcast medium it goes to an arbitrary layer, and a medium whose samples fail stops those after it."
 },
 "C55": {
  "status": "proved",
  "note": "Frame API; the numbers must fit 48 bits and the SSRCs be distinct (hypotheses in `sending`). Goodbye: the polls must not panic (GCM with a target MTU divisible by 4: see C19) and the MTU be at least 148. The _refuted theorems: application feedback bigger than a datagram pushed after the close blocks the goodbyes for good, RTP mode reuses a nonce if the application writes a number twice, feedback polled before there are keys is lost, and packetized datagrams can exceed the target MTU."
 },
 "C56": {
  "status": "proved",
  "note": "For any arithmetic with four laws (f64 without NaN has them). Estimates, causes and the application-limited region are inputs. Ids and results: fewer than 2^63 calls (64-bit ids). The _refuted theorems: after an interruption (no padding queue) with an unchanged estimate no probe is asked for ever again; Bwe::reset restarts cluster ids, so packets of an old probe count for the new one with its id."
 }
}
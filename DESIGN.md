# DESIGN

A machine-checked model of algesten/str0m (the Rust source in /repo, read as text) in Coq 8.16.1, and
proofs about it.  `properties.jsonl` lists the properties in English, `MANIFEST.json` maps each to its
theorems, `seeded/LOG.jsonl` records what happens to the theorems when the model is broken on purpose.

## 1. Conventions

* One topic = `XModel.v` (the code, function by function, each definition citing file and lines and
  saying where it simplifies), `XSpec.v` (an independent specification, written from the RFC or from the
  English property, not using the model's helpers), `XProofs*.v` (invariants, lemmas), `XProps.v`
  (only the theorems `Cnn_...`, each followed by `Print Assumptions` and an `Example` that exhibits
  a concrete, non-trivial state meeting its hypotheses).
* Integers are `Z` with explicit wrap-around (`mod U16`, ...) and range guards.  Bytes are `list Z`
  with `bytes_ok`.  `nat` only for lengths, indices and fuel.  Fuel is always proved sufficient
  (either the loop variable is the data itself or a lemma shows the fuel never runs out).
* Every model function that can fail returns `res A := Ok a | Err | Panic`.  `Panic` is any Rust panic:
  index out of range, slice out of range, `unwrap`/`expect`/`assert!`, and arithmetic overflow (debug
  build).  "Never panics" theorems say the result is not `Panic`.
* Suffix `_partial`: a proved part of the English property; the note in MANIFEST says what is missing.
* Suffix `_refuted`: a proved counterexample: the code (as modelled) violates the claim.  These come
  with a positive theorem under the exact condition where one holds.
* A property is "proved" in MANIFEST when its theorems cover the English statement for everything it
  quantifies over; "partial" when something is missing or the code refutes part of it.

## 2. Trusted base

* Coq's kernel (8.16.1) and `vm_compute`, used to evaluate closed examples and some finite case
  checks (e.g. all 256 values of a byte, `Brute.v`; these are complete enumerations).  No `native_compute`.
* `Print Assumptions` prints "Closed under the global context" for every theorem `Cnn_...`
  (it is run in the `XProps.v` files).  There are no axioms of ours, no `Admitted`,
  no switched off kernel checks, no functors or module types.  `coqchk -o` over the whole library lists
  seven constants of `Coq.ssr.ssrunder` (the standard distribution's opaque module type
  instance), pulled in by loading `Coq.ssr`; no theorem depends on them.
* The faithfulness of the model to the Rust text: each definition was transcribed by hand.
* Cryptographic primitives (AES block, HMAC-SHA1, AES-GCM, CRC-32) are parameters of the theorems with
  stated laws (`prims_ok`: output sizes; "open accepts exactly what seal produced").  No claim about
  their strength.  Random numbers (transaction ids, pair ids, tie-breakers) are either arbitrary inputs or
  a counter (i.e. assumed not to collide), as each model file says.
* The `combine` 4.6 parser combinators used by sdp/parser.rs are modelled by hand (TextModel.v: success/failure with or without
  consumed input).  For the SDP text, Display/FromStr of `IpAddr` (printed as a word and read back), the 64-bit hash of a
  foundation, `char::is_alphanumeric` beyond ASCII and the iteration order of a `HashMap` are parameters (`env`, laws `env_ok`).
* Floating point is not modelled as such: rates in the pacer are exact rationals; REMB's f32 is the
  integer part; jitter (f32) is left out; NTP/SystemTime conversions are left out.

## 3. Per property: what is modelled and how it is proved

| id | source modelled | model | method |
|----|-----------------|-------|--------|
| C01 | rtp/header.rs `mk_extend!` | Seq | arithmetic over all previous values and all wire values |
| C02–C05 | streams/register_nack.rs, rtp/rtcp/nack.rs | Nack | invariant over all histories of update/nack_report; window relation to the set of seen numbers |
| C06 | streams/register.rs (loss part) | Register | refinement to the set of received numbers |
| C07–C09 | streams/rtx_cache_buf.rs, rtx_cache.rs | Evict | refinement of the ring to the history of pushes |
| C10 | streams/send_queue.rs | SendQueue | invariant relating totals and queue |
| C11 | packet/buffer_rx.rs | BufRx | any codec (depacketizer, head/tail and contiguity are parameters); invariant over all push/pop histories |
| C12 | packet/contiguity*.rs | Contig | the decisions compared with a stream of frames with ground-truth references |
| C13 | rtp/mtime.rs | Mtime | arithmetic |
| C14–C16 | rtp/header.rs, rtp/ext.rs, rtp/id.rs | Header, Ext | byte-level codec, induction over the extension list |
| C17 | io/mod.rs | Demux | case analysis on all datagrams against RFC 7983 |
| C18–C19 | rtp/srtp.rs, crates/proto crypto/provider.rs, session.rs feedback | Srtp | key derivation, IV construction, protect/unprotect over abstract primitives |
| C20–C21 | rtp/rtcp/*.rs | Rtcp | byte-level codec of all packet types, the packer, totality of parsing |
| C22 | rtp/rtcp/list.rs | Rlist | refinement array → list |
| C23 | rtp/rtcp/twcc.rs receive register | TwccRecv | invariant over histories of arrivals and reports |
| C24 | rtp/rtcp/twcc.rs parse/write/iterate | Twcc | codec; iterator semantics |
| C25 | rtp/rtcp/twcc.rs send register | TwccSend | invariant over histories of sends and reports |
| C26 | crates/is/src/stun.rs | Stun | byte-level codec, HMAC/CRC abstract |
| C27 | crates/is/src/{candidate,preference,pair}.rs | Prio | arithmetic; counting |
| C28, C39–C42 | crates/is/src/{agent,pair}.rs | Ice | state machine with all public calls; invariants by induction over call histories; for C42 two agents and a lossy, reordering network |
| C29 | sctp/dcep.rs, sctp/mod.rs:1330-1380 | Dcep | codec |
| C30 | channel.rs | Chan | invariant over call histories |
| C31 | pacer/leaky.rs, queue.rs, bwe/probe/cluster.rs | Pacer | potential argument over call histories, rates are rationals |
| C32, C37 | packet/{opus,g7xx,comfort_noise,null,vp8,vp9,av1,h264,h265,h266}.rs and others as listed in 4 | Vp8, Vp9, Av1, H264, Nal (H265 + H266), ... | codec; induction on fragments |
| C33, C38 | rtp/dir.rs, change/sdp.rs, session.rs, media/mod.rs, sdp/data.rs (consistency) | Nego | two peers exchanging offers and answers; agreement invariant over histories |
| C35 | format/{codec_config,payload_params,codec,format_params}.rs, packet/h26x_profile.rs, sdp/data.rs (rtp_params, as_media_attrs), change/sdp.rs (add_new_lines) | Pay | matching against a separate notion of compatibility; numbers over all update histories; two-peer invariant over all exchanges |
| C34 | sdp/data.rs (Display of everything, FormatParam, check_consistent), sdp/parser.rs (whole), crates/is candidate.rs (text, from_parts) and parse.rs | Text, Sdp | combine's parser semantics as a small combinator model; every attribute, line and description is parsed back from its text followed by anything; invariants of all accepted texts |
| C43 | streams/send.rs, util/value_history.rs | Tx | refinement to an automaton over calls and packets; induction over its runs |
| C44 | session.rs:440-714, streams/receive.rs, streams/mod.rs (receiving half) | Rx | session invariant plus a ghost list of packets taken; induction over operations |
| C45 | streams/send.rs:900-1056, send_stats.rs:49-73 | Tx, Sr | the counters and the clock as folds over calls and outputs; induction over histories |
| C48, C49, C50 | sctp/mod.rs (RtcSctp), channel.rs, lib.rs:1703-1780, 2112-2124; sctp-proto an arbitrary `proto` | Sctp | invariant tying SCTP entries, channel handler and the history of events (`inv`), one lemma per operation, induction over runs |
| C46, C47 | streams/receive.rs (requests, reports, pauses), streams/mod.rs:399-517, session.rs:275-333 | Rx, RxFb | one stream followed through every operation of the Rx model: a separate automaton of what was asked for and of liveness; induction over histories |
| C51, C52, C53 | lib.rs: Rtc (poll_output, handle_input, close, disconnect, init_dtls), dtls.rs; all components an arbitrary `comps` | Rtc | each part of poll_output is a `stage` with a fixed contract; stages compose, then induction over runs with an invariant over the history |
| C54 | media/writer.rs, media/mod.rs (sending), packet/payload.rs, session.rs do_payload, on top of streams/send.rs (C43) | Wr | invariant over histories: per medium the accepted samples, per stream a run of the C43 automaton whose writes are the frames' packets |
| C55 | session.rs poll_datagram, poll_feedback, poll_packet, close_rtp, on top of C54, C18–C20 | Ses | the runs of the session are runs of C54's media and streams and of the SRTP context; RTX numbers grow (C43), main numbers are the frames'; packing keeps what can be carried |
| C56 | bwe/probe/control.rs, bwe/probe/estimator.rs, the driving parts of bwe/mod.rs, session.rs:348-372; bitrate arithmetic abstract | Probe | invariant tying the prober to the history of reports and probes (`inv`), to the ids (`idv`) and each cluster to the feedback heard of it (`einv`); induction over calls |
| C36 | rtp/vla.rs | Vla | codec against the specification of the extension |

Properties added later are described in section 6.

## 4. Modelled / not modelled

Modelled (whole file unless said): rtp/header.rs, rtp/ext.rs, rtp/id.rs, rtp/mtime.rs, rtp/dir.rs,
rtp/vla.rs, rtp/srtp.rs, rtp/rtcp/* (all), io/mod.rs (classification), streams/register_nack.rs, streams/register.rs
(without jitter), streams/rtx_cache.rs, streams/rtx_cache_buf.rs, streams/send_queue.rs, streams/send.rs, util/value_history.rs, packet/buffer_rx.rs,
packet/contiguity*.rs, packet/opus|g7xx|comfort_noise|null|vp8|vp9|av1|h264|h265|h266.rs, pacer/leaky.rs + queue.rs,
bwe/probe/cluster.rs, channel.rs (id bookkeeping), sctp/dcep.rs, change/sdp.rs (m-line bookkeeping, directions), sdp/* (data and parser), format/* (codec configuration),
crates/is: stun.rs, agent.rs, pair.rs, candidate.rs (priority), preference.rs.

Not modelled: DTLS (delegated to crypto back ends), SCTP transport itself (sctp-proto crate), the
crypto back ends, netem, statistics, logging, the bandwidth estimator's floating-point parts, SystemTime
conversions.  Section 6 lists what later models add.

Simplifications are written at the head of each model file.  Common ones: Instants are integers
in one unit; Strings are byte lists; HashMaps with unspecified iteration order are lists (the theorems
hold for any order or the order is an input); logs are dropped.

## 5. Findings: where the code (as modelled) departs from the informal claim

Each item marked with a theorem is proved in the model; the others were noted while reading.

* NACK (C04_completeness_refuted): a forward jump of more than 101 numbers makes missing numbers leave the window unasked.
* Receiver reports (C06_*_refuted): when late packets make the interval loss negative, the fraction wraps to a
  large u8; the negative clamp constant is 0x8000000 instead of 0x800000.
* RTX cache (C07_*, C08_*, C09_* refuted): `contains` ignores the position; expired entries stay after
  an overwrite; lookups by size fail after an overwrite; gaps make growing collide; payloads ≥ 2000 bytes panic.
* Depacketizing buffer (C11_order_refuted): the look-ahead cache is keyed by queue indices and goes stale after an
  out-of-order insertion: frames can be emitted out of order.
* VP9 contiguity (C12_vp9_wrap_refuted): after picture id 32767 every frame with a TL0 index is dropped for ever;
  (C12_vp9_base_wrap_refuted) TL0 255→0 is reported as a discontinuity.
* MediaTime (C13_*_refuted): equality is not transitive across frequencies; rebase wraps silently past 64 bits.
* RTP header (C14_no_extension_refuted): `has_extension = false` is ignored by the writer.
* Extensions (C16_*_refuted): the audio level's voice flag is set for every nonzero level; an empty mid/rid panics on
  write; TransmissionTimeOffset is written as 4 bytes (RFC 5450: 3).
* SRTP/SRTCP (C18_/C19_ refuted): `assert!(protected.len() < mtu)` (session.rs:981) panics for an MTU divisible by 4 with
  GCM and a full RTCP packet; indices above 2^48 reuse IVs; SRTCP index wraps at 2^31 without rekeying.
* RTCP (C20_/C21_ refuted): a first item that never fits blocks the queue; REMB bitrate 0 is read back as 8388608;
  empty BYE/NACK are not read back; SDES strings > 255 bytes corrupt the packet; invalid UTF-8 garbles following chunks.
* TWCC receiver (C23_ refuted): an assertion (twcc.rs:451) panics at the default MTU for some arrival patterns;
  ranges > 65535 overflow; deltas are truncated so the reported times drift without bound; a late packet can
  make the next report call received packets missing; a gap of 8205 numbers is written as an empty run.
* TWCC parsing (C24_ refuted): runs of large deltas advance by n bytes instead of 2n; a run of length 0 makes the iterator panic.
* TWCC sender (C25_ refuted): base + count overflows for a crafted base: remote panic in debug builds.
* STUN (C26_ refuted): MESSAGE-INTEGRITY as first attribute makes verification panic (`integrity[..2]`);
  usernames > 128 bytes make `to_bytes` fail and the agent panics; XOR addresses are read beyond their
  attribute; FINGERPRINT is never checked; SOFTWARE and network cost are never written.
* Priorities (C27_ refuted): remote priorities are unchecked; 7692 relayed candidates underflow; custom preferences > 16 bits
  spill into the type bits; relayed cross-version preferences can collide.
* ICE agent (C28_, C39_, C41_, C42_ refuted): zero retransmissions panic; requests create redundant pairs and exceed the pair
  limit; discarded local candidates return; `recreate_candidate_pairs` mixes IP versions; a controlled agent can be
  Connected over a pair whose own check was never answered; replaced pairs inherit nomination; the first timeout with a queued
  request leaves no timer; `ice_restart` drops unpolled events; equal tie-breakers never settle.
* DCEP (C29_ refuted): label + protocol > 1488 bytes panics; the 32-bit reliability parameter is truncated to 16 bits.
* Channel ids (C30_negotiated_taken_refuted): an automatic channel can take id 0 before a negotiated channel asks for it; that channel never
  opens and the timeout is "now" for ever.
* Pacer (C31_ refuted): rounding to whole bytes at each timeout makes frequent calls starve or overshoot up to twice the rate.
* Packetizers (C32_ refuted): H264 one-byte NAL is no head; parameter sets larger than the MTU are dropped; an
  unfinished FU-A leaks into the next; VP8 with MTU ≤ descriptor silently drops the frame.
  VP9: shown key frames of profile 2 are sent as inter frames; flexible mode announces every frame as a key frame; reserved bits of the
  scalability structure are read as its group flag (media bytes lost); layers in the wrong order are accepted; a missing picture id is
  replaced by an old one; picture groups accumulate for ever.
  AV1: the delivered frame lacks temporal delimiters, padding and reserved units; a frame of nothing else vanishes; a later payload
  that starts with a fresh unit is a head too, so that a frame without its first packet can be delivered.
  H265, H266: units of two bytes (end of sequence) are sent, but their payload is rejected and the frame with it; with DONL a
  H265 payload can exceed the MTU by two; H266 leaves the extra zeros of long start codes on the unit before; the end of a
  fragmented unit counts as the end of the frame whatever the marker says, so that frames of several large slices are cut;
  H265 PACI packets lose the header of their unit; of two parameter sets of one kind the first is dropped.  Read only: the
  packetizer is never switched to DONL outside tests, while media/mod.rs:393-405 makes the depacketizer expect it when
  sprop-max-don-diff > 0 is negotiated (`C32_donl_mismatch_refuted` shows what then happens).
* Directions and offers (C33_, C38_ refuted): a missing direction attribute is read as inactive; stopping the last media yields an
  offer a str0m peer rejects; a duplicate-mid answer panics; no common codec yields an unparseable answer; two consistency checks
  (data.rs:110, 119) never fire; refused offers and dropped changes are not rolled back; MediaChanged can be lost.
* Payload types (C35_ refuted): two configured levels of one H.264 profile, one resend number for two codecs, or one number
  for two codecs in two m-lines make `assert_claim_once` panic on a remote SDP; an answer can list a codec that was not
  offered.  Read only: the H.264 level 1b test looks at level_idc 10 instead of 11 (h264_profile.rs:163-176); absent
  rtcp-fb lines are ignored (feedback is on by default); rtpmaps that the m-line does not list are used.
* SDP text (C34_ refuted): a trailing `;` in fmtp loses the parameters or swallows the next line (offer rejected when that is the
  direction); a non-key-value fmtp is rewritten as an empty one, which the parser then rejects; `a=rid` with `pt=` is not read; mids
  are rewritten (`-` to `_`, 16 characters) and may collide; everything after an unknown line is silently dropped; `a=ssrc`
  without `:` swallows the next line; an empty fingerprint or simulcast panics when written.
* VLA (C36_ refuted): width or height 0xFFFF overflows (remote panic); the writer puts masks in the wrong byte for 3–4
  non-uniform streams; 5 streams panic.

* Outgoing stream (C43_ refuted): a stream without RTX SSRC whose payload type has RTX panics when NACKed; an MTU over 2104 with a
  padding request over 1012 bytes panics.  C43_mid_on_every_packet: with an RTX SSRC the MID/RID extensions never stop.  Read only:
  `poll_packet_regular` restamps the head before popping, so the reported total queue time grows until the queue is empty;
  `reset_ssrc` after `set_rtx_cache(.., None)` brings back byte histories that nothing purges; dropped packets and resends count in
  the sender report of the main SSRC.

* Incoming RTP (C44_ refuted): mapping by MID/RID and `extend_seq` happen before SRTP, so an unauthenticated packet can move a stream
  to another SSRC, consume a pending `reset_roc`, and create a register from another SSRC's history (replay window reopened); the
  index of an RTX'd packet is never authenticated (index just below 2^64, later packets all dropped); an RTX payload of one byte is
  delivered as packet 0.

* Receiver feedback (C46_ refuted): any datagram with SSRC 0, authenticated or not, creates the probe stream; its report instant is
  counted by `regular_feedback_at` but `need_rr` never lets it report, so `poll_timeout` stays in the past for ever and the
  application's loop spins.  `StreamRx::suppress_nack(false)` through `stream_rx` does not clear the cached `any_nack_active`.
* Pauses (C47_ refuted): `Streams::paused_at` is the first stream's deadline (`find_map`), not the minimum; a pause event can repeat.

* Sender reports (C45_ refuted): packet and octet counts include retransmissions, which go out on another SSRC, and packets dropped for
  an unknown payload type; the RTP time is one tick behind where it could be exact, and 0 when the wallclock given with the last
  packet lies ahead.
* Feedback (C35_feedback_only_if_listed_refuted): NACK, PLI, FIR, REMB and transport-wide feedback are taken as understood by a peer
  whose m-line has no rtcp-fb line.

* Data channels (C48_ refuted): data is given out before ChannelOpen when it overtakes the DCEP ACK; a negotiated channel whose peer sent
  something first becomes usable without ChannelOpen; close_data_channel before the channel has a stream is lost and it opens later.

* Peer connection (C52_closed_once_refuted, C52_close_refused_refuted): Event::Closed comes twice when a lost SCTP association is followed by the peer's
  close_notify (or the reverse).  close() closes the RTP session before it asks SCTP to shut down; if SCTP refuses (sctp-proto does, while its
  own handshake is going on), close() returns an error, media is dead, but the Rtc stays Alive and DTLS open.
* C52_close_waits_for_ice: close() before ICE has nominated a pair never finishes if the DTLS engine has made a packet (its
  ClientHello or the close_notify): is_alive() stays true for ever, against the doc comment of close().
* C51_connected_told_refuted: DTLS coming up and the peer's close_notify in the same poll lose Event::Connected.
* C53_receive_time_refuted: Input::Receive with a time before the latest is passed to the session with that old time (only the timeout part is
  guarded).  C53_timeout_is_last_refuted: a poll after Output::Timeout, without input, may give an event.

* Frame API (C54_ refuted): write's doc says a RID of None is checked against what was negotiated; it is not: the sample is accepted, and on a
  simulcast medium goes to whichever layer the hash map yields first, on a medium without stream it is lost and handle_input fails.  A medium whose
  sample fails keeps every later medium from payloading in that timeout, and skips the rest of handle_timeout (NACK, reports, TWCC, BWE); if it
  fails each time the others starve.  Read only: write takes any payload type of the session, also one of the other media kind or not negotiated on
  the medium; "media written before Connected is dropped" is not so: it is packetized and queued without a bound until there is an address to send to.
* Session (C55_ refuted): feedback for the application-specific API has no size check, nor does it look at the close: one too big for a datagram keeps
  the goodbyes queued and is_rtp_closed false for ever.  DirectApi's write_rtp with a number used before encrypts a second payload under the same nonce.
  poll_feedback empties the queue before it looks for keys: feedback polled before DTLS is done is lost.  The packetizers are told mtu - 16 rounded
  down to 16, the RTP header and extensions come on top: with a target of 1200 a datagram of 1212 bytes and more.

* Probing (C56_ refuted): when the padding queue goes away and comes back while the estimate stays the same, probing stops for good: enable(false) forgets
  the estimate, and propagate_estimate hands it over only when it changes.  reset() starts cluster ids at 0 again although packets tagged with old
  ids are in flight.  Read only: the second probe of a decision is sent without asking can_probe again, so also after congestion was reported.

## 6. Later additions

* C43 (Tx): src/streams/send.rs whole (statistics apart), util/value_history.rs.  TxSpec is an automaton over calls and packets that
  knows neither cache nor queue; TxProofs shows that every run of the model is one of its runs (invariant `R`), TxProofs2/4 prove the
  history properties of the automaton, TxProofs3 that the cache is the cache of the media packets sent (so C08 applies).
* C44 (Rx): src/streams/receive.rs, the receiving half of src/streams/mod.rs and session.rs:440-714 (RTP), 275-333 (feedback timing).
  RxProofs/2/3 give the session invariant `WF` (no panic), RxProofs4-6 the invariant `GH` that ties registers and highest numbers to
  the list of packets taken so far, RxProofs7/8 authenticity and delivery.  The SRTP context is a function from index to clear
  text; hash map order is arbitrary (`RFront`).  Not modelled: CNAME, jitter, RTT, statistics, raw packet events.
* C45 (Sr): SrSpec reads the expected report off the calls and packets; SrProofs ties the statistics of TxModel to it with the
  invariant `R` of C43.  The same file has the pending keyframe and REMB requests (C43_keyframe_request, C43_remb_request).
* C46, C47 (RxFb): RxFbSpec has the two automata (`want`: what was asked for; `pview`: liveness and what was told).  RxFbProofs shows
  that packet reception leaves requests alone and changes the pause state in one of two ways (`calm`), RxFbProofs2 does every
  operation (`step_stream`), RxFbProofs3 the histories.  The stream is followed while it stays in place (`keeps`).
  RxSr: what senders report is told once (`all_reported`, the same induction on the untold report).
* C48–C50 (Sctp): SctpModel has RtcSctp and the data channel part of Rtc over an arbitrary SCTP implementation (`proto`: a state and its
  answers).  SctpProofs/2/3 describe one poll (`polled`), SctpProofs4 the channel handler, SctpProofs5-7 the invariant and each
  operation, SctpProofs8 runs, SctpProofs9 panics and termination of one poll; SctpProps2 has C49 and C50.  SctpSpec says what may follow which history.  Not modelled: SNAP bytes, message size limits, partial
  writes, transmit batching, is_closing/close of the association, statistics.
* C51–C53 (Rtc): RtcModel has the loop of Rtc over arbitrary components (`comps`: functions on one shared state, nothing assumed), with
  a ghost list of what the components are told and of the security decisions (`act`).  RtcProofs gives each part of poll_output the
  contract `stage`, RtcProofs2 composes them (`poll_spec`) and does the other calls, RtcProofs3 the invariant over histories; RtcErr says where errors come from; RtcEx plays lives of a
  connection with toy components and has the refutations.  Loops take fuel: a run is one in which every poll returns.  Not modelled: accepts(),
  byte counters, contents of statistics, need_init_time, change counters; asking a component for its next timeout does not change it.
* C54 (Wr): WrModel has the media with their waiting samples and payloaders, and the list of send streams of TxModel; WrProofs does one frame
  (push_chunks), WrProofs2 one timeout, WrProofs3 ties streams to runs of the C43 automaton, WrProofs4 the invariant `INV`.  The
  packetizer is an arbitrary state machine (C25–C34 are about the real ones).  Not modelled: remote_pts/payload_params, user extension contents.
* C55 (Ses): SesModel puts WrModel, the packer and SRTP together; the pacer's choice and the feedback of a timeout are arguments.  SesProofs: each packet
  is on a declared SSRC and the numbers on RTX grow; SesProofs2: runs of the session are runs of WrModel and of one SRTP context; SesProofs3 transport-wide
  numbers; SesProofs4 packing keeps `carried`; SesProofs5 the feedback queue and closing; SesClear what a close removes.  Not modelled: raw packets, BWE, byte counters.
* C56 (Probe): ProbeModel has ProbeControl, ProbeEstimator and their drivers over an abstract type of bitrates.  ProbeSpec reads causes, estimates and
  decisions off the calls and answers (`justified`, `due_result`).  ProbeProofs does one decision, ProbeProofs2-4 the invariant over histories,
  ProbeProofs5 ids and the next poll, ProbeProofs6 the estimator.  Not modelled: the delay and loss controllers, the ALR detector, the pacer's part.
* SctpRec and RtcRec (recorders): the ghost lists of actions in SctpModel and RtcModel are what components that write down their calls see, so the
  theorems on them say what really is called.

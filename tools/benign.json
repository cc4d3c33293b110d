{
 "RegisterModel.v expected Panic->Err": "the branch is unreachable (the last number is never below the first), which the no-panic theorem already shows",
 "RegisterModel.v expected 63->64": "the cap is unreachable: extended numbers stay below 2^63",
 "EvictModel.v new_len 133->134": "the growth factor is not part of any claim (only the bound by max_size is)",
 "SendQueueModel.v move_time_forward Panic->Err": "unreachable branch (the accounting invariant is what makes it so)",
 "BufRxModel.v depacketize Panic->Err": "unreachable branch",
 "MtimeModel.v tsub Panic->Err": "both are excluded by the same theorem",
 "TwccRecvModel.v append 65536->65537": "equivalent edit: the vector has at most 14 symbols so the shift never reaches bit 16",
 "TwccRecvModel.v consume Panic->Err": "unreachable branch",
 "TwccSendModel.v records Panic->Err": "both count as failure to the claim; the branch is reached only with a gap in registered numbers",
 "DcepModel.v open_write 65536->65537": "labels over 65535 bytes do not fit the 1500 byte buffer, so the modulus is never reached",
 "DcepModel.v ack_write Panic->Err": "unreachable: the buffer always has room for one byte",
 "ChanModel.v confirm Panic->Err": "unreachable from the API (confirm follows a successful lookup)",
 "NegoModel.v from_remote true->false": "equivalent: the field is overwritten by the caller (media_set_open)",
 "NegoModel.v consistency_loop negb->id": "the check is dead code in the repository (recorded as a finding): no input reaches it with a different outcome",
 "RlistModel.v rl_iter_from Panic->Err": "fuel exhaustion only, unreachable",
 "SdpModel.v p_mproto attempt (pmap (fun _ => Sctp) (lit (T \"DTLS/SCTP\")));->": "claims about written SDP unaffected: the writer always emits UDP/DTLS/SCTP, no property promises the short form",
 "TxModel.v on_first match x_rtx s, x_pt_pad s with Some _, None => first | _, o => o end->first": "equivalent in reachable states: nothing is sent before the first timeout, so there is no padding PT yet, and padding needs an RTX SSRC",
 "PrioModel.v type_preference 80->81": "only the order of candidate types is claimed, not the constants",
 "PrioModel.v type_preference 90->91": "only the order of candidate types is claimed, not the constants",
 "StunModel.v binding_role_conflict_reply 67->68": "the reason phrase is free text",
 "StunModel.v binding_role_conflict_reply 108->109": "the reason phrase is free text",
 "TxModel.v blank0 false->true": "the blank packet is never cached, so the flag has no effect",
 "TxModel.v handle_rtcp true->false": "sets the flag that stops the MID on RTX packets; the MID is there anyway (C43_mid_on_every_packet)",
 "TxModel.v tx_new 15->16": "the default retransmission cap is an arbitrary parameter of the claims",
 "TxModel.v next_resend Panic->Err": "unreachable branch",
 "PayModel.v do_enable 4325407->4325408": "a default configuration; the claims hold for any configuration",
 "TextModel.v is_space 5760->5761": "which non-ASCII characters count as space is not part of any claim",
 "TextModel.v eof false->true": "the consumed flag of the last parser is never read",
 "PacerModel.v NOT_HAPPENING 3153600000->3153600001": "the far-future constant is not part of any claim",
 "SesModel.v feedback 20->21": "only a target MTU below 21 bytes is concerned; the claims ask for more, or the panic of such an MTU is C19's",
 "SesModel.v feedback Panic->Err": "only a target MTU below 21 bytes is concerned; the claims ask for more, or the panic of such an MTU is C19's",
 "RtcModel.v dtls_loop Panic->Err": "unreachable branch: dtls_poll never gives a packet",
 "RxModel.v remove_rx negb->id": "the lookup table is a cache: an entry that is missing is found again through the streams, so what is received and sent is the same",
 "RxModel.v EXPIRY 30000000->30000001": "the lookup table is a cache: an entry that is missing is found again through the streams, so what is received and sent is the same",
 "RxModel.v MID_PROBE 126->127": "the name of the internal probe media is in no claim",
 "RxModel.v MID_PROBE 98->99": "the name of the internal probe media is in no claim",
 "RxModel.v handle_rtp Panic->Err": "unreachable branch (C44_no_panic is what shows it: a failure of either kind is excluded there)",
 "RxModel.v is_new_packet Panic->Err": "unreachable branch",
 "RxModel.v rxstep Panic->Err": "declaring a stream for an unknown media, which the histories of the claims exclude (op_fine); both count as failure",
 "RxModel.v packet_time <?-><=?": "no claim speaks of the extended RTP time of a packet exactly half the range behind after a pause",
 "RxModel.v srx_rtp  + -> - ": "byte and packet counters of a receive stream are in no claim",
 "SctpModel.v step Panic->Err": "confirming an unknown channel, excluded by C50 (both count as failure)",
 "SctpModel.v set_threshold Panic->Err": "unreachable from the API (the channel has been looked up)",
 "SctpModel.v init Err->Panic": "unreachable: the caller starts the association only when it is not started",
 "SctpModel.v open_all Panic->Err": "unreachable branch: every channel has a configuration",
 "SctpModel.v MAX_BUFFERED 131072->131073": "the constant is not part of any claim; C49 is about the limit available() gives",
 "ProbeModel.v maybe_stagnant false->true": "the answer of the last check is thrown away",
 "ProbeModel.v pc_new false->true": "every timeout first says whether probing is enabled, nothing reads the flag before",
 "ProbeModel.v est_update false->true": "a cluster is looked at once more; what an estimate says, which is the claim, is the same",
 "SctpModel.v rtc0 false->true": "the start of the association overwrites the flag, or only whether the association ever comes up changes, which no claim promises (the SCTP implementation is arbitrary)",
 "SctpModel.v init true->false": "the start of the association overwrites the flag, or only whether the association ever comes up changes, which no claim promises (the SCTP implementation is arbitrary)"
}
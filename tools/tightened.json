{
 "SeqModel.v extend_u32 32->33": [
  "C01_every_counter_recovers"
 ],
 "RegisterModel.v packets_lost 134217728->134217729": [
  "C06_negative_clamp_refuted"
 ],
 "EvictModel.v contains false->true": [
  "C07_contains",
  "C07_contains_exact"
 ],
 "SendQueueModel.v need_timeout false->true": [
  "C10_asks_for_timeout"
 ],
 "SendQueueModel.v need_timeout true->false": [
  "C10_asks_for_timeout"
 ],
 "BufRxModel.v discard_old_padding Z.max->Z.min": [
  "C11_padding_bounded"
 ],
 "ExtModel.v utf8 241->242": [
  "C16_id_text"
 ],
 "ExtModel.v utf8 128->129": [
  "C16_id_text"
 ],
 "RtcpModel.v utf8 143->144": [
  "C20_text"
 ],
 "H264Model.v stap_key false->true": [
  "C32_h264_keyframe_packets"
 ],
 "H264Model.v detect_h264_keyframe false->true": [
  "C32_h264_keyframe_packets"
 ],
 "ChanModel.v ensure_channel_id_for false->true": [
  "C30_opened_only_when_confirmed"
 ],
 "ChanModel.v new_channel false->true": [
  "C30_opened_only_when_confirmed"
 ],
 "PayModel.v neg_ptl Z.min (pl_level l) (pl_level r)->Z.max (pl_level l) (pl_level r)": [
  "C35_levels"
 ],
 "PayModel.v neg_ptl Some l => Some (with_level r->Some l => Some (with_level l": [
  "C35_levels"
 ],
 "PayModel.v rtp_clock if codec_beq (s_codec s) G722 then 8000 else s_clock s->s_clock s": [
  "C35_g722_clock"
 ],
 "PacerModel.v next_packet 240->241": [
  "C31_probe_padding"
 ],
 "PacerModel.v next_packet Z.min->Z.max": [
  "C31_probe_padding"
 ],
 "PacerModel.v should_send_now <=?-><?": [
  "C31_probe_padding_in_time"
 ],
 "PacerModel.v next_poll Z.max->Z.min": [
  "C31_padding_time_is_kept"
 ],
 "PayModel.v apply_fb true->false": [
  "C35_feedback_flags"
 ],
 "RtcModel.v dtls_tick else (disconnect r, Return YErr, [ADtlsTick (r_now r)])->else (r, Go, [ADtlsTick (r_now r)])": [
  "C52_dtls_timer_failure_told"
 ],
 "RtcModel.v do_handle_receive true->false": [
  "C52_errors_have_a_cause"
 ],
 "SesModel.v ses_step SClear => Ok (mkSes (s_wr s) (s_ctx s) []->SClear => Ok (mkSes (s_wr s) (s_ctx s) (s_fb s)": [
  "C55_cleared_is_gone"
 ],
 "RtcModel.v init_dtls true->false": [
  "C52_errors_have_a_cause"
 ],
 "RtcModel.v do_handle_timeout true->false": [
  "C52_errors_have_a_cause"
 ],
 "RtcModel.v step true->false": [
  "C52_errors_have_a_cause"
 ],
 "RxModel.v update_register  + -> - ": [
  "C47_pause_events"
 ],
 "RxModel.v mk_keyframe + 1->": [
  "C46_requests_served"
 ],
 "RxModel.v mk_keyframe 256->257": [
  "C46_requests_served"
 ],
 "RxModel.v mk_rr 65536->65537": [
  "C46_requests_served"
 ],
 "RxModel.v mk_rr 1000000->1000001": [
  "C46_requests_served"
 ],
 "RxModel.v poll_info true->false": [
  "C46_sender_reports_told"
 ]
}
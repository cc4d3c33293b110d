(** Model of src/streams/send.rs (StreamTx), util/value_history.rs and the counters of
    src/streams/send_stats.rs.

    Simplifications.  An Instant is a [Z] in nanoseconds; [already] is [already_happened()].  The f32
    comparison [ratio > rtx_ratio_cap] is the parameter [exceeds cap retransmitted total]: every
    theorem holds for any such function.  A PayloadParams is its PT, its RTX PT and its RTP clock
    rate.  The initial sequence numbers, random in the code, are arguments.  The round-trip time and
    loss fields of the statistics, [last_sender_info] (always None here) and logging are left out.
    u64 sums are unbounded.  The bytes after the packet in the reused send buffer are zero here; the
    code truncates them away. *)
From Verif Require Import Base SeqModel MtimeModel SendQueueModel EvictModel Vp8Model ExtModel HeaderModel NackModel.

(** * util/value_history.rs *)
Record vhist := mkVH { vh_sum : Z; vh_list : list (Z * Z) }.
Definition vh0 : vhist := mkVH 0 [].
(** value_history.rs:33-36 *)
Definition vh_push (h : vhist) (t v : Z) : vhist := mkVH (vh_sum h + v) (vh_list h ++ [(t, v)]).
(** value_history.rs:15, 45-56; [duration_since] saturates *)
Definition HIST_TIME : Z := 1000000000.
Fixpoint vh_purge_l (l : list (Z * Z)) (s now : Z) : vhist :=
  match l with
  | [] => mkVH s []
  | (t, v) :: r => if HIST_TIME <? Z.max 0 (now - t) then vh_purge_l r (s - v) now else mkVH s l
  end.
Definition vh_purge (h : vhist) (now : Z) : vhist := vh_purge_l (vh_list h) (vh_sum h) now.

(** send_stats.rs:13-46 *)
Record txstats := mkSt { st_bytes : Z; st_bytes_re : Z; st_packets : Z; st_packets_re : Z;
  st_firs : Z; st_plis : Z; st_nacks : Z; st_tx : option vhist; st_rtx : option vhist }.
(** send_stats.rs:49-64: the histories are always made *)
Definition st_new : txstats := mkSt 0 0 0 0 0 0 0 (Some vh0) (Some vh0).
(** send_stats.rs:66-73 *)
Definition st_count (s : txstats) (bytes : Z) (re : bool) : txstats :=
  mkSt (st_bytes s + bytes) (if re then st_bytes_re s + bytes else st_bytes_re s)
       (st_packets s + 1) (if re then st_packets_re s + 1 else st_packets_re s)
       (st_firs s) (st_plis s) (st_nacks s) (st_tx s) (st_rtx s).
Definition st_hist (s : txstats) (a b : option vhist) : txstats :=
  mkSt (st_bytes s) (st_bytes_re s) (st_packets s) (st_packets_re s) (st_firs s) (st_plis s) (st_nacks s) a b.
Definition hpush (o : option vhist) (t v : Z) : option vhist :=
  match o with Some h => Some (vh_push h t v) | None => None end.

(** * Packets *)
(** streams/mod.rs:40-80 RtpPacket; the enqueue time stamp is kept by the send queue. *)
Record pkt := mkPk { k_seq : Z; k_time : mtime; k_hdr : header; k_pay : list Z;
  k_patch : option (list (Z * Z)); k_nack : bool }.
Definition qp (p : pkt) : qpkt pkt := mkQ (zlen (k_pay p)) p.
Definition rp (p : pkt) : rpkt pkt := mkPkt (k_seq p) (zlen (k_pay p)) p.

(** header.rs:313-330 Default *)
Definition h_default : header := mkH 2 false true 0 false 1 0 0 0 (rep 0 15) ev0 16.
(** Field updates *)
Definition ev_ids (e : extvals) (r rr m : option (list Z)) : extvals :=
  mkEV (audio_level e) (voice_activity e) (video_orientation e) (video_content_type e) (tx_time_offs e) (abs_send_time e) (abs_capture_time e) (transport_cc e) (play_delay_min e) (play_delay_max e) (video_timing e) r rr m (frame_mark e) (user e).
Definition h_ev (h : header) (e : extvals) : header :=
  mkH (version h) (has_padding h) (has_extension h) (csrc_count h) (marker h) (payload_type h)
      (sequence_number h) (timestamp h) (ssrc h) (csrc h) e (header_len h).
Definition h_len (h : header) (n : Z) : header :=
  mkH (version h) (has_padding h) (has_extension h) (csrc_count h) (marker h) (payload_type h)
      (sequence_number h) (timestamp h) (ssrc h) (csrc h) (ext_vals h) n.
Definition h_rtx (h : header) (pt s sq : Z) : header :=
  mkH (version h) (has_padding h) (has_extension h) (csrc_count h) (marker h) pt
      sq (timestamp h) s (csrc h) (ext_vals h) (header_len h).
Definition k_with (p : pkt) (h : header) : pkt := mkPk (k_seq p) (k_time p) h (k_pay p) (k_patch p) (k_nack p).

(** streams/mod.rs:98-116 blank *)
Definition blank0 : pkt := mkPk 0 (mkT 0 90000) (h_rtx h_default 255 0 0) [] None false.

(** What poll_packet looks at in a PayloadParams *)
Record param := mkPar { p_pt : Z; p_rtx : option Z; p_clock : Z }.

(** send.rs:184-203 RtpWrite *)
Record rtpwrite := mkW { w_pt : Z; w_seq : Z; w_time : Z; w_wall : Z; w_marker : bool; w_ext : extvals;
  w_nack : bool; w_pay : list Z; w_csrc_count : Z; w_csrc : list Z; w_patch : option (list (Z * Z)) }.

(** send.rs:1266-1271 *)
Record resend := mkRe { r_seq : Z; r_at : Z; r_size : Z }.

(** pacer/queue.rs:7-26; priority Media = 0, Padding = 1, Empty = 2; [not_happening] is None *)
Record qsnap := mkQS { qs_created : option Z; qs_bytes : Z; qs_count : Z; qs_time : Z;
  qs_last : option Z; qs_first : option Z; qs_prio : Z }.

(** send.rs:86-182 *)
Record tx := mkTx { x_ssrc : Z; x_rtx : option Z; x_mid : list Z; x_rid : option (list Z);
  x_audio : option bool; x_cname : option (list Z); x_clock : option Z;
  x_seq : Z; x_seq_rtx : Z; x_last_sent : Z; x_last_used : Z; x_wall : option (Z * Z);
  x_q : sendq pkt; x_info : option qsnap; x_unpaced : option bool; x_resends : list resend;
  x_padding : Z; x_blank : pkt; x_cache : rtxcache pkt; x_cap : option Z;
  x_last_sr : Z; x_kf : option bool (* Some true: FIR, Some false: PLI *); x_remb : option Z;
  x_stats : txstats; x_ratio : Z * Z * Z (* retransmitted, total, when *);
  x_pt_pad : option Z; x_ack : bool; x_ack_rtx : bool; x_mtu_warn : Z }.

(** send.rs:299-338 new *)
Definition tx_new (ssrc_ : Z) (rtx : option Z) (m : list Z) (r : option (list Z)) (mtu_warn already : Z)
    (seq seq_rtx last : Z) : tx :=
  mkTx ssrc_ rtx m r None None None seq seq_rtx last already None sq_new None None [] 0 blank0
       (rtx_new 2000 3000000000 already) (Some 15) already None None st_new (0, 0, already) None false false mtu_warn.

(** Field updates of the state, in the groups the functions below need. *)
Definition set_q (s : tx) (q : sendq pkt) : tx :=
  mkTx (x_ssrc s) (x_rtx s) (x_mid s) (x_rid s) (x_audio s) (x_cname s) (x_clock s) (x_seq s) (x_seq_rtx s) (x_last_sent s) (x_last_used s) (x_wall s) q (x_info s) (x_unpaced s) (x_resends s) (x_padding s) (x_blank s) (x_cache s) (x_cap s) (x_last_sr s) (x_kf s) (x_remb s) (x_stats s) (x_ratio s) (x_pt_pad s) (x_ack s) (x_ack_rtx s) (x_mtu_warn s).
Definition set_cache (s : tx) (c : rtxcache pkt) : tx :=
  mkTx (x_ssrc s) (x_rtx s) (x_mid s) (x_rid s) (x_audio s) (x_cname s) (x_clock s) (x_seq s) (x_seq_rtx s) (x_last_sent s) (x_last_used s) (x_wall s) (x_q s) (x_info s) (x_unpaced s) (x_resends s) (x_padding s) (x_blank s) c (x_cap s) (x_last_sr s) (x_kf s) (x_remb s) (x_stats s) (x_ratio s) (x_pt_pad s) (x_ack s) (x_ack_rtx s) (x_mtu_warn s).
Definition set_blank (s : tx) (p : pkt) : tx :=
  mkTx (x_ssrc s) (x_rtx s) (x_mid s) (x_rid s) (x_audio s) (x_cname s) (x_clock s) (x_seq s) (x_seq_rtx s) (x_last_sent s) (x_last_used s) (x_wall s) (x_q s) (x_info s) (x_unpaced s) (x_resends s) (x_padding s) p (x_cache s) (x_cap s) (x_last_sr s) (x_kf s) (x_remb s) (x_stats s) (x_ratio s) (x_pt_pad s) (x_ack s) (x_ack_rtx s) (x_mtu_warn s).
Definition set_stats (s : tx) (t : txstats) : tx :=
  mkTx (x_ssrc s) (x_rtx s) (x_mid s) (x_rid s) (x_audio s) (x_cname s) (x_clock s) (x_seq s) (x_seq_rtx s) (x_last_sent s) (x_last_used s) (x_wall s) (x_q s) (x_info s) (x_unpaced s) (x_resends s) (x_padding s) (x_blank s) (x_cache s) (x_cap s) (x_last_sr s) (x_kf s) (x_remb s) t (x_ratio s) (x_pt_pad s) (x_ack s) (x_ack_rtx s) (x_mtu_warn s).
Definition set_ratio (s : tx) (v : Z * Z * Z) : tx :=
  mkTx (x_ssrc s) (x_rtx s) (x_mid s) (x_rid s) (x_audio s) (x_cname s) (x_clock s) (x_seq s) (x_seq_rtx s) (x_last_sent s) (x_last_used s) (x_wall s) (x_q s) (x_info s) (x_unpaced s) (x_resends s) (x_padding s) (x_blank s) (x_cache s) (x_cap s) (x_last_sr s) (x_kf s) (x_remb s) (x_stats s) v (x_pt_pad s) (x_ack s) (x_ack_rtx s) (x_mtu_warn s).
Definition set_resends (s : tx) (l : list resend) : tx :=
  mkTx (x_ssrc s) (x_rtx s) (x_mid s) (x_rid s) (x_audio s) (x_cname s) (x_clock s) (x_seq s) (x_seq_rtx s) (x_last_sent s) (x_last_used s) (x_wall s) (x_q s) (x_info s) (x_unpaced s) l (x_padding s) (x_blank s) (x_cache s) (x_cap s) (x_last_sr s) (x_kf s) (x_remb s) (x_stats s) (x_ratio s) (x_pt_pad s) (x_ack s) (x_ack_rtx s) (x_mtu_warn s).
Definition set_padding (s : tx) (n : Z) : tx :=
  mkTx (x_ssrc s) (x_rtx s) (x_mid s) (x_rid s) (x_audio s) (x_cname s) (x_clock s) (x_seq s) (x_seq_rtx s) (x_last_sent s) (x_last_used s) (x_wall s) (x_q s) (x_info s) (x_unpaced s) (x_resends s) n (x_blank s) (x_cache s) (x_cap s) (x_last_sr s) (x_kf s) (x_remb s) (x_stats s) (x_ratio s) (x_pt_pad s) (x_ack s) (x_ack_rtx s) (x_mtu_warn s).
Definition set_seq_rtx (s : tx) (n : Z) : tx :=
  mkTx (x_ssrc s) (x_rtx s) (x_mid s) (x_rid s) (x_audio s) (x_cname s) (x_clock s) (x_seq s) n (x_last_sent s) (x_last_used s) (x_wall s) (x_q s) (x_info s) (x_unpaced s) (x_resends s) (x_padding s) (x_blank s) (x_cache s) (x_cap s) (x_last_sr s) (x_kf s) (x_remb s) (x_stats s) (x_ratio s) (x_pt_pad s) (x_ack s) (x_ack_rtx s) (x_mtu_warn s).
Definition set_seq (s : tx) (n : Z) : tx :=
  mkTx (x_ssrc s) (x_rtx s) (x_mid s) (x_rid s) (x_audio s) (x_cname s) (x_clock s) n (x_seq_rtx s) (x_last_sent s) (x_last_used s) (x_wall s) (x_q s) (x_info s) (x_unpaced s) (x_resends s) (x_padding s) (x_blank s) (x_cache s) (x_cap s) (x_last_sr s) (x_kf s) (x_remb s) (x_stats s) (x_ratio s) (x_pt_pad s) (x_ack s) (x_ack_rtx s) (x_mtu_warn s).
Definition set_sent (s : tx) (last used : Z) (pad clock : option Z) : tx :=
  mkTx (x_ssrc s) (x_rtx s) (x_mid s) (x_rid s) (x_audio s) (x_cname s) clock (x_seq s) (x_seq_rtx s) last used (x_wall s) (x_q s) (x_info s) (x_unpaced s) (x_resends s) (x_padding s) (x_blank s) (x_cache s) (x_cap s) (x_last_sr s) (x_kf s) (x_remb s) (x_stats s) (x_ratio s) pad (x_ack s) (x_ack_rtx s) (x_mtu_warn s).
Definition set_wall (s : tx) (w : option (Z * Z)) : tx :=
  mkTx (x_ssrc s) (x_rtx s) (x_mid s) (x_rid s) (x_audio s) (x_cname s) (x_clock s) (x_seq s) (x_seq_rtx s) (x_last_sent s) (x_last_used s) w (x_q s) (x_info s) (x_unpaced s) (x_resends s) (x_padding s) (x_blank s) (x_cache s) (x_cap s) (x_last_sr s) (x_kf s) (x_remb s) (x_stats s) (x_ratio s) (x_pt_pad s) (x_ack s) (x_ack_rtx s) (x_mtu_warn s).
Definition set_req (s : tx) (kf : option bool) (remb : option Z) : tx :=
  mkTx (x_ssrc s) (x_rtx s) (x_mid s) (x_rid s) (x_audio s) (x_cname s) (x_clock s) (x_seq s) (x_seq_rtx s) (x_last_sent s) (x_last_used s) (x_wall s) (x_q s) (x_info s) (x_unpaced s) (x_resends s) (x_padding s) (x_blank s) (x_cache s) (x_cap s) (x_last_sr s) kf remb (x_stats s) (x_ratio s) (x_pt_pad s) (x_ack s) (x_ack_rtx s) (x_mtu_warn s).
Definition set_acks (s : tx) (a b : bool) : tx :=
  mkTx (x_ssrc s) (x_rtx s) (x_mid s) (x_rid s) (x_audio s) (x_cname s) (x_clock s) (x_seq s) (x_seq_rtx s) (x_last_sent s) (x_last_used s) (x_wall s) (x_q s) (x_info s) (x_unpaced s) (x_resends s) (x_padding s) (x_blank s) (x_cache s) (x_cap s) (x_last_sr s) (x_kf s) (x_remb s) (x_stats s) (x_ratio s) (x_pt_pad s) a b (x_mtu_warn s).
Definition set_info (s : tx) (i : option qsnap) : tx :=
  mkTx (x_ssrc s) (x_rtx s) (x_mid s) (x_rid s) (x_audio s) (x_cname s) (x_clock s) (x_seq s) (x_seq_rtx s) (x_last_sent s) (x_last_used s) (x_wall s) (x_q s) i (x_unpaced s) (x_resends s) (x_padding s) (x_blank s) (x_cache s) (x_cap s) (x_last_sr s) (x_kf s) (x_remb s) (x_stats s) (x_ratio s) (x_pt_pad s) (x_ack s) (x_ack_rtx s) (x_mtu_warn s).
Definition set_sr (s : tx) (t : Z) : tx :=
  mkTx (x_ssrc s) (x_rtx s) (x_mid s) (x_rid s) (x_audio s) (x_cname s) (x_clock s) (x_seq s) (x_seq_rtx s) (x_last_sent s) (x_last_used s) (x_wall s) (x_q s) (x_info s) (x_unpaced s) (x_resends s) (x_padding s) (x_blank s) (x_cache s) (x_cap s) t (x_kf s) (x_remb s) (x_stats s) (x_ratio s) (x_pt_pad s) (x_ack s) (x_ack_rtx s) (x_mtu_warn s).
Definition set_first (s : tx) (au : option bool) (cn : option (list Z)) (un : option bool) (pad : option Z) : tx :=
  mkTx (x_ssrc s) (x_rtx s) (x_mid s) (x_rid s) au cn (x_clock s) (x_seq s) (x_seq_rtx s) (x_last_sent s) (x_last_used s) (x_wall s) (x_q s) (x_info s) un (x_resends s) (x_padding s) (x_blank s) (x_cache s) (x_cap s) (x_last_sr s) (x_kf s) (x_remb s) (x_stats s) (x_ratio s) pad (x_ack s) (x_ack_rtx s) (x_mtu_warn s).
Definition set_cap (s : tx) (c : option Z) : tx :=
  mkTx (x_ssrc s) (x_rtx s) (x_mid s) (x_rid s) (x_audio s) (x_cname s) (x_clock s) (x_seq s) (x_seq_rtx s) (x_last_sent s) (x_last_used s) (x_wall s) (x_q s) (x_info s) (x_unpaced s) (x_resends s) (x_padding s) (x_blank s) (x_cache s) c (x_last_sr s) (x_kf s) (x_remb s) (x_stats s) (x_ratio s) (x_pt_pad s) (x_ack s) (x_ack_rtx s) (x_mtu_warn s).

(** send.rs:384-404 set_rtx_cache *)
Definition set_rtx_cache (s : tx) (max age : Z) (cap : option Z) (already : Z) : tx :=
  let some o := match o with Some h => Some h | None => Some vh0 end in
  let st := x_stats s in
  set_cap (set_stats (set_cache s (rtx_new max age already))
             (match cap with
              | Some _ => st_hist st (some (st_tx st)) (some (st_rtx st))
              | None => st_hist st None None
              end)) cap.

(** send.rs:419-482 write_rtp; MediaTime::from_secs(time) is numerator [time], denominator 1 *)
Definition write_rtp (s : tx) (w : rtpwrite) : tx :=
  let h := mkH 2 false true (w_csrc_count w) (w_marker w) (w_pt w) (w_seq w mod U16) (w_time w)
               (x_ssrc s) (w_csrc w) (w_ext w) 16 in
  set_q (set_wall s (Some (w_time w, w_wall w)))
        (sq_push (x_q s) (qp (mkPk (w_seq w) (mkT (w_time w) 1) h (w_pay w) (w_patch w) (w_nack w)))).

(** send.rs:484-486 *)
Definition padding_enabled (s : tx) : bool :=
  match x_rtx s, x_pt_pad s with Some _, Some _ => true | _, _ => false end.

Section P.
Variable exceeds : Z -> Z -> Z -> bool.

(** send.rs:732-766 rtx_ratio_downsampled; the ratio is kept as (retransmitted, total) *)
Definition ratio_down (s : tx) (now : Z) : res (tx * (Z * Z)) :=
  match st_tx (x_stats s), st_rtx (x_stats s) with
  | Some a, Some b =>
      let '(r, t, ts) := x_ratio s in
      if Z.max 0 (now - ts) <? 50000000 then Ok (s, (r, t))
      else
        let a' := vh_purge a now in
        let b' := vh_purge b now in
        let r' := vh_sum b' in
        let t' := vh_sum b' + vh_sum a' in
        Ok (set_ratio (set_stats s (st_hist (x_stats s) (Some a') (Some b'))) (r', t', now), (r', t'))
  | _, _ => Panic
  end.

Inductive nkind := KReg | KResend (orig : Z) | KBlank (len : Z).
Record next := mkNext { n_kind : nkind; n_seq : Z; n_pkt : pkt }.

(** send.rs:779-795: the loop over the queued resends *)
Fixpoint next_resend (c : rtxcache pkt) (rs : list resend) : res (list resend * option Z) :=
  match rs with
  | [] => Ok ([], None)
  | r :: rs' =>
      match get_by_seq c (r_seq r) with
      | None => next_resend c rs'
      | Some p => if k_nack (body p) then Ok (rs', Some (k_seq (body p))) else Panic
      end
  end.

(** send.rs:768-815 poll_packet_resend *)
Definition poll_resend (s : tx) (now : Z) : res (tx * option next) :=
  do (s1, over) <- match x_cap s with
                   | None => Ok (s, false)
                   | Some c => do (s1, rt) <- ratio_down s now; Ok (s1, exceeds c (fst rt) (snd rt))
                   end;
  if over then Ok (set_resends s1 [], None)
  else
    do (rest, o) <- next_resend (x_cache s1) (x_resends s1);
    let s2 := set_resends s1 rest in
    match o with
    | None => Ok (s2, None)
    | Some q =>
        match get_by_seq (x_cache s2) q with
        | None => Panic
        | Some p =>
            let len := zlen (k_pay (body p)) in
            let st := st_count (x_stats s2) len true in
            let s3 := set_stats s2 (st_hist st (st_tx st) (hpush (st_rtx st) now len)) in
            Ok (set_seq_rtx s3 (x_seq_rtx s3 + 1),
                Some (mkNext (KResend (k_seq (body p))) (x_seq_rtx s3) (body p)))
        end
    end.

(** [pkt.timestamp = now] on the head of the send queue (send.rs:823) *)
Definition restamp (q : sendq pkt) (now : Z) : sendq pkt :=
  match queue q with
  | (p, Some _) :: r => mkSendq ((p, Some now) :: r) (stotal q) (last_emitted q)
  | _ => q
  end.

(** send.rs:817-838 poll_packet_regular *)
Definition poll_regular (s : tx) (now : Z) : tx * option next :=
  match sq_peek (x_q s) with
  | None => (s, None)
  | Some qpk =>
      let p := qbody qpk in
      let len := zlen (k_pay p) in
      let st := st_count (x_stats s) len false in
      (set_stats (set_q s (restamp (x_q s) now)) (st_hist st (hpush (st_tx st) now len) (st_rtx st)),
       Some (mkNext KReg (k_seq p) p))
  end.

(** send.rs:36, 840-894 poll_packet_padding; usize subtraction below zero panics *)
Definition MIN_SPURIOUS : Z := 50.
Definition poll_padding (s : tx) : res (tx * option next) :=
  if negb (padding_enabled s) then Ok (set_padding s 0, None)
  else if x_padding s =? 0 then Ok (s, None)
  else
    do sp <- (if MIN_SPURIOUS <? x_padding s
              then if x_mtu_warn s <? 80 then Panic
                   else match get_smaller (x_cache s) (Z.min (x_padding s * 2) (x_mtu_warn s - 80)) with
                        | Ok p => Ok (Some (body p))
                        | Err => Ok None
                        | Panic => Panic
                        end
              else Ok None);
    match sp with
    | Some p =>
        Ok (set_padding (set_seq_rtx s (x_seq_rtx s + 1)) (Z.max 0 (x_padding s - zlen (k_pay p))),
            Some (mkNext (KResend (k_seq p)) (x_seq_rtx s) p))
    | None =>
        match x_pt_pad s with
        | None => Panic
        | Some pt =>
            let b := x_blank s in
            let h := k_hdr b in
            let b' := mkPk (x_seq_rtx s) (k_time b) (h_rtx h pt (ssrc h) (sequence_number h)) (k_pay b) (k_patch b) (k_nack b) in
            let len := Z.max 16 (Z.min (x_padding s) 240) in
            Ok (set_blank (set_padding (set_seq_rtx s (x_seq_rtx s + 1)) (Z.max 0 (x_padding s - len))) b',
                Some (mkNext (KBlank len) (x_seq_rtx s) b'))
        end
    end.

(** send.rs:502-509: which packet to send, and whether it is padding *)
Definition choose (s : tx) (now : Z) : res (tx * option (next * bool)) :=
  do (s1, o) <- poll_resend s now;
  match o with
  | Some n => Ok (s1, Some (n, false))
  | None =>
      let (s2, o2) := poll_regular s1 now in
      match o2 with
      | Some n => Ok (s2, Some (n, false))
      | None => do (s3, o3) <- poll_padding s2;
                Ok (s3, match o3 with Some n => Some (n, true) | None => None end)
      end
  end.

(** Storing through the reference [next.pkt] holds *)
Definition put_back (s : tx) (k : nkind) (p : pkt) : tx :=
  match k with
  | KReg => match queue (x_q s) with
            | (_, t) :: r => set_q s (mkSendq ((qp p, t) :: r) (stotal (x_q s)) (last_emitted (x_q s)))
            | [] => s
            end
  | KResend o => set_cache s (mkRtx (eset (by_seq (x_cache s)) o (rp p)) (by_size (x_cache s)))
  | KBlank _ => set_blank s p
  end.

Definition has_ext (m : extmap) (f : ext -> bool) : bool :=
  existsb (fun o => match o with Some x => f x | None => false end) m.
Definition is_ast (x : ext) : bool := match x with AbsoluteSendTime => true | _ => false end.

(** src/session.rs PacketReceipt *)
Record receipt := mkRc { rc_hdr : header; rc_seq : Z; rc_pad : bool; rc_size : Z }.

(** send.rs:548-609: the packet as stored from now on, and the header to send *)
Definition prep (s : tx) (n : next) (p : pkt) (pr : param) : res (pkt * header) :=
  let h := k_hdr p in
  let e := ext_vals h in
  match n_kind n with
  | KReg =>
      let h' := h_ev h (ev_ids e (rid e) None (mid e)) in
      Ok (mkPk (k_seq p) (mkT (numer (k_time p)) (p_clock pr)) h' (k_pay p) (k_patch p)
               (match p_rtx pr with Some _ => k_nack p | None => false end), h')
  | _ =>
      match p_rtx pr, x_rtx s with
      | Some rpt, Some rs =>
          Ok (p, h_rtx (h_ev h (ev_ids e None (x_rid s) (if x_ack_rtx s then mid e else Some (x_mid s))))
                       rpt rs (n_seq n mod U16))
      | _, _ => Panic
      end
  end.

(** send.rs:611-623: send time and TWCC number *)
Definition stamp_hdr (h : header) (m : extmap) (now : Z) (twcc : option Z) : header :=
  let e1 := if has_ext m is_ast then set_ast (ext_vals h) now else ext_vals h in
  h_ev h (match twcc with Some t => set_tcc e1 (t mod U16) | None => e1 end).

(** send.rs:625-674: the bytes; [None] is the early return for an empty padding packet *)
Definition DATAGRAM_MAX : Z := 2000.
Definition wire (n : next) (p : pkt) (h : header) (m : extmap) : res (option (list Z * Z * Z)) :=
  do hb <- write_header DATAGRAM_MAX h m;
  if negb (zlen hb mod 4 =? 0) then Panic
  else
    match n_kind n with
    | KBlank len =>
        do (b, l) <- create_padding_packet (hb ++ rep 0 (DATAGRAM_MAX - zlen hb)) (zlen hb) len 16;
        if l =? 0 then Ok None
        else do out <- upto b (zlen hb + l); Ok (Some (out, l, zlen hb))
    | k =>
        let osn := match k with KResend o => write_osn o | _ => [] end in
        if DATAGRAM_MAX <? zlen hb + zlen osn + zlen (k_pay p) then Panic
        else
          do body <- match k_patch p with Some ops => copy_to ops (k_pay p) | None => Ok (k_pay p) end;
          Ok (Some (hb ++ osn ++ body, zlen (k_pay p) + zlen osn, zlen hb))
    end.

Definition inc_twcc (twcc : option Z) : option Z := match twcc with Some t => Some (t + 1) | None => None end.

(** send.rs:691-722 *)
Definition sent (s : tx) (n : next) (now : Z) (pr : param) (pt_main : Z) : res tx :=
  match n_kind n with
  | KReg =>
      let s1 := set_sent s (n_seq n) now (match p_rtx pr with Some _ => Some pt_main | None => x_pt_pad s end)
                         (Some (p_clock pr)) in
      do (q, o) <- sq_pop (x_q s1) now;
      match o with
      | None => Panic
      | Some qpk =>
          let s2 := set_q s1 q in
          if k_nack (qbody qpk)
          then do c <- cache_sent (x_cache s2) (rp (qbody qpk)) now; Ok (set_cache s2 c)
          else Ok s2
      end
  | _ => Ok (set_sent s (x_last_sent s) now (x_pt_pad s) (x_clock s))
  end.

(** send.rs:488-730 poll_packet.  Result: the state, the TWCC counter, the packet with its receipt. *)
Definition poll_packet (s : tx) (now : Z) (m : extmap) (twcc : option Z) (ps : list param)
    : res (tx * option Z * option (list Z * receipt)) :=
  do (s1, on) <- choose s now;
  match on with
  | None => Ok (s1, twcc, None)
  | Some (n, is_padding) =>
      let p0 := n_pkt n in
      let e := ext_vals (k_hdr p0) in
      let p1 := if x_ack s then p0
                else k_with p0 (h_ev (k_hdr p0) (ev_ids e (x_rid s) (rid_repair e) (Some (x_mid s)))) in
      let pt_main := payload_type (k_hdr p1) in
      match find (fun pr => p_pt pr =? pt_main) ps with
      | None =>
          let s2 := put_back s1 (n_kind n) p1 in
          match n_kind n with
          | KReg => do (q, _) <- sq_pop (x_q s2) now; Ok (set_q s2 q, twcc, None)
          | _ => Ok (s2, twcc, None)
          end
      | Some pr =>
          do (p2, h) <- prep s1 n p1 pr;
          let s2 := put_back s1 (n_kind n) p2 in
          let h1 := stamp_hdr h m now twcc in
          do w <- wire n p2 h1 m;
          match w with
          | None => Ok (s2, inc_twcc twcc, None)
          | Some (bytes, size, hlen) =>
              do s3 <- sent s2 n now pr pt_main;
              Ok (s3, inc_twcc twcc, Some (bytes, mkRc (h_len h1 hlen) (n_seq n) is_padding size))
          end
      end
  end.
End P.

(** rtp/rtcp/nack.rs:106-128 NackEntryIterator *)
Definition nack_seqs (e : nack_entry) (seq_no : Z) : list Z :=
  map (fun q => extend_u16 (Some seq_no) q)
      (pid e :: map (fun i => (pid e + i + 1) mod U16) (filter (fun i => Z.testbit (blp e) i) (zseq 0 16))).

(** send.rs:953-979 handle_nack *)
Definition handle_nack (s : tx) (es : list nack_entry) (now : Z) : tx :=
  match last_cached (x_cache s) with
  | None => s
  | Some l =>
      set_resends s (x_resends s ++
        flat_map (fun q => match get_by_seq (x_cache s) q with
                           | Some p => [mkRe q now (zlen (k_pay (body p)))]
                           | None => []
                           end) (flat_map (fun e => nack_seqs e l) es))
  end.

(** The feedback a stream looks at *)
Inductive fb := FRr (ssrc_ : Z) | FNack (es : list nack_entry) | FPli | FFir | FRemb (bitrate : Z) | FOther.
(** send.rs:916-951 handle_rtcp (without the statistics of the reception report) *)
Definition handle_rtcp (s : tx) (now : Z) (f : fb) : tx :=
  let st := x_stats s in
  let cnt a b c := mkSt (st_bytes st) (st_bytes_re st) (st_packets st) (st_packets_re st) a b c (st_tx st) (st_rtx st) in
  match f with
  | FRr r =>
      match x_rtx s with
      | Some q => if q =? r then set_acks s (x_ack s) true else s
      | None => if r =? x_ssrc s then set_acks s true (x_ack_rtx s) else s
      end
  | FNack es => handle_nack (set_stats s (cnt (st_firs st) (st_plis st) (st_nacks st + 1))) es now
  | FPli => set_req (set_stats s (cnt (st_firs st) (st_plis st + 1) (st_nacks st))) (Some false) (x_remb s)
  | FFir => set_req (set_stats s (cnt (st_firs st + 1) (st_plis st) (st_nacks st))) (Some true) (x_remb s)
  | FRemb b => set_req s (x_kf s) (Some b)
  | FOther => s
  end.

(** send.rs:1153-1158 generate_padding *)
Definition generate_padding (s : tx) (n : Z) : tx :=
  if padding_enabled s then set_padding s (x_padding s + n) else s.

(** send.rs:1164-1204 handle_timeout, on_first_timeout; [audio], [cname], [first] are the media's kind,
    cname and first PT with RTX *)
Definition on_first (s : tx) (audio : bool) (cname : list Z) (first : option Z) : tx :=
  set_first s (Some audio) (Some cname)
    (match x_unpaced s with None => Some audio | u => u end)
    (match x_rtx s, x_pt_pad s with Some _, None => first | _, o => o end).
Definition tx_timeout (s : tx) (now : Z) (audio : bool) (cname : list Z) (first : option Z) : res tx :=
  let s1 := match x_audio s with None => on_first s audio cname first | Some _ => s end in
  do q <- sq_timeout (x_q s1) now; Ok (set_q s1 q).

(** pacer/queue.rs:90-103 merge *)
Definition omin (a b : option Z) : option Z :=
  match a, b with Some x, Some y => Some (Z.min x y) | Some x, None => Some x | None, o => o end.
Definition omax (a b : option Z) : option Z :=
  match a, b with Some x, Some y => Some (Z.max x y) | Some x, None => Some x | None, o => o end.
Definition qs_merge (a b : qsnap) : qsnap :=
  mkQS (omin (qs_created a) (qs_created b)) (qs_bytes a + qs_bytes b) (qs_count a + qs_count b)
       (qs_time a + qs_time b) (omax (qs_last a) (qs_last b)) (omin (qs_first a) (qs_first b))
       (Z.min (qs_prio a) (qs_prio b)).
(** send.rs:1104-1128 *)
Definition qs_resend (s : tx) (now : Z) : option qsnap :=
  match x_resends s with
  | [] => None
  | rs => let f := fold_left (fun a r => mkQS (qs_created a) (qs_bytes a + r_size r) (qs_count a + 1)
                       (qs_time a + Z.max 0 (now - r_at r)) (qs_last a) (omin (qs_first a) (Some (r_at r))) (qs_prio a))
                     rs (mkQS None 0 0 0 None None 2) in
          Some (mkQS (Some now) (qs_bytes f) (qs_count f) (qs_time f) (qs_last f) (qs_first f) (if 0 <? qs_count f then 0 else 2))
  end.
(** send.rs:1130-1151 *)
Definition qs_padding (s : tx) (now : Z) : option qsnap :=
  if x_padding s =? 0 then None
  else let n := (x_padding s + 799) / 800 in
       Some (mkQS (Some now) (x_padding s) (n mod U32) (n * 5 * 1000000) None None 1).
(** send.rs:1074-1102 queue_state; u32 additions of packet counts are unbounded here *)
Record qstate := mkQst { qst_unpaced : bool; qst_pad : bool; qst_snap : qsnap }.
Definition queue_state (s : tx) (now : Z) : res (tx * qstate) :=
  do (q, sn) <- sq_snapshot (x_q s) now;
  let a := mkQS (Some (created_at sn)) (byte_size sn) (packet_count sn) (total_queue_time sn)
                (snap_last_emitted sn) (first_unsent sn) (if is_media sn then 0 else 2) in
  let b := match qs_resend s now with Some r => qs_merge a r | None => a end in
  let c := match qs_padding s now with Some r => qs_merge b r | None => b end in
  Ok (set_info (set_q s q) (Some c),
      mkQst (match x_unpaced s with Some u => u | None => true end) (padding_enabled s) c).

(** send.rs:1035-1056 current_rtp_time; 1023-1033 sender_info: (ssrc, rtp time, packets, octets) *)
Definition current_rtp_time (s : tx) (now : Z) : res (option mtime) :=
  match x_wall s, x_clock s with
  | Some (t, w), Some cr =>
      if now <? w then Ok None
      else do r <- tadd (mkT t cr) (from_duration (now - w)); Ok (Some (rebase r cr))
  | _, _ => Ok None
  end.
Record sr := mkSr { sr_ssrc : Z; sr_ntp : Z; sr_rtp : mtime; sr_packets : Z; sr_octets : Z;
  sr_cname : option (list Z) }.
(** send.rs:985-1021 create_sr_and_update; the report and the CNAME description that follows it *)
Definition create_sr (s : tx) (now : Z) : res (tx * sr) :=
  do o <- current_rtp_time s now;
  Ok (set_sr s now,
      mkSr (x_ssrc s) now (match o with Some t => t | None => mkT 0 1 end)
           (st_packets (x_stats s) mod U32) (st_bytes (x_stats s) mod U32) (x_cname s)).
(** send.rs:900-906, 981-983 sender_report_at, need_sr; [None] is not_happening *)
Definition sender_report_at (s : tx) (audio_iv video_iv : Z) : option Z :=
  match x_audio s with None => None | Some a => Some (x_last_sr s + (if a then audio_iv else video_iv)) end.

(** send.rs:1206-1212 reset_buffers *)
Definition reset_buffers (s : tx) (already : Z) : tx :=
  set_padding (set_resends (set_cache (set_info (set_q s (sq_clear (x_q s))) None)
                                      (rtx_clear (x_cache s) already)) []) 0.
(** send.rs:1217-1246 reset_ssrc *)
Definition reset_ssrc (s : tx) (ns : Z) (nrtx : option Z) (seq seq_rtx already : Z) : tx :=
  let b := x_blank s in
  let h := k_hdr b in
  let s1 := mkTx ns nrtx (x_mid s) (x_rid s) (x_audio s) (x_cname s) (x_clock s) seq seq_rtx
    (x_last_sent s) already None (x_q s) (x_info s) (x_unpaced s) (x_resends s) (x_padding s)
    (k_with b (h_rtx h (payload_type h) ns (sequence_number h))) (x_cache s) (x_cap s) already None None
    st_new (0, 0, already) (x_pt_pad s) false (x_ack_rtx s) (x_mtu_warn s) in
  reset_buffers s1 already.

(** * Histories *)
Inductive txop :=
| XWrite (w : rtpwrite)
| XTimeout (now : Z) (audio : bool) (cname : list Z) (first : option Z)
| XPoll (now : Z) (m : extmap) (twcc : bool) (ps : list param)
| XRtcp (now : Z) (f : fb)
| XPad (n : Z)
| XState (now : Z)
| XSr (now : Z)
| XNextSeq
| XPollKf
| XPollRemb
| XSetCache (max age : Z) (cap : option Z)
| XSetUnpaced (b : bool)
| XReset
| XResetSsrc (ns : Z) (nrtx : option Z) (seq seq_rtx : Z).
Inductive txout := YNone | YPacket (bytes : list Z) (r : receipt) | YState (q : qstate) | YSr (r : sr)
  | YSeq (n : Z) | YKf (k : option bool) | YRemb (b : option Z).

(** [twcc] is the session's counter (session.rs:1001-1013); the session passes it only when the
    extension is in the map. *)
Definition txstep (exceeds : Z -> Z -> Z -> bool) (already : Z) (s : tx) (twcc : Z) (o : txop)
    : res (tx * Z * txout) :=
  match o with
  | XWrite w => Ok (write_rtp s w, twcc, YNone)
  | XTimeout now a c f => do s' <- tx_timeout s now a c f; Ok (s', twcc, YNone)
  | XPoll now m en ps =>
      do (st, p) <- poll_packet exceeds s now m (if en then Some twcc else None) ps;
      Ok (fst st, match snd st with Some t => t | None => twcc end,
          match p with Some (b, r) => YPacket b r | None => YNone end)
  | XRtcp now f => Ok (handle_rtcp s now f, twcc, YNone)
  | XPad n => Ok (generate_padding s n, twcc, YNone)
  | XState now => do (s', q) <- queue_state s now; Ok (s', twcc, YState q)
  | XSr now => do (s', r) <- create_sr s now; Ok (s', twcc, YSr r)
  | XNextSeq => Ok (set_seq s (x_seq s + 1), twcc, YSeq (x_seq s))
  | XPollKf => Ok (set_req s None (x_remb s), twcc, YKf (x_kf s))
  | XPollRemb => Ok (set_req s (x_kf s) None, twcc, YRemb (x_remb s))
  | XSetCache mx ag cap => Ok (set_rtx_cache s mx ag cap already, twcc, YNone)
  | XSetUnpaced b => Ok (set_first s (x_audio s) (x_cname s) (Some b) (x_pt_pad s), twcc, YNone)
  | XReset => Ok (reset_buffers s already, twcc, YNone)
  | XResetSsrc ns nr a b => Ok (reset_ssrc s ns nr a b already, twcc, YNone)
  end.
Fixpoint txrun (exceeds : Z -> Z -> Z -> bool) (already : Z) (s : tx) (twcc : Z) (ops : list txop)
    : res (tx * Z * list txout) :=
  match ops with
  | [] => Ok (s, twcc, [])
  | o :: os =>
      do (st, y) <- txstep exceeds already s twcc o;
      do (st', ys) <- txrun exceeds already (fst st) (snd st) os;
      Ok (st', y :: ys)
  end.

(** Model of the receiving side: src/streams/receive.rs (StreamRx), the receiving half of
    src/streams/mod.rs (Streams) and src/session.rs:440-714 (the path of an incoming RTP packet).
    Instants and durations are microseconds.  Hash maps are association lists; the order in which
    a hash map is iterated is not specified, so [RFront] may reorder the streams at any time.
    Not modelled: CNAME, jitter, round trip times, statistics snapshots, raw packet events,
    the sender side of [Streams]. *)
From Verif Require Import Base SeqModel NackModel RegisterModel MtimeModel ExtModel HeaderModel TxModel.

(** * Association lists *)
Fixpoint aget {A} (k : Z) (l : list (Z * A)) : option A :=
  match l with [] => None | (k', a) :: r => if k' =? k then Some a else aget k r end.
Definition adel {A} (k : Z) (l : list (Z * A)) : list (Z * A) := filter (fun p => negb (fst p =? k)) l.
(** HashMap::insert *)
Fixpoint aset {A} (k : Z) (a : A) (l : list (Z * A)) : list (Z * A) :=
  match l with
  | [] => [(k, a)]
  | (k', a') :: r => if k' =? k then (k, a) :: r else (k', a') :: aset k a r
  end.
Fixpoint leqb (a b : list Z) : bool :=
  match a, b with
  | [], [] => true
  | x :: a', y :: b' => (x =? y) && leqb a' b'
  | _, _ => false
  end.
Definition oleqb (a b : option (list Z)) : bool :=
  match a, b with Some x, Some y => leqb x y | None, None => true | _, _ => false end.

(** * One receive stream *)
(** receive.rs:113-122 LastSenderInfo: arrival, NTP time (64 bits), RTP time, emitted *)
Record lsi := mkLsi { i_at : Z; i_ntp : Z; i_rtp : mtime; i_emitted : bool }.
(** receive.rs:27-111.  [s_kf]: Some true is FIR, Some false is PLI. *)
Record srx := mkS { s_ssrc : Z; s_rtx : option Z; s_prev : option Z; s_mid : list Z; s_rid : option (list Z);
  s_supp : bool; s_used : Z; s_clock : option (Z * Z); s_info : option lsi; s_roc : option Z;
  s_reg : option rreg; s_regx : option rreg; s_time : option mtime;
  s_kf : option bool; s_remb : option Z; s_fir : Z; s_rr : Z;
  s_bytes : Z; s_packets : Z; s_firs : Z; s_plis : Z; s_nacks : Z;
  s_check : option Z; s_paused : bool; s_need : bool; s_thr : Z }.

(** util: already_happened, a time long ago *)
Definition ALREADY : Z := 0.

(** receive.rs:146-173 new *)
Definition srx_new (ssrc_ : Z) (m : list Z) (r : option (list Z)) (supp : bool) : srx :=
  mkS ssrc_ None None m r supp ALREADY None None None None None None None None 0 ALREADY
      0 0 0 0 0 None true false 1500000.

(** field updates *)
Definition set_rtx (s : srx) (v : option Z) : srx :=
  mkS (s_ssrc s) v (s_prev s) (s_mid s) (s_rid s) (s_supp s) (s_used s) (s_clock s) (s_info s) (s_roc s) (s_reg s) (s_regx s) (s_time s) (s_kf s) (s_remb s) (s_fir s) (s_rr s) (s_bytes s) (s_packets s) (s_firs s) (s_plis s) (s_nacks s) (s_check s) (s_paused s) (s_need s) (s_thr s).
Definition set_supp (s : srx) (v : bool) : srx :=
  mkS (s_ssrc s) (s_rtx s) (s_prev s) (s_mid s) (s_rid s) v (s_used s) (s_clock s) (s_info s) (s_roc s) (s_reg s) (s_regx s) (s_time s) (s_kf s) (s_remb s) (s_fir s) (s_rr s) (s_bytes s) (s_packets s) (s_firs s) (s_plis s) (s_nacks s) (s_check s) (s_paused s) (s_need s) (s_thr s).
Definition set_rinfo (s : srx) (c : option (Z * Z)) (i : option lsi) : srx :=
  mkS (s_ssrc s) (s_rtx s) (s_prev s) (s_mid s) (s_rid s) (s_supp s) (s_used s) c i (s_roc s) (s_reg s) (s_regx s) (s_time s) (s_kf s) (s_remb s) (s_fir s) (s_rr s) (s_bytes s) (s_packets s) (s_firs s) (s_plis s) (s_nacks s) (s_check s) (s_paused s) (s_need s) (s_thr s).
Definition set_regs (s : srx) (roc : option Z) (a b : option rreg) : srx :=
  mkS (s_ssrc s) (s_rtx s) (s_prev s) (s_mid s) (s_rid s) (s_supp s) (s_used s) (s_clock s) (s_info s) roc a b (s_time s) (s_kf s) (s_remb s) (s_fir s) (s_rr s) (s_bytes s) (s_packets s) (s_firs s) (s_plis s) (s_nacks s) (s_check s) (s_paused s) (s_need s) (s_thr s).
Definition set_times (s : srx) (used : Z) (t : option mtime) : srx :=
  mkS (s_ssrc s) (s_rtx s) (s_prev s) (s_mid s) (s_rid s) (s_supp s) used (s_clock s) (s_info s) (s_roc s) (s_reg s) (s_regx s) t (s_kf s) (s_remb s) (s_fir s) (s_rr s) (s_bytes s) (s_packets s) (s_firs s) (s_plis s) (s_nacks s) (s_check s) (s_paused s) (s_need s) (s_thr s).
Definition set_pause (s : srx) (c : option Z) (p n : bool) (thr : Z) : srx :=
  mkS (s_ssrc s) (s_rtx s) (s_prev s) (s_mid s) (s_rid s) (s_supp s) (s_used s) (s_clock s) (s_info s) (s_roc s) (s_reg s) (s_regx s) (s_time s) (s_kf s) (s_remb s) (s_fir s) (s_rr s) (s_bytes s) (s_packets s) (s_firs s) (s_plis s) (s_nacks s) c p n thr.
Definition set_reqs (s : srx) (kf : option bool) (remb : option Z) (fir rr : Z) : srx :=
  mkS (s_ssrc s) (s_rtx s) (s_prev s) (s_mid s) (s_rid s) (s_supp s) (s_used s) (s_clock s) (s_info s) (s_roc s) (s_reg s) (s_regx s) (s_time s) kf remb fir rr (s_bytes s) (s_packets s) (s_firs s) (s_plis s) (s_nacks s) (s_check s) (s_paused s) (s_need s) (s_thr s).
Definition set_counts (s : srx) (b p f pl n : Z) : srx :=
  mkS (s_ssrc s) (s_rtx s) (s_prev s) (s_mid s) (s_rid s) (s_supp s) (s_used s) (s_clock s) (s_info s) (s_roc s) (s_reg s) (s_regx s) (s_time s) (s_kf s) (s_remb s) (s_fir s) (s_rr s) b p f pl n (s_check s) (s_paused s) (s_need s) (s_thr s).

(** receive.rs:220-241 *)
Definition request_keyframe (s : srx) (fir : bool) : srx := set_reqs s (Some fir) (s_remb s) (s_fir s) (s_rr s).
Definition request_remb (s : srx) (b : Z) : srx := set_reqs s (s_kf s) (Some b) (s_fir s) (s_rr s).

(** receive.rs:287-313 set_sender_info; [rtp] is the 32-bit time of the report *)
Definition set_sender_info (s : srx) (now ntp rtp : Z) : srx :=
  let prev := match s_info s with Some i => Some (numer (i_rtp i)) | None => None end in
  let ext := extend_u32 prev rtp in
  let rate := match s_clock s with Some (_, r) => r | None => 1 end in
  set_rinfo s (s_clock s) (Some (mkLsi now ntp (mkT ext rate) false)).

(** receive.rs:325-342 handle_timeout *)
Definition srx_timeout (s : srx) (now : Z) : srx :=
  match s_check s with
  | None => s
  | Some t => if now <? t then s else set_pause s None true true (s_thr s)
  end.

(** receive.rs:344-376 extend_seq *)
Definition extend_seq (s : srx) (h : header) (is_repair : bool) (lookup : Z -> option Z) : srx * Z :=
  let mk o := match o with Some r => r | None => rnew (lookup (ssrc h)) end in
  if is_repair then
    let r := mk (s_regx s) in
    (set_regs s (s_roc s) (s_reg s) (Some r), extend_u16 (rmax_seq r) (sequence_number h))
  else
    let r := mk (s_reg s) in
    match s_roc s with
    | Some roc => (set_regs s None (Some r) (s_regx s), Z.lor (Z.shiftl roc 16 mod U64) (sequence_number h))
    | None => (set_regs s None (Some r) (s_regx s), extend_u16 (rmax_seq r) (sequence_number h))
    end.

(** receive.rs:378-387 is_new_packet *)
Definition is_new_packet (s : srx) (is_repair : bool) (seq : Z) : res bool :=
  match (if is_repair then s_regx s else s_reg s) with
  | Some r => Ok (raccepts r seq)
  | None => Panic
  end.

(** receive.rs:417-441: the media time of a packet with 32-bit time [ts]; an [Option] compares
    with None below everything *)
Definition packet_time (was_paused : bool) (previous : option Z) (ts : Z) : Z :=
  let t := extend_u32 previous ts in
  match previous with
  | Some prev =>
      if was_paused && (t <? prev) then
        let adj := extend_u32 previous ((ts + 2 ^ 31) mod U32) in
        if prev <? adj then adj else ts
      else t
  | None => t
  end.

(** receive.rs:389-451 update_register: the stream, the time, whether the packet is new *)
Definition update_register (s : srx) (now : Z) (h : header) (rate : Z) (is_repair : bool) (seq : Z)
    : res (srx * mtime * bool) :=
  let was := s_paused s in
  match (if is_repair then s_regx s else s_reg s) with
  | None => Panic
  | Some r =>
      let (r', new) := rupdate r seq in
      let previous := match s_time s with Some t => Some (numer t) | None => None end in
      let time := mkT (packet_time was previous (timestamp h)) rate in
      let s1 := set_pause s (Some (now + s_thr s)) false (if was then true else s_need s) (s_thr s) in
      let s2 := if is_repair then set_regs s1 (s_roc s) (s_reg s) (Some r')
                else set_regs s1 (s_roc s) (Some r') (s_regx s) in
      Ok (set_times s2 now (if is_repair then s_time s else Some time), time, new)
  end.

(** streams/mod.rs RtpPacket *)
Record rxpkt := mkRx { q_seq : Z; q_time : mtime; q_hdr : header; q_pay : list Z; q_info : option lsi; q_at : Z }.

(** receive.rs:454-489 handle_rtp *)
Definition srx_rtp (s : srx) (now : Z) (h : header) (pay : list Z) (seq : Z) (t : mtime) : srx * rxpkt :=
  let same := match s_clock s with Some (pt, _) => pt =? payload_type h | None => false end in
  let s1 := if same then s
            else set_rinfo s (Some (payload_type h, denom t))
                   (match s_info s with
                    | Some i => Some (mkLsi (i_at i) (i_ntp i) (mkT (numer (i_rtp i)) (denom t)) (i_emitted i))
                    | None => None end) in
  (set_counts s1 (s_bytes s1 + zlen pay) (s_packets s1 + 1) (s_firs s1) (s_plis s1) (s_nacks s1),
   mkRx seq t h pay (s_info s1) now).

(** receive.rs:491-510 un_rtx; header.rs:227-234: below two bytes the number read is 0 *)
Definition un_rtx (s : srx) (h : header) (data : list Z) (pt : Z) : header * list Z :=
  let '(osn, n) := match read_osn data with Some p => p | None => (0, 0) end in
  let e := ext_vals h in
  (mkH (version h) (has_padding h) (has_extension h) (csrc_count h) (marker h) pt
       osn (timestamp h) (s_ssrc s) (csrc h) (ev_ids e (rid_repair e) None (mid e)) (header_len h),
   skipn (Z.to_nat n) data).

(** receive.rs:728-737 reset_buffers *)
Definition srx_reset (s : srx) (lookup : Z -> option Z) : srx :=
  let a := match s_reg s with Some _ => Some (rnew (lookup (s_ssrc s))) | None => None end in
  let b := match s_regx s with
           | Some _ => Some (rnew (match s_rtx s with Some r => lookup r | None => None end))
           | None => None end in
  set_reqs (set_regs s (s_roc s) a b) None (s_remb s) (s_fir s) (s_rr s).

(** receive.rs:739-771 change_ssrc *)
Definition change_ssrc (s : srx) (n : Z) : option srx :=
  if (n =? s_ssrc s) || (match s_prev s with Some p => n =? p | None => false end) then None
  else Some (mkS n (s_rtx s) (Some (s_ssrc s)) (s_mid s) (s_rid s) (s_supp s) (s_used s) None None None None
               (s_regx s) None None None 0 ALREADY (s_bytes s) (s_packets s) (s_firs s) (s_plis s) (s_nacks s)
               (s_check s) (s_paused s) (s_need s) (s_thr s)).

(** receive.rs:773-789 maybe_reset_rtx *)
Definition maybe_reset_rtx (s : srx) (rtx : Z) : srx :=
  if (match s_rtx s with Some c => c =? rtx | None => false end) then s
  else set_regs (set_rtx s (Some rtx)) (s_roc s) (s_reg s) None.

(** receive.rs:804-808 reset_roc *)
Definition reset_roc (s : srx) (roc : Z) : srx := set_regs s (Some roc) None None.

(** rtp/id.rs:371-373 special_equals, receive.rs:810-812 *)
Definition is_midrid (s : srx) (m : list Z) (r : option (list Z)) : bool :=
  leqb m (s_mid s) && (match r with None => true | _ => oleqb r (s_rid s) end).

(** ** Feedback made by a stream *)
Inductive rxfb :=
| FbPli (sender ssrc_ : Z)
| FbFir (sender ssrc_ seq : Z)
| FbRemb (sender bitrate ssrc_ : Z)
| FbRr (sender : Z) (r : option (Z * report * Z * Z))  (* ssrc, report, last_sr_time, last_sr_delay *)
| FbXr (sender now : Z)
| FbNack (sender ssrc_ : Z) (es : list nack_entry).

(** receive.rs:512-540, 559-563 *)
Definition mk_keyframe (s : srx) (sender : Z) : srx * list rxfb :=
  match s_kf s with
  | None => (s, [])
  | Some fir =>
      let s1 := set_reqs s None (s_remb s) (if fir then (s_fir s + 1) mod 256 else s_fir s) (s_rr s) in
      (set_counts s1 (s_bytes s) (s_packets s) (if fir then s_firs s + 1 else s_firs s)
                  (if fir then s_plis s else s_plis s + 1) (s_nacks s),
       [if fir then FbFir sender (s_ssrc s) (s_fir s) else FbPli sender (s_ssrc s)])
  end.
(** receive.rs:542-557 *)
Definition mk_remb (s : srx) (sender : Z) : srx * list rxfb :=
  match s_remb s with
  | None => (s, [])
  | Some b => (set_reqs s (s_kf s) None (s_fir s) (s_rr s), [FbRemb sender b (s_ssrc s)])
  end.
(** receive.rs:573-650: the receiver report and the XR that follows it; [now - t] saturates *)
Definition mk_rr (s : srx) (now sender : Z) : res (srx * list rxfb) :=
  let done s' o := Ok (set_reqs s' (s_kf s) (s_remb s) (s_fir s) now, [FbRr sender o; FbXr sender now]) in
  match s_reg s with
  | None => done s None
  | Some r =>
      let (r', x) := reception_report r in
      match x with
      | Panic => Panic
      | Err => done s None
      | Ok rep =>
          let lsr := match s_info s with Some i => (i_ntp i / 65536) mod U32 | None => 0 end in
          let dlsr := match s_info s with Some i => (Z.max 0 (now - i_at i) * 65536 / 1000000) mod U32 | None => 0 end in
          done (set_regs s (s_roc s) (Some r') (s_regx s)) (Some (s_ssrc s, rep, lsr, dlsr))
      end
  end.
(** receive.rs:658-679; the entries of all the reports of one call in one list.  The count of
    reports is not kept exactly: one per call. *)
Definition mk_nack (s : srx) (sender : Z) : srx * list rxfb :=
  if s_supp s then (s, [])
  else match s_reg s with
       | None => (s, [])
       | Some r =>
           let (n, es) := nack_reports (rnack r) in
           match es with
           | [] => (s, [])
           | _ => (set_regs (set_counts s (s_bytes s) (s_packets s) (s_firs s) (s_plis s) (s_nacks s + 1)) (s_roc s)
                     (Some (mkRreg n (first r) (count r) (expected_prior r) (received_prior r))) (s_regx s),
                   [FbNack sender (s_ssrc s) es])
           end
       end.
(** receive.rs:243-249, 565-571; SSRC 0 is the probe stream *)
Definition report_at (s : srx) (iv_audio iv_video : Z) : Z :=
  s_rr s + (match s_rtx s with None => iv_audio | Some _ => iv_video end).
Definition need_rr (s : srx) (now iva ivv : Z) : bool :=
  if s_ssrc s =? 0 then false else report_at s iva ivv <=? now.
(** receive.rs:690-714 poll_paused *)
Definition poll_paused (s : srx) : option (srx * bool) :=
  if s_ssrc s =? 0 then None else if s_need s then Some (set_pause s (s_check s) (s_paused s) false (s_thr s), s_paused s) else None.
(** receive.rs:717-726 poll_sender_info *)
Definition poll_info (s : srx) : option (srx * lsi) :=
  match s_info s with
  | Some i => if i_emitted i then None
              else Some (set_rinfo s (s_clock s) (Some (mkLsi (i_at i) (i_ntp i) (i_rtp i) true)), i)
  | None => None
  end.

(** * All the streams *)
(** media/mod.rs:151-162 Rids; a media line as far as reception looks at it *)
Inductive rids := RNone | RAny | RSome (l : list (list Z)).
Record media := mkMedia { m_mid : list Z; m_rids : rids }.
(** streams/mod.rs:165-170 RxLookup *)
Record lookup := mkLk { l_mid : list Z; l_main : Z; l_used : Z }.

(** session.rs:50-130 and streams/mod.rs:124-157, the fields used by reception.  [probe] is the
    payload type of the first probe; [srtp] says whether the SRTP contexts exist. *)
Record sess := mkSess { streams : list (Z * srx); lookups : list (Z * lookup); cleanup : Z;
  maxseq : list (Z * Z); medias : list media; codecs : list param; probe : option Z; srtp : bool;
  rtp_mode : bool; bytes_rx : Z; pending : option rxpkt;
  nack_on : option bool (* any_nack_active *); last_nack : Z }.
Definition sess0 (mode : bool) : sess := mkSess [] [] ALREADY [] [] [] None false mode 0 None None ALREADY.
Definition set_streams (x : sess) (s : list (Z * srx)) (l : list (Z * lookup)) : sess :=
  mkSess s l (cleanup x) (maxseq x) (medias x) (codecs x) (probe x) (srtp x) (rtp_mode x) (bytes_rx x) (pending x) (nack_on x) (last_nack x).
Definition set_maxseq (x : sess) (m : list (Z * Z)) : sess :=
  mkSess (streams x) (lookups x) (cleanup x) m (medias x) (codecs x) (probe x) (srtp x) (rtp_mode x) (bytes_rx x) (pending x) (nack_on x) (last_nack x).
Definition set_medias (x : sess) (m : list media) : sess :=
  mkSess (streams x) (lookups x) (cleanup x) (maxseq x) m (codecs x) (probe x) (srtp x) (rtp_mode x) (bytes_rx x) (pending x) (nack_on x) (last_nack x).
Definition set_codecs (x : sess) (c : list param) (p : option Z) : sess :=
  mkSess (streams x) (lookups x) (cleanup x) (maxseq x) (medias x) c p (srtp x) (rtp_mode x) (bytes_rx x) (pending x) (nack_on x) (last_nack x).
Definition set_srtp (x : sess) (b : bool) : sess :=
  mkSess (streams x) (lookups x) (cleanup x) (maxseq x) (medias x) (codecs x) (probe x) b (rtp_mode x) (bytes_rx x) (pending x) (nack_on x) (last_nack x).
Definition set_cleanup (x : sess) (t : Z) : sess :=
  mkSess (streams x) (lookups x) t (maxseq x) (medias x) (codecs x) (probe x) (srtp x) (rtp_mode x) (bytes_rx x) (pending x) (nack_on x) (last_nack x).
Definition set_pending (x : sess) (n : Z) (p : option rxpkt) : sess :=
  mkSess (streams x) (lookups x) (cleanup x) (maxseq x) (medias x) (codecs x) (probe x) (srtp x) (rtp_mode x) n p (nack_on x) (last_nack x).
Definition set_nack (x : sess) (c : option bool) (t : Z) : sess :=
  mkSess (streams x) (lookups x) (cleanup x) (maxseq x) (medias x) (codecs x) (probe x) (srtp x) (rtp_mode x) (bytes_rx x) (pending x) c t.

(** session.rs:1302-1311 *)
Definition seq_lookup (m : list (Z * Z)) : Z -> option Z := fun k => aget k m.
Definition update_max_seq (m : list (Z * Z)) (k seq : Z) : list (Z * Z) :=
  match aget k m with
  | None => aset k seq m
  | Some c => if c <? seq then aset k seq m else m
  end.

(** streams/mod.rs:606-618, 696-700 *)
Definition find_stream (f : srx -> bool) (l : list (Z * srx)) : option srx :=
  match find (fun p => f (snd p)) l with Some (_, s) => Some s | None => None end.
Definition by_midrid (l : list (Z * srx)) m r : option srx := find_stream (fun s => is_midrid s m r) l.
Definition ozeqb (o : option Z) (k : Z) : bool := match o with Some x => x =? k | None => false end.
Definition by_ssrc_or_rtx (l : list (Z * srx)) (k : Z) : option srx :=
  find_stream (fun s => (s_ssrc s =? k) || ozeqb (s_rtx s) k) l.

(** streams/mod.rs:299-319 expect_stream_rx *)
Definition expect_rx (x : sess) (k : Z) (rtx : option Z) m r (supp : bool) : sess :=
  let s := match aget k (streams x) with Some s => s | None => srx_new k m r supp end in
  let s' := match rtx with Some q => maybe_reset_rtx s q | None => s end in
  set_nack (set_streams x (aset k s' (streams x)) (lookups x)) None (last_nack x).
(** streams/mod.rs:321-328 *)
Definition remove_rx (x : sess) (k : Z) : sess :=
  set_streams x (adel k (streams x)) (filter (fun p => negb (fst p =? k) && negb (l_main (snd p) =? k)) (lookups x)).
(** streams/mod.rs:620-624 *)
Definition remove_by_mid (x : sess) (m : list Z) : sess :=
  set_streams x (filter (fun p => negb (leqb (s_mid (snd p)) m)) (streams x))
              (filter (fun p => negb (leqb (l_mid (snd p)) m)) (lookups x)).
(** streams/mod.rs:652-675 change_stream_rx_ssrc *)
Definition change_rx_ssrc (x : sess) (a b : Z) : res (sess * bool) :=
  match aget a (streams x) with
  | None => Panic
  | Some s =>
      match change_ssrc s b with
      | None => Ok (x, false)
      | Some s' =>
          Ok (set_streams x (aset b s' (adel a (streams x)))
                (filter (fun p => negb (fst p =? a) && negb (l_main (snd p) =? a)) (lookups x)), true)
      end
  end.
(** streams/mod.rs:677-694 change_stream_rx_rtx: the first stream with that RTX *)
Fixpoint upd_first (f : srx -> bool) (g : srx -> srx) (l : list (Z * srx)) : list (Z * srx) :=
  match l with
  | [] => []
  | (k, s) :: r => if f s then (k, g s) :: r else (k, s) :: upd_first f g r
  end.
Definition change_rx_rtx (x : sess) (a b : Z) : sess :=
  set_nack (set_streams x (upd_first (fun s => ozeqb (s_rtx s) a) (fun s => maybe_reset_rtx s b) (streams x)) (adel a (lookups x)))
           None (last_nack x).
(** streams/mod.rs:366-397 mid_ssrc_rx_by_ssrc_or_rtx *)
Definition mid_ssrc (x : sess) (now k : Z) : sess * option (list Z * Z) :=
  match aget k (lookups x) with
  | Some l => (set_streams x (streams x) (aset k (mkLk (l_mid l) (l_main l) now) (lookups x)), Some (l_mid l, l_main l))
  | None =>
      match by_ssrc_or_rtx (streams x) k with
      | Some s => (set_streams x (streams x) (aset k (mkLk (s_mid s) (s_ssrc s) now) (lookups x)), Some (s_mid s, s_ssrc s))
      | None => (x, None)
      end
  end.

(** streams/mod.rs:256-297 map_dynamic_finish; [has_resend] is payload.resend.is_some(); the
    depayloader reset is not modelled *)
Definition map_finish (x : sess) m r (main : Z) (rtx : option Z) (has_resend : bool) : res sess :=
  do x1 <- match by_midrid (streams x) m r with
           | None => Ok x
           | Some s =>
               do y <- (if s_ssrc s =? main then Ok x
                        else do z <- change_rx_ssrc x (s_ssrc s) main; Ok (fst z));
               Ok (match s_rtx s, rtx with
                   | Some a, Some b => if a =? b then y else change_rx_rtx y a b
                   | _, _ => y
                   end)
           end;
  Ok (expect_rx x1 main rtx m r (negb has_resend)).
(** streams/mod.rs:206-217, 238-251: the main SSRC and the RTX *)
Definition map_pair (x : sess) (k : Z) m r (is_main : bool) : option (Z * option Z) :=
  let o := by_midrid (streams x) m r in
  if is_main then Some (k, match o with Some s => s_rtx s | None => None end)
  else match o with Some s => Some (s_ssrc s, Some k) | None => None end.
Definition rids_contains (r : rids) (x : list Z) : bool :=
  match r with RNone => false | RAny => true | RSome l => existsb (leqb x) l end.
Definition rids_specific (r : rids) : bool := match r with RSome _ => true | _ => false end.
(** session.rs:1298-1300 main_payload_params *)
Definition find_param (c : list param) (pt : Z) : option param :=
  find (fun p => (p_pt p =? pt) || ozeqb (p_rtx p) pt) c.
Definition find_media (l : list media) (m : list Z) : option media := find (fun x => leqb (m_mid x) m) l.

(** session.rs:489-537 map_dynamic with streams/mod.rs:187-254 *)
Definition map_dynamic (x : sess) (h : header) : res sess :=
  let e := ext_vals h in
  match mid e with
  | None => Ok x
  | Some m =>
      match find_media (medias x) m, find_param (codecs x) (payload_type h) with
      | Some md, Some p =>
          let rid_ := match rid e with Some a => Some a | None => rid_repair e end in
          let is_main := match rid_ with
                         | Some _ => match rid e with Some _ => true | None => false end
                         | None => p_pt p =? payload_type h end in
          let allowed := match rid_ with Some a => rids_contains (m_rids md) a | None => negb (rids_specific (m_rids md)) end in
          if allowed then
            match map_pair x (ssrc h) m rid_ is_main with
            | Some (main, rtx) => map_finish x m rid_ main rtx (match p_rtx p with Some _ => true | None => false end)
            | None => Ok x
            end
          else Ok x
      | _, _ => Ok x
      end
  end.

(** media/mod.rs:42 MID_PROBE = "~]probe" *)
Definition MID_PROBE : list Z := [126; 93; 112; 114; 111; 98; 101].

(** session.rs:447-487 mid_and_ssrc_for_header, ensure_probe_stream *)
Definition mid_for_header (x : sess) (now : Z) (h : header) : res (sess * option (list Z * Z)) :=
  let (x1, o) := mid_ssrc x now (ssrc h) in
  match o with
  | Some _ => Ok (x1, o)
  | None =>
      do x2 <- map_dynamic x1 h;
      let (x3, o3) := mid_ssrc x2 now (ssrc h) in
      match o3 with
      | Some _ => Ok (x3, o3)
      | None =>
          if ssrc h =? 0 then
            Ok (expect_rx (set_codecs x3 (codecs x3) (Some (payload_type h))) 0 None MID_PROBE None true, Some (MID_PROBE, 0))
          else Ok (x3, None)
      end
  end.

(** What one packet causes besides the state: a TWCC sequence number to acknowledge, a packet for
    the frame assembly of a media. *)
Inductive rxev := EvTwcc (n : Z) | EvDepay (m : list Z) (r : option (list Z)) (p : rxpkt).

(** session.rs:619-629 *)
Definition unpad (h : header) (data : list Z) : res (list Z) :=
  if has_padding h then unpad_payload data else Ok data.

(** session.rs:539-714 handle_rtp.  [dec seq] is what SrtpContext::unprotect_rtp gives for this
    datagram and this extended sequence number (SrtpModel.v); the header is the parsed one
    (HeaderModel.v), with absolute-send-time already rewritten (line 541). *)
Definition handle_rtp (x : sess) (now : Z) (h : header) (dec : Z -> option (list Z)) : res (sess * list rxev) :=
  do (x1, o) <- mid_for_header x now h;
  match o with
  | None => Ok (x1, [])
  | Some (m, k) =>
      if negb (srtp x1) then Ok (x1, [])
      else
        match aget k (streams x1) with
        | None => Panic
        | Some s =>
            match (if k =? 0 then match probe x1 with Some pt => Some (mkPar pt None 90000) | None => None end
                   else find_param (codecs x1) (payload_type h)) with
            | None => Ok (x1, [])
            | Some p =>
                let rate := p_clock p in
                let is_repair := negb (p_pt p =? payload_type h) in
                let (s1, seq) := extend_seq s h is_repair (seq_lookup (maxseq x1)) in
                let x2 := set_streams x1 (aset k s1 (streams x1)) (lookups x1) in
                do nw <- is_new_packet s1 is_repair seq;
                if negb nw then Ok (x2, [])
                else
                  match dec seq with
                  | None => Ok (x2, [])
                  | Some raw =>
                      match unpad h raw with
                      | Panic => Panic
                      | Err => Ok (x2, [])
                      | Ok data =>
                          let tw := match transport_cc (ext_vals h) with Some n => [EvTwcc n] | None => [] end in
                          let mx := update_max_seq (maxseq x1) (ssrc h) seq in
                          do (s2, t2, new2) <- update_register s1 now h rate is_repair seq;
                          let fin s3 h3 seq3 t3 new3 data3 mx3 :=
                            let x3 := set_maxseq (set_streams x2 (aset k s3 (streams x2)) (lookups x2)) mx3 in
                            if k =? 0 then Ok (x3, tw)
                            else
                              let (s4, pk) := srx_rtp s3 now h3 data3 seq3 t3 in
                              let x4 := set_streams x3 (aset k s4 (streams x3)) (lookups x3) in
                              let n := bytes_rx x4 + zlen data3 in
                              if rtp_mode x4 then Ok (set_pending x4 n (if new3 : bool then Some pk else pending x4), tw)
                              else match find_media (medias x4) m with
                                   | None => Panic
                                   | Some _ => Ok (set_pending x4 n (pending x4), tw ++ [EvDepay m (s_rid s4) pk])
                                   end in
                          if is_repair then
                            if zlen data =? 0 then Ok (set_maxseq (set_streams x2 (aset k s2 (streams x2)) (lookups x2)) mx, tw)
                            else
                              let (h', data') := un_rtx s2 h data (p_pt p) in
                              let (s3, seq') := extend_seq s2 h' false (seq_lookup mx) in
                              let mx' := update_max_seq mx (ssrc h') seq' in
                              do (s4, t4, new4) <- update_register s3 now h' rate false seq';
                              fin s4 h' seq' t4 new4 data' mx'
                          else fin s2 h seq t2 new2 data mx
                      end
                  end
            end
        end
  end.

(** streams/mod.rs:432-453: the feedback of one timeout *)
Definition srx_feedback (s : srx) (now sender : Z) (do_nack : bool) (report : bool) : res (srx * list rxfb) :=
  let (s1, a) := mk_keyframe s sender in
  let (s2, b) := mk_remb s1 sender in
  do (s3, c) <- (if report then mk_rr s2 now sender else Ok (s2, []));
  let (s4, d) := if do_nack then mk_nack s3 sender else (s3, []) in
  Ok (srx_timeout s4 now, a ++ b ++ c ++ d).
Fixpoint all_feedback (l : list (Z * srx)) (now sender : Z) (do_nack : bool) (mids : list (list Z))
    : res (list (Z * srx) * list rxfb) :=
  match l with
  | [] => Ok ([], [])
  | (k, s) :: r =>
      do (s', a) <- srx_feedback s now sender do_nack (existsb (leqb (s_mid s)) mids);
      do (r', b) <- all_feedback r now sender do_nack mids;
      Ok ((k, s') :: r', a ++ b)
  end.
(** streams/mod.rs:421-483 handle_timeout (receiving half) and 709-711 *)
Definition CLEANUP : Z := 10000000.
Definition EXPIRY : Z := 30000000.
Definition rx_timeout (x : sess) (now sender : Z) (do_nack : bool) (iva ivv : Z) : res (sess * list rxfb) :=
  let mids := map (fun p => s_mid (snd p)) (filter (fun p => need_rr (snd p) now iva ivv) (streams x)) in
  do (l, fb) <- all_feedback (streams x) now sender do_nack mids;
  let x1 := set_streams x l (lookups x) in
  Ok (if cleanup x + CLEANUP <? now
      then set_cleanup (set_streams x1 l (filter (fun p => Z.max 0 (now - l_used (snd p)) <=? EXPIRY) (lookups x))) now
      else x1, fb).

(** session.rs:1112-1118 nack_at, streams/mod.rs:702-707 any_nack_enabled: the answer is cached *)
Definition NACK_INTERVAL : Z := 33000.
Definition any_nack (x : sess) : bool :=
  match nack_on x with Some b => b | None => existsb (fun p => negb (s_supp (snd p))) (streams x) end.
Definition nack_at (x : sess) : sess * option Z :=
  (set_nack x (Some (any_nack x)) (last_nack x), if any_nack x then Some (last_nack x + NACK_INTERVAL) else None).
(** session.rs:275-333 handle_timeout (reception); [sender] is first_ssrc_local() *)
Definition sess_timeout (x : sess) (now sender iva ivv : Z) : res (sess * list rxfb) :=
  let (x1, at_) := nack_at x in
  let do_nack := match at_ with Some t => t <=? now | None => false end in
  do (x2, fb) <- rx_timeout x1 now sender do_nack iva ivv;
  Ok (set_nack x2 (nack_on x2) (if do_nack then now else last_nack x2), fb).
(** streams/mod.rs:399-403 regular_feedback_at (receiving half) *)
Definition feedback_at (x : sess) (iva ivv : Z) : option Z :=
  fold_right (fun p o => let t := report_at (snd p) iva ivv in
                         match o with Some u => Some (Z.min t u) | None => Some t end) None (streams x).

(** streams/mod.rs:496-517: the first stream with something to tell *)
Fixpoint poll_first {A} (f : srx -> option (srx * A)) (l : list (Z * srx)) : option (list (Z * srx) * (srx * A)) :=
  match l with
  | [] => None
  | (k, s) :: r =>
      match f s with
      | Some (s', a) => Some ((k, s') :: r, (s', a))
      | None => match poll_first f r with Some (r', z) => Some ((k, s) :: r', z) | None => None end
      end
  end.
(** streams/mod.rs:405-407 paused_at: the first stream that has one *)
Fixpoint paused_at (l : list (Z * srx)) : option Z :=
  match l with [] => None | (_, s) :: r => match s_check s with Some t => Some t | None => paused_at r end end.

(** * What happens to a session *)
Inductive rop :=
| RRtp (now : Z) (h : header) (dec : Z -> option (list Z))
| RPollPacket                              (* session.rs:840-844 *)
| RExpect (k : Z) (rtx : option Z) (m : list Z) (r : option (list Z)) (supp : bool)  (* direct.rs:243-263; sdp.rs:1385-1399 *)
| RRemove (k : Z)                          (* direct.rs:268-270 *)
| RDeclare (m : media)                     (* direct.rs:217-231, session.rs:1172-1174 *)
| RRids (m : list Z) (r : rids)            (* sdp.rs:1367-1374: a media changes its rids *)
| RRemoveMedia (m : list Z)                (* session.rs:1180-1183; sdp.rs:1143-1145 *)
| RCodecs (c : list param)
| RSrtp
| RStopRecv (m : list Z)                   (* session.rs:1250-1253 *)
| RResetRoc (k roc : Z)
| RKeyframe (k : Z) (fir : bool)
| RRemb (k b : Z)
| RSuppress (k : Z) (b : bool)             (* through DirectApi::stream_rx, direct.rs:277-279 *)
| RSuppressMid (m : list Z) (r : option (list Z)) (b : bool)  (* through stream_rx_by_mid, direct.rs:282-285 *)
| RThreshold (k d : Z)
| RSr (now k ntp rtp : Z)                  (* session.rs:776-780 with receive.rs:254-256 *)
| RTimeout (now sender iva ivv : Z)
| RPollPaused
| RPollSr
| RFront (k : Z).                          (* hash map order *)

Inductive rout := ORtp (l : list rxev) | OPacket (p : option rxpkt) | OFeedback (l : list rxfb)
  | OPaused (k : Z) (p : bool) | OSr (k : Z) (i : lsi) | ONone.

(** stream_rx(k) followed by a setter *)
Definition on_stream (x : sess) (k : Z) (f : srx -> srx) : sess :=
  match aget k (streams x) with
  | Some s => set_streams x (aset k (f s) (streams x)) (lookups x)
  | None => x
  end.

Definition rxstep (x : sess) (o : rop) : res (sess * rout) :=
  match o with
  | RRtp now h dec => do (y, l) <- handle_rtp x now h dec; Ok (y, ORtp l)
  | RPollPacket => if srtp x && rtp_mode x then Ok (set_pending x (bytes_rx x) None, OPacket (pending x)) else Ok (x, OPacket None)
  | RExpect k rtx m r supp =>
      match find_media (medias x) m with
      | None => Panic (* direct.rs:250-252 *)
      | Some _ => Ok (expect_rx x k rtx m r supp, ONone)
      end
  | RRemove k => Ok (remove_rx x k, ONone)
  | RDeclare m => Ok (set_medias x (medias x ++ [m]), ONone)
  | RRids m r => Ok (set_medias x (map (fun a => if leqb (m_mid a) m then mkMedia (m_mid a) r else a) (medias x)), ONone)
  | RRemoveMedia m => Ok (remove_by_mid (set_medias x (filter (fun a => negb (leqb (m_mid a) m)) (medias x))) m, ONone)
  | RCodecs c => Ok (set_codecs x c (probe x), ONone)
  | RSrtp => Ok (set_srtp x true, ONone)
  | RStopRecv m => Ok (set_streams x (map (fun p => if leqb (s_mid (snd p)) m then (fst p, srx_reset (snd p) (seq_lookup (maxseq x))) else p) (streams x)) (lookups x), ONone)
  | RResetRoc k roc => Ok (on_stream x k (fun s => reset_roc s roc), ONone)
  | RKeyframe k fir => Ok (on_stream x k (fun s => request_keyframe s fir), ONone)
  | RRemb k b => Ok (on_stream x k (fun s => request_remb s b), ONone)
  | RSuppress k b => Ok (on_stream x k (fun s => set_supp s b), ONone)
  | RThreshold k d => Ok (on_stream x k (fun s => set_pause s (s_check s) (s_paused s) (s_need s) d), ONone)
  | RSr now k ntp rtp => Ok (on_stream x k (fun s => set_sender_info s now ntp rtp), ONone)
  | RSuppressMid m r b =>
      Ok (set_nack (set_streams x (upd_first (fun s => is_midrid s m r) (fun s => set_supp s b) (streams x)) (lookups x)) None (last_nack x), ONone)
  | RTimeout now sender iva ivv => do (y, l) <- sess_timeout x now sender iva ivv; Ok (y, OFeedback l)
  | RPollPaused =>
      match poll_first poll_paused (streams x) with
      | Some (l, (s, b)) => Ok (set_streams x l (lookups x), OPaused (s_ssrc s) b)
      | None => Ok (x, ONone)
      end
  | RPollSr =>
      match poll_first poll_info (streams x) with
      | Some (l, (s, i)) => Ok (set_streams x l (lookups x), OSr (s_ssrc s) i)
      | None => Ok (x, ONone)
      end
  | RFront k =>
      Ok (match aget k (streams x) with
          | Some s => set_streams x ((k, s) :: adel k (streams x)) (lookups x)
          | None => x end, ONone)
  end.
Fixpoint rxrun (x : sess) (os : list rop) : res (sess * list rout) :=
  match os with
  | [] => Ok (x, [])
  | o :: r => do (y, a) <- rxstep x o; do (z, l) <- rxrun y r; Ok (z, a :: l)
  end.

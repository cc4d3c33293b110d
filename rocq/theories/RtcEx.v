(** The peer connection with simple components: lives of a connection, and what does not hold. *)
From Verif Require Import Base RtcModel RtcSpec RtcProps RtcRec.

(** Components that play back: the ICE agent, DTLS engine and SCTP put out what is in their queues; the
    engine puts out a packet when closed. *)
Record toy := mkT { q_ice : list iev; q_dtls : list dout; q_sctp : list xev; t_shut : bool; t_bye : bool; t_sctp_ok : bool }.
Definition DIDLE : Z := 1000.
Definition toyC : comps toy := mkC
  (fun w => match q_ice w with [] => (None, w) | e :: r => (Some e, mkT r (q_dtls w) (q_sctp w) (t_shut w) (t_bye w) (t_sctp_ok w)) end)
  (fun w => (None, w)) (fun _ => Some 50)
  (fun w => match q_dtls w with [] => (DTimeout DIDLE, w) | e :: r => (e, mkT (q_ice w) r (q_sctp w) (t_shut w) (t_bye w) (t_sctp_ok w)) end)
  (fun w _ => (true, w)) (fun w _ => (true, w)) (fun w _ => (DsOk, w))
  (fun w => (true, mkT (q_ice w) (q_dtls w ++ [DPacket [21]]) (q_sctp w) true (t_bye w) (t_sctp_ok w)))
  t_shut (fun w _ => w) (fun d => d ++ [0])
  (fun w => match q_sctp w with [] => (None, w) | e :: r => (Some e, mkT (q_ice w) (q_dtls w) r (t_shut w) (t_bye w) (t_sctp_ok w)) end)
  (fun w _ _ => w) (fun w l => mkT (q_ice w) (q_dtls w) (XTransmit l :: q_sctp w) (t_shut w) (t_bye w) (t_sctp_ok w)) (fun w => w) (fun w => (t_sctp_ok w, w)) (fun _ => None) (fun _ => None)
  (fun w => (None, w)) (fun w => (Some None, w)) (fun w _ => (None, w)) (fun w => w) (fun w _ _ => w)
  (fun w => mkT (q_ice w) (q_dtls w) (q_sctp w) (t_shut w) true (t_sctp_ok w)) t_bye (fun _ => (Some 70, 9))
  (fun w => (None, w)) (fun _ => None) (fun _ w _ => (true, w)) (fun _ w _ _ => w) (fun w _ _ => w).
Definition go (i : list iev) (d : list dout) (x : list xev) (ok : bool) os := run toyC 99999 (-1) (rtc0 (mkT i d x false false ok) true 0) os.
Definition seen_by (x : res (rtc toy * list (op (W := toy) * sres (W := toy)))) : option (life * list output * list act) :=
  match x with Ok (r, h) => Some (r_st r, outputs h, acts h) | _ => None end.
Definition CRT : fprint := mkFp SHA256 [7; 0].
Definition P := QPoll (W := toy) 20.

(** A whole life: hypotheses of C51, C52 and C53 are met. *)
Example life_ex : seen_by (go [INominated 4] [DPacket [1]; DCert [7]; DKeys [5]; DConnected; DPacket [2]] [XEvent 3] true
    [QFp CRT; QInit true; QInput 10 None; P; P; P; P; P; P; QClose; P; P; P; P]) =
  Some (Closed,
    [YEvent (EChannel 3); YEvent EConnected; YSend 4 [1]; YSend 4 [2]; YTimeout 50 R_ICE; YTimeout 50 R_ICE; YSend 4 [21]; YTimeout 99999 R_NOT; YTimeout 99999 R_NOT; YTimeout 99999 R_NOT],
    [ADtlsTick 0; ADtlsRecv []; ATick ToIce 10; ATick ToSctp 10; ATick ToChan 10; ATick ToSession 10; ATick ToStats 10;
     ANominated 4; APacket [1]; ADtlsTick 10; ACert CRT (Some CRT); AKeys [5] true; AUp; APacket [2]; ADtlsTick 10; ASendDtls [1]; ASendDtls [2]; AShut; APacket [21]; ASendDtls [21]; ADtlsTick 10]).
Proof. vm_compute. reflexivity. Qed.
Example recorded_ex : match run (rec toyC) 99999 (-1) (rtc0 (mkT [INominated 4] [DPacket [1]; DCert [7]; DKeys [5]; DConnected] [XEvent 3] false false true, []) true 0)
    [QFp CRT; QInit true; QPoll 20; QPoll 20; QClose; QPoll 20; QPoll 20] with Ok (r, _) => Some (snd (r_w r)) | _ => None end =
  Some [ADtlsTick 0; ADtlsRecv []; ANominated 4; APacket [1]; ADtlsTick 0; ACert CRT None; AKeys [5] true; AShut; APacket [21]; ADtlsTick 0].
Proof. vm_compute. reflexivity. Qed.
(** The wrong certificate: dead, no keys. *)
Example wrong_certificate_ex : seen_by (go [] [DCert [8]; DKeys [5]] [] true [QSdpFp CRT; QInit false; P; P]) =
  Some (Closed, [YErr; YTimeout 99999 R_NOT], [ADtlsTick 0; ACert (mkFp SHA256 [8; 0]) (Some CRT)]).
Proof. vm_compute. reflexivity. Qed.
(** No fingerprint known: the same. *)
Example no_fingerprint_ex : seen_by (go [] [DCert [8]; DKeys [5]] [] true [QInit false; P]) =
  Some (Closed, [YErr], [ADtlsTick 0; ACert (mkFp SHA256 [8; 0]) None]).
Proof. vm_compute. reflexivity. Qed.
(** The fingerprint in force is the one set last with the direct API; SDP does not change it. *)
Example fingerprints_ex : seen_by (go [] [DCert [8]] [] true [QSdpFp CRT; QFp (mkFp SHA256 [8; 0]); QSdpFp CRT; QInit false; P]) =
  Some (Alive, [YTimeout 50 R_ICE], [ADtlsTick 0; ACert (mkFp SHA256 [8; 0]) (Some (mkFp SHA256 [8; 0]))]).
Proof. vm_compute. reflexivity. Qed.

(** C52: a closed connection whose DTLS packets could never be sent: hypotheses of C52_close_waits_for_ice. *)
Example stuck_ex : seen_by (go [] [DPacket [1]] [] true [P; QClose; P; QInput 1000 None; P; P]) =
  Some (Closing, [YTimeout 0 R_DTLS; YTimeout 0 R_DTLS; YTimeout 1000 R_ICE; YTimeout 1000 R_ICE],
    [APacket [1]; AShut; ADtlsTick 0; APacket [21]; ATick ToIce 1000; ATick ToSctp 1000; ATick ToChan 1000; ATick ToSession 1000; ATick ToStats 1000; ADtlsTick 1000; ADtlsTick 1000]).
Proof. vm_compute. reflexivity. Qed.

(** C52: "Closed" is not given once: a lost association and the peer's close_notify give one each. *)
Theorem C52_closed_once_refuted : exists W (C : comps W) NEVER PAST w v start os r h,
  run C NEVER PAST (rtc0 w v start) os = Ok (r, h) /\ outputs h = [YEvent EClosed; YEvent EClosed].
Proof.
  exists toy, toyC, 99999, (-1), (mkT [] [] [XLost] false false true), true, 0, [P; QApi (mkT [] [DCloseNotify] [] true true true); P].
  eexists. eexists. split; [vm_compute; reflexivity|reflexivity].
Qed.
(** C52: close() can fail (SCTP still in its handshake): then the RTP session is closed for good, but
    the Rtc goes on as if alive. *)
Theorem C52_close_refused_refuted : exists W (C : comps W) NEVER PAST w v start os r h,
  run C NEVER PAST (rtc0 w v start) os = Ok (r, h) /\ In QClose (map fst h) /\
  c_ses_closed C (r_w r) = true /\ c_dtls_closed C (r_w r) = false /\ usable r = true /\ Forall (fun p => fst p = QClose -> o_ok (snd p) = false) h.
Proof.
  exists toy, toyC, 99999, (-1), (mkT [] [] [] false false false), true, 0, [QClose; P].
  eexists. eexists. split; [vm_compute; reflexivity|]. split; [left; reflexivity|]. split; [reflexivity|]. split; [reflexivity|]. split; [reflexivity|].
  repeat constructor; discriminate.
Qed.
(** C51: DTLS may come up without the application ever being told: the peer closes in the same flight. *)
Theorem C51_connected_told_refuted : exists W (C : comps W) NEVER PAST w v start os r h,
  run C NEVER PAST (rtc0 w v start) os = Ok (r, h) /\ r_conn r = true /\ is_alive r = false /\ connecteds (outputs h) = 0%nat /\ ~ In QDisconnect os.
Proof.
  exists toy, toyC, 99999, (-1), (mkT [INominated 4] [DConnected; DCloseNotify] [] false false true), true, 0, [P; P; P].
  eexists. eexists. split; [vm_compute; reflexivity|]. repeat split. cbn. intuition discriminate.
Qed.
(** C53: a datagram's own time is not held back: media can be handed in with a time before the present. *)
Theorem C53_receive_time_refuted : exists W (C : comps W) NEVER PAST w v start os r h,
  run C NEVER PAST (rtc0 w v start) os = Ok (r, h) /\ exists t1 t2 t3 m n p, acts h = t1 ++ ATick ToSession m :: t2 ++ ARecv ToSession n p :: t3 /\ n < m.
Proof.
  exists toy, toyC, 99999, (-1), (mkT [] [] [] false false true), true, 0, [QInput 10 None; QInput 5 (Some (GRtp [9]))].
  eexists. eexists. split; [vm_compute; reflexivity|].
  exists [ATick ToIce 10; ATick ToSctp 10; ATick ToChan 10], [ATick ToStats 10], [], 10, 5, [9]. split; [reflexivity|lia].
Qed.
(** C53: a timeout does not mean that there is nothing left to poll: without any input, the next poll gives an event
    (the DTLS engine had more to say after a packet, and no address to send it to). *)
Theorem C53_timeout_is_last_refuted : exists W (C : comps W) NEVER PAST w v start os r h,
  run C NEVER PAST (rtc0 w v start) os = Ok (r, h) /\ Forall (fun o => exists f, o = QPoll f) os /\
  outputs h = [YTimeout start R_DTLS; YEvent EConnected].
Proof.
  exists toy, toyC, 99999, (-1), (mkT [] [DPacket [1]; DConnected] [] false false true), true, 0, [P; P].
  eexists. eexists. split; [vm_compute; reflexivity|]. split; [repeat constructor; eexists; reflexivity|reflexivity].
Qed.

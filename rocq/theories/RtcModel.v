(** The peer connection itself: the loop of poll_output and handle_input, life cycle, time and
    shutdown (src/lib.rs, src/dtls.rs). The ICE agent, the DTLS engine, SCTP with the data channels, the RTP session
    and the statistics are arbitrary: [comps], functions on one shared state [W] about which nothing is
    known. Datagrams, keys, certificates and the events of the components are lists of bytes or
    numbers. *)
From Verif Require Import Base.

(** crypto/finger.rs:11-17: hash function name and digest *)
Record fprint := mkFp { f_hash : list Z; f_bytes : list Z }.
(** lib.rs:935-939; protocol, source and destination in one *)
Definition addr := Z.

(** crates/is agent.rs IceAgentEvent, as used in lib.rs:1583-1617 *)
Inductive iev := IRestart | IState (s : Z) | IRecv (source : Z) | INominated (a : addr).
(** crypto DtlsOutput, lib.rs:1639-1696 *)
Inductive dout := DPacket (p : list Z) | DConnected | DKeys (km : list Z) | DCert (der : list Z) | DData (d : list Z)
| DTimeout (t : Z) | DCloseNotify | DOther.
(** result of send_application_data, dtls.rs:158-166 *)
Inductive dsend := DsOk | DsBlock | DsErr.
(** SctpEvent after the channel lookup of lib.rs:1736-1777 (see SctpModel.translate): packets to send, the
    association is lost, an event for the application, or nothing for it *)
Inductive xev := XTransmit (packets : list (list Z)) | XLost | XEvent (e : Z) | XNothing.
(** crates/is and io: what lib.rs:2076-2095 distinguishes *)
Inductive datagram := GStun (m : list Z) | GDtls (p : list Z) | GRtp (p : list Z) | GRtcp (p : list Z).
Inductive side := ToIce | ToSctp | ToChan | ToSession | ToStats.

(** The components (traits DtlsInstance and Sha256Provider, structs IceAgent, RtcSctp, ChannelHandler, Session, Stats). *)
Record comps (W : Type) := mkC {
  c_ice_event : W -> option iev * W;
  c_ice_transmit : W -> option (list Z) * W;
  c_ice_timeout : W -> option Z;
  c_dtls_poll : W -> dout * W;                          (* DtlsInstance::poll_output *)
  c_dtls_timeout : W -> Z -> bool * W;                  (* false: Err *)
  c_dtls_recv : W -> list Z -> bool * W;                (* handle_packet *)
  c_dtls_send : W -> list Z -> dsend * W;               (* send_application_data *)
  c_dtls_close : W -> bool * W;
  c_dtls_closed : W -> bool;
  c_dtls_active : W -> bool -> W;                       (* set_active *)
  c_sha256 : list Z -> list Z;
  c_sctp_poll : W -> option xev * W;
  c_sctp_input : W -> Z -> list Z -> W;
  c_sctp_push : W -> list (list Z) -> W;                (* push_back_transmit *)
  c_sctp_lost : W -> W;                                 (* chan.association_lost *)
  c_sctp_close : W -> bool * W;
  c_sctp_timeout : W -> option Z;
  c_chan_timeout : W -> option Z;
  c_ses_event : W -> option Z * W;
  c_ses_fallible : W -> option (option Z) * W;          (* None: Err *)
  c_ses_datagram : W -> Z -> option (list Z) * W;
  c_ses_clear : W -> W;
  c_ses_keys : W -> list Z -> bool -> W;
  c_ses_close : W -> W;                                 (* close_rtp *)
  c_ses_closed : W -> bool;                             (* is_rtp_closed *)
  c_ses_timeout : W -> option Z * Z;                    (* with the reason *)
  c_stats_event : W -> option Z * W;
  c_stats_timeout : W -> option Z;
  c_tick : side -> W -> Z -> bool * W;                  (* handle_timeout; only the session's may fail *)
  c_recv : side -> W -> Z -> list Z -> W;               (* ice.handle_packet, handle_rtp_receive *)
  c_recv_rtcp : W -> Z -> list Z -> W
}.
Arguments mkC {W}.
Arguments c_ice_event {W}. Arguments c_ice_transmit {W}. Arguments c_ice_timeout {W}. Arguments c_dtls_poll {W}. Arguments c_dtls_timeout {W}.
Arguments c_dtls_recv {W}. Arguments c_dtls_send {W}. Arguments c_dtls_close {W}. Arguments c_dtls_closed {W}. Arguments c_dtls_active {W}.
Arguments c_sha256 {W}. Arguments c_sctp_poll {W}. Arguments c_sctp_input {W}. Arguments c_sctp_push {W}. Arguments c_sctp_lost {W}. Arguments c_sctp_close {W}.
Arguments c_sctp_timeout {W}. Arguments c_chan_timeout {W}. Arguments c_ses_event {W}. Arguments c_ses_fallible {W}. Arguments c_ses_datagram {W}.
Arguments c_ses_clear {W}. Arguments c_ses_keys {W}. Arguments c_ses_close {W}. Arguments c_ses_closed {W}. Arguments c_ses_timeout {W}.
Arguments c_stats_event {W}. Arguments c_stats_timeout {W}. Arguments c_tick {W}. Arguments c_recv {W}. Arguments c_recv_rtcp {W}.

(** lib.rs:929-933 *)
Inductive life := Alive | Closing | Closed.

(** lib.rs:903-926, dtls.rs:19-39; times in any unit. Not modelled: byte counters, change counter,
    last_timeout_reason (it is part of the output here), need_init_time, the fingerprint kept for the
    direct API. *)
Record rtc (W : Type) := mkR {
  r_st : life; r_w : W; r_dto : option Z; r_conn : bool; r_fp : option fprint; r_verify : bool;
  r_addrs : list Z; r_send : option addr; r_now : Z; r_cstart : bool; r_pend : list (list Z); r_active : option bool
}.
Arguments mkR {W}. Arguments r_st {W}. Arguments r_w {W}. Arguments r_dto {W}. Arguments r_conn {W}. Arguments r_fp {W}. Arguments r_verify {W}.
Arguments r_addrs {W}. Arguments r_send {W}. Arguments r_now {W}. Arguments r_cstart {W}. Arguments r_pend {W}. Arguments r_active {W}.

(** lib.rs:1228-1293 *)
Definition rtc0 {W} (w : W) (verify : bool) (start : Z) : rtc W := mkR Alive w None false None verify [] None start false [] None.

(** Output (lib.rs Output, Event); [YErr]: poll_output returns Err. The events that matter here are told
    apart, the others carry the component's. *)
Inductive event := EIce (s : Z) | EConnected | EClosed | EChannel (e : Z) | ESession (e : Z) | EStats (e : Z).
Inductive output := YEvent (e : event) | YIce (p : list Z) (* ICE's own destination *) | YSend (a : addr) (p : list Z)
| YTimeout (t : Z) (reason : Z) | YErr.

(** What the components are told, and the security relevant decisions (ghost). *)
Inductive act :=
| ATick (s : side) (now : Z) | ARecv (s : side) (now : Z) (p : list Z) | ARtcp (now : Z) (p : list Z) | ADtlsRecv (p : list Z)
| ADtlsTick (now : Z) | ACert (seen : fprint) (expected : option fprint) | AUp | AKeys (km : list Z) (active : bool) | AData (now : Z) (d : list Z)
| APacket (p : list Z) (* the DTLS engine put out a packet *) | ANominated (a : addr) | ADtlsSend (d : list Z) (ok : bool) | AShut (* dtls.close() *) | ASendDtls (p : list Z) | ASendSes (p : list Z).

(** util/time_tricks.rs:5-9 and the reasons of lib.rs:1104 *)
Definition R_NOT : Z := 0. Definition R_DTLS : Z := 1. Definition R_ICE : Z := 2. Definition R_SCTP : Z := 3. Definition R_CHAN : Z := 4. Definition R_STATS : Z := 5.

(** util/mod.rs:20-35 *)
Definition soonest (a b : option Z * Z) : option Z * Z :=
  match a, b with
  | (Some v1, s1), (Some v2, s2) => if v1 <? v2 then (Some v1, s1) else (Some v2, s2)
  | (None, _), (None, _) => (None, R_NOT)
  | (None, _), (v, s) => (v, s)
  | (v, s), (None, _) => (v, s)
  end.

(** "sha-256" *)
Definition SHA256 : list Z := [115; 104; 97; 45; 50; 53; 54].
Fixpoint list_eqb (a b : list Z) : bool :=
  match a, b with [] , [] => true | x :: a, y :: b => (x =? y) && list_eqb a b | _, _ => false end.
Definition fp_eqb (a b : fprint) : bool := list_eqb (f_hash a) (f_hash b) && list_eqb (f_bytes a) (f_bytes b).

Section Rtc.
Context {W : Type} (C : comps W) (NEVER PAST : Z). (* not_happening(), already_happened() *)

Definition set_w (r : rtc W) (w : W) := mkR (r_st r) w (r_dto r) (r_conn r) (r_fp r) (r_verify r) (r_addrs r) (r_send r) (r_now r) (r_cstart r) (r_pend r) (r_active r).
Definition set_st (r : rtc W) s := mkR s (r_w r) (r_dto r) (r_conn r) (r_fp r) (r_verify r) (r_addrs r) (r_send r) (r_now r) (r_cstart r) (r_pend r) (r_active r).
Definition set_dto (r : rtc W) d := mkR (r_st r) (r_w r) d (r_conn r) (r_fp r) (r_verify r) (r_addrs r) (r_send r) (r_now r) (r_cstart r) (r_pend r) (r_active r).
Definition set_conn (r : rtc W) := mkR (r_st r) (r_w r) (r_dto r) true (r_fp r) (r_verify r) (r_addrs r) (r_send r) (r_now r) (r_cstart r) (r_pend r) (r_active r).
Definition set_fp (r : rtc W) f := mkR (r_st r) (r_w r) (r_dto r) (r_conn r) (Some f) (r_verify r) (r_addrs r) (r_send r) (r_now r) (r_cstart r) (r_pend r) (r_active r).
Definition set_addrs (r : rtc W) l := mkR (r_st r) (r_w r) (r_dto r) (r_conn r) (r_fp r) (r_verify r) l (r_send r) (r_now r) (r_cstart r) (r_pend r) (r_active r).
Definition set_send (r : rtc W) a := mkR (r_st r) (r_w r) (r_dto r) (r_conn r) (r_fp r) (r_verify r) (r_addrs r) (Some a) (r_now r) (r_cstart r) (r_pend r) (r_active r).
Definition set_now (r : rtc W) t := mkR (r_st r) (r_w r) (r_dto r) (r_conn r) (r_fp r) (r_verify r) (r_addrs r) (r_send r) t (r_cstart r) (r_pend r) (r_active r).
Definition set_cstart (r : rtc W) := mkR (r_st r) (r_w r) (r_dto r) (r_conn r) (r_fp r) (r_verify r) (r_addrs r) (r_send r) (r_now r) true (r_pend r) (r_active r).
Definition set_pend (r : rtc W) p := mkR (r_st r) (r_w r) (r_dto r) (r_conn r) (r_fp r) (r_verify r) (r_addrs r) (r_send r) (r_now r) (r_cstart r) p (r_active r).
Definition set_active (r : rtc W) a := mkR (r_st r) (r_w r) (r_dto r) (r_conn r) (r_fp r) (r_verify r) (r_addrs r) (r_send r) (r_now r) (r_cstart r) (r_pend r) (Some a).

(** lib.rs:1334-1336 *)
Definition disconnect (r : rtc W) : rtc W := set_st r Closed.

(** lib.rs:2001-2006; false: Err *)
Definition start_dtls_close (r : rtc W) : bool * rtc W * list act :=
  if r_cstart r then (true, r, [])
  else let (ok, w) := c_dtls_close C (r_w r) in
       if ok then (true, set_cstart (set_w r w), [AShut]) else (false, set_w r w, []).
(** lib.rs:1984-1999 *)
Definition start_close (r : rtc W) : bool * rtc W * list act :=
  match r_st r with
  | Closed => (true, r, [])
  | Closing => start_dtls_close r
  | Alive =>
      let (ok, w) := c_sctp_close C (c_ses_close C (r_w r)) in
      let r1 := set_w r w in
      if ok then start_dtls_close (set_st r1 Closing) else (false, r1, [])
  end.

(** dtls.rs:120-122, lib.rs:2008-2010 *)
Definition drain_complete (r : rtc W) : bool :=
  r_cstart r && (match r_pend r with [] => true | _ => false end && c_dtls_closed C (r_w r)) && c_ses_closed C (r_w r).

(** How a part of do_poll_output ends: go on, return an output, or start over (the recursive calls). *)
Inductive flow := Go | Return (y : output) | Again.

(** lib.rs:1583-1617. [Err]: out of fuel. *)
Fixpoint ice_loop (fuel : nat) (r : rtc W) : res (rtc W * flow * list act) :=
  match fuel with
  | O => Err
  | S f =>
      let (e, w) := c_ice_event C (r_w r) in
      let r := set_w r w in
      match e with
      | None => Ok (r, Go, [])
      | Some IRestart => ice_loop f r
      | Some (IState s) => Ok (r, Return (YEvent (EIce s)), [])
      | Some (IRecv a) =>
          let l := r_addrs r ++ [a] in
          ice_loop f (set_addrs r (if Nat.ltb 20 (length l) then skipn (length l - 20) l else l))
      | Some (INominated a) => do (r', o, t) <- ice_loop f (set_send r a) ; Ok (r', o, ANominated a :: t)
      end
  end.

(** lib.rs:1622-1634 *)
Definition dtls_tick (r : rtc W) : rtc W * flow * list act :=
  match r_dto r with
  | Some t =>
      if t <=? r_now r then
        let (ok, w) := c_dtls_timeout C (r_w r) (r_now r) in
        let r := set_w (set_dto r None) w in
        if ok then (r, Go, [ADtlsTick (r_now r)]) else (disconnect r, Return YErr, [ADtlsTick (r_now r)])
      else (r, Go, [])
  | None => (r, Go, [])
  end.

(** dtls.rs:130-143: packets are queued, and reported as a timeout in the past *)
Definition dtls_poll (r : rtc W) : dout * rtc W * list act :=
  match c_dtls_poll C (r_w r) with
  | (DPacket p, w) => (DTimeout PAST, set_pend (set_w r w) (r_pend r ++ [p]), [APacket p])
  | (o, w) => (o, set_w r w, [])
  end.

(** lib.rs:1636-1697. [just]: just_connected. [Err]: out of fuel. *)
Fixpoint dtls_loop (fuel : nat) (r : rtc W) (just : bool) : res (rtc W * flow * list act) :=
  match fuel with
  | O => Err
  | S f =>
      match dtls_poll r with (o, r, tp) =>
      match o with
      | DPacket _ => Panic
      | DConnected =>
          if r_conn r then dtls_loop f r just
          else do (r', o, t) <- dtls_loop f (set_conn r) true ; Ok (r', o, AUp :: t)
      | DKeys km =>
          match r_active r with
          | None => Panic
          | Some a => do (r', o, t) <- dtls_loop f (set_w r (c_ses_keys C (r_w r) km a)) just ; Ok (r', o, AKeys km a :: t)
          end
      | DCert der =>
          let seen := mkFp SHA256 (c_sha256 C der) in
          let t0 := ACert seen (r_fp r) in
          match r_fp r with
          | None => Ok (disconnect r, Return YErr, [t0])
          | Some expected =>
              if r_verify r && negb (fp_eqb seen expected) then Ok (disconnect r, Return YErr, [t0])
              else do (r', o, t) <- dtls_loop f r just ; Ok (r', o, t0 :: t)
          end
      | DData d => do (r', o, t) <- dtls_loop f (set_w r (c_sctp_input C (r_w r) (r_now r) d)) just ; Ok (r', o, AData (r_now r) d :: t)
      | DTimeout t => Ok (set_dto r (Some t), if just then Return (YEvent EConnected) else Go, tp)
      | DCloseNotify =>
          match start_close r with
          | (ok, r', t) => Ok (r', Return (if ok then YEvent EClosed else YErr), t)
          end
      | DOther => Ok (r, Return YErr, [])
      end
      end
  end.

(** lib.rs:1703-1780. [Err]: out of fuel. *)
Fixpoint sctp_loop (fuel : nat) (r : rtc W) : res (rtc W * flow * list act) :=
  match fuel with
  | O => Err
  | S f =>
      let (e, w) := c_sctp_poll C (r_w r) in
      let r := set_w r w in
      match e with
      | None => Ok (r, Go, [])
      | Some (XTransmit []) => sctp_loop f r
      | Some (XTransmit (p :: rest)) =>
          let push r l := match l with [] => r | _ => set_w r (c_sctp_push C (r_w r) l) end in
          match c_dtls_send C (r_w r) p with
          | (DsOk, w) => Ok (push (set_w r w) rest, Again, [ADtlsSend p true])
          | (DsBlock, w) => Ok (push (set_w r w) (p :: rest), Go, [])
          | (DsErr, w) =>
              match r_st r with
              | Closing => Ok (push (set_w r w) rest, Again, [ADtlsSend p false])
              | _ => Ok (set_w r w, Return YErr, [])
              end
          end
      | Some XLost =>
          match start_close (set_w r (c_sctp_lost C (r_w r))) with
          | (ok, r', t) => Ok (r', Return (if ok then YEvent EClosed else YErr), t)
          end
      | Some (XEvent e) => Ok (r, Return (YEvent (EChannel e)), [])
      | Some XNothing => sctp_loop f r
      end
  end.

(** lib.rs:1782-1800 *)
Definition events (r : rtc W) : rtc W * flow :=
  match c_ses_event C (r_w r) with
  | (Some e, w) => (set_w r w, Return (YEvent (ESession e)))
  | (None, w) =>
      match c_ses_fallible C w with
      | (None, w) => (set_w r w, Return YErr)
      | (Some (Some e), w) => (set_w r w, Return (YEvent (ESession e)))
      | (Some None, w) =>
          match c_stats_event C w with
          | (Some e, w) => (set_w r w, Return (YEvent (EStats e)))
          | (None, w) => (set_w r w, Go)
          end
      end
  end.

(** lib.rs:1802-1825 *)
Definition transmit (r : rtc W) : rtc W * flow * list act :=
  match c_ice_transmit C (r_w r) with
  | (Some p, w) => (set_w r w, Return (YIce p), [])
  | (None, w) =>
      let r := set_w r w in
      match r_send r with
      | Some a =>
          match r_pend r with
          | p :: rest => (set_pend r rest, Return (YSend a p), [ASendDtls p])
          | [] =>
              match c_ses_datagram C (r_w r) (r_now r) with
              | (Some p, w) => (set_w r w, Return (YSend a p), [ASendSes p])
              | (None, w) => (set_w r w, Go, [])
              end
          end
      | None => (set_w r (c_ses_clear C (r_w r)), Go, [])
      end
  end.

(** lib.rs:1827-1853; asking a component for its timeout does not change it here *)
Definition timeouts (r : rtc W) : rtc W * output :=
  let w := r_w r in
  let tr := soonest (soonest (soonest (soonest (soonest (soonest (None, R_NOT)
    (r_dto r, R_DTLS)) (c_ice_timeout C w, R_ICE)) (c_ses_timeout C w)) (c_sctp_timeout C w, R_SCTP)) (c_chan_timeout C w, R_CHAN)) (c_stats_timeout C w, R_STATS) in
  let time := match fst tr with Some t => t | None => NEVER end in
  let next := if time <? r_now r then r_now r else time in
  match r_st r with
  | Closing => if drain_complete r then (set_st r Closed, YTimeout NEVER R_NOT) else (r, YTimeout next (snd tr))
  | _ => (r, YTimeout next (snd tr))
  end.

(** lib.rs:1577-1854. [Err]: out of fuel. *)
Fixpoint poll_output (fuel : nat) (r : rtc W) : res (rtc W * output * list act) :=
  match fuel with
  | O => Err
  | S f =>
      match r_st r with
      | Closed => Ok (r, YTimeout NEVER R_NOT, [])
      | _ =>
          do (r1, o1, t1) <- ice_loop f r ;
          match o1 with
          | Return y => Ok (r1, y, t1)
          | _ =>
              match dtls_tick r1 with
              | (r2, Return y, t2) => Ok (r2, y, t1 ++ t2)
              | (r2, _, t2) =>
                  do (r3, o3, t3) <- dtls_loop f r2 false ;
                  match o3 with
                  | Return y => Ok (r3, y, t1 ++ t2 ++ t3)
                  | _ =>
                      do (r4, o4, t4) <- sctp_loop f r3 ;
                      match o4 with
                      | Return y => Ok (r4, y, t1 ++ t2 ++ t3 ++ t4)
                      | Again => do (r', y, t) <- poll_output f r4 ; Ok (r', y, t1 ++ t2 ++ t3 ++ t4 ++ t)
                      | Go =>
                          match events r4 with
                          | (r5, Return y) => Ok (r5, y, t1 ++ t2 ++ t3 ++ t4)
                          | (r5, _) =>
                              match transmit r5 with
                              | (r6, Return y, t6) => Ok (r6, y, t1 ++ t2 ++ t3 ++ t4 ++ t6)
                              | (r6, _, t6) => let (r7, y) := timeouts r6 in Ok (r7, y, t1 ++ t2 ++ t3 ++ t4 ++ t6)
                              end
                          end
                      end
                  end
              end
          end
      end
  end.

(** lib.rs:2025-2064 (the statistics only when they want it: part of [c_tick ToStats]); false: Err *)
Definition do_handle_timeout (r : rtc W) (now : Z) : bool * rtc W * list act :=
  if now <? r_now r then (true, r, [])
  else
    let r := set_now r now in
    let w := snd (c_tick C ToIce (r_w r) now) in
    let w := snd (c_tick C ToSctp w now) in
    let w := snd (c_tick C ToChan w now) in
    let (ok, w) := c_tick C ToSession w now in
    let t := [ATick ToIce now; ATick ToSctp now; ATick ToChan now; ATick ToSession now] in
    if ok then (true, set_w r (snd (c_tick C ToStats w now)), t ++ [ATick ToStats now])
    else (false, set_w r w, t).

(** lib.rs:2066-2098, dtls.rs:146-155; false: Err *)
Definition do_handle_receive (r : rtc W) (now : Z) (g : datagram) : bool * rtc W * list act :=
  match g with
  | GStun m => (true, set_w r (c_recv C ToIce (r_w r) now m), [ARecv ToIce now m])
  | GDtls p =>
      match r_active r with
      | None => (true, r, [])
      | Some _ => let (ok, w) := c_dtls_recv C (r_w r) p in (ok, set_w r w, [ADtlsRecv p])
      end
  | GRtp p => (true, set_w r (c_recv C ToSession (r_w r) now p), [ARecv ToSession now p])
  | GRtcp p => (true, set_w r (c_recv_rtcp C (r_w r) now p), [ARtcp now p])
  end.

(** lib.rs:1959-1974 *)
Definition handle_input (r : rtc W) (now : Z) (g : option datagram) : bool * rtc W * list act :=
  match r_st r with
  | Closed => (true, r, [])
  | _ =>
      match g with
      | None => do_handle_timeout r now
      | Some g =>
          match do_handle_receive r now g with
          | (false, r1, t) => (false, r1, t)
          | (true, r1, t) => match do_handle_timeout r1 now with (ok, r2, t2) => (ok, r2, t ++ t2) end
          end
      end
  end.

(** lib.rs:1481-1500 *)
Definition init_dtls (r : rtc W) (active : bool) : bool * rtc W * list act :=
  match r_active r with
  | Some _ => (true, r, [])
  | None =>
      let r := set_active (set_w r (c_dtls_active C (r_w r) active)) active in
      let (ok, w) := c_dtls_timeout C (r_w r) (r_now r) in
      if ok then
        if active then let (_, w2) := c_dtls_recv C w [] in (true, set_w r w2, [ADtlsTick (r_now r); ADtlsRecv []])
        else (true, set_w r w, [ADtlsTick (r_now r)])
      else (false, set_w r w, [ADtlsTick (r_now r)])
  end.

(** What the application does. [QFp]: change/direct.rs:116-118 or, if there is no fingerprint yet,
    change/sdp.rs:86-93, 183-190; [QApi w]: any other call (SDP, media, channels), which may change the
    components in any way; change/sdp.rs:90, 187 may also disconnect. *)
Inductive op :=
| QPoll (fuel : nat) | QInput (now : Z) (g : option datagram) | QClose | QDisconnect | QFp (f : fprint) | QSdpFp (f : fprint)
| QInit (active : bool) | QApi (w : W).

(** The result: the new state, poll_output's output if it was called, false if the call returned Err,
    what was done. *)
Record sres := mkS { o_r : rtc W; o_out : option output; o_ok : bool; o_acts : list act }.
Definition step (r : rtc W) (o : op) : res sres :=
  match o with
  | QPoll fuel => do (r', y, t) <- poll_output fuel r ; Ok (mkS r' (Some y) (match y with YErr => false | _ => true end) t)
  | QInput now g => match handle_input r now g with (ok, r', t) => Ok (mkS r' None ok t) end
  | QClose => match start_close r with (ok, r', t) => Ok (mkS r' None ok t) end
  | QDisconnect => Ok (mkS (disconnect r) None true [])
  | QFp f => Ok (mkS (set_fp r f) None true [])
  | QSdpFp f => Ok (mkS (match r_fp r with None => set_fp r f | Some _ => r end) None true [])
  | QInit a => match init_dtls r a with (ok, r', t) => Ok (mkS r' None ok t) end
  | QApi w => Ok (mkS (set_w r w) None true [])
  end.

(** lib.rs:1317-1319, 1464, 2113: is_alive; writer() and channel() give nothing unless [usable] *)
Definition is_alive (r : rtc W) : bool := match r_st r with Closed => false | _ => true end.
Definition usable (r : rtc W) : bool := match r_st r with Alive => true | _ => false end.

(** A history: calls and what each led to. *)
Fixpoint run (r : rtc W) (os : list op) : res (rtc W * list (op * sres)) :=
  match os with
  | [] => Ok (r, [])
  | o :: rest => do x <- step r o ; do (r', h) <- run (o_r x) rest ; Ok (r', (o, x) :: h)
  end.
End Rtc.

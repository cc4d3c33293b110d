(** Model of the sending half of session.rs: poll_datagram, poll_feedback, poll_packet, close_rtp,
    clear_feedback, is_rtp_closed, on top of the media and streams of WrModel, the RTCP packer of
    RtcpModel and SRTP of SrtpModel.

    Simplifications.  The pacer is not here: which stream it names when it is asked is an argument of the
    poll (None: it names none, or a MID that has no media).  What handle_timeout and the application push
    into the feedback queue is an argument too.  The extension map of the medium and whether it has the transport-wide
    number are arguments of the poll, as in TxModel.  Raw packets, byte counters, BWE and the TWCC send
    register (TwccSendModel) are left out. *)
From Verif Require Import Base RtcpModel SrtpModel ExtModel HeaderModel TxModel WrModel.

(** Which of the two SRTP functions made the datagram. *)
Inductive dgram := DRtp (b : list Z) | DRtcp (b : list Z).

(** list.rs:38-56 lists_from_iter, on lists of at most 31 *)
Fixpoint chunk (l : list Z) (i : Z) (current : list Z) (result : list (list Z)) : list (list Z) :=
  match l with
  | [] => match current with [] => result | _ => result ++ [current] end
  | x :: xs =>
      let brk := (i mod 31 =? 0) && negb (i =? 0) in
      chunk xs (i + 1) ((if brk then [] else current) ++ [x]) (if brk then result ++ [current] else result)
  end.
Definition lists_from_iter (l : list Z) : list (list Z) := chunk l 0 [] [].
(** streams/mod.rs:345-350 local_sender_ssrcs *)
Definition local_sender_ssrcs (xs : list tx) : list Z :=
  flat_map (fun x => x_ssrc x :: match x_rtx x with Some r => [r] | None => [] end) xs.

Section Ses.
Variables (P : Type) (fresh : codec -> P) (cut : P -> Z -> list Z -> P * option (list (list Z))).
Variables (Q : prims) (ex : Z -> Z -> Z -> bool) (al : Z) (ps : list wparam) (mtu : Z).

Record ses := mkSes { s_wr : wr P; s_ctx : option ctx; s_fb : list rtcp }.

(** session.rs:952-987 poll_feedback: the queue loses what was written even if there are no keys yet. *)
Definition feedback (s : ses) : res (ses * option dgram) :=
  match s_ctx s with
  | Some c =>
      do r <- poll_feedback Q c mtu (s_fb s);
      let '(o, rest, c') := r in Ok (mkSes (s_wr s) (Some c') rest, option_map DRtcp o)
  | None =>
      match s_fb s with
      | [] => Ok (s, None)
      | q =>
          if mtu <? 20 then Panic
          else
            do r <- write_packet q ((mtu - 20) / 4 * 4);
            let '(_, _, rest) := r in Ok (mkSes (s_wr s) None rest, None)
      end
  end.

(** session.rs:989-1063 poll_packet *)
Definition packet (s : ses) (now : Z) (pick : option nat) (m : extmap) (en : bool)
    : res (ses * option dgram * list (wop * wout)) :=
  match s_ctx s, pick with
  | Some c, Some k =>
      let o := WStream k (XPoll now m en (map wp_par ps)) in
      do r <- wstep P fresh cut ex al ps mtu (s_wr s) o;
      let '(w, y) := r in
      match y with
      | OStream (YPacket b rc) =>
          do d <- protect_rtp Q c b (rc_hdr rc) (rc_seq rc);
          Ok (mkSes w (Some c) (s_fb s), Some (DRtp d), [(o, y)])
      | _ => Ok (mkSes w (Some c) (s_fb s), None, [(o, y)])
      end
  | _, _ => Ok (s, None, [])
  end.

(** session.rs:901-924 poll_datagram *)
Definition poll (s : ses) (now : Z) (pick : option nat) (m : extmap) (en : bool)
    : res (ses * option dgram * list (wop * wout)) :=
  if now =? al then Ok (s, None, [])
  else
    do r <- feedback s;
    let '(s1, d) := r in
    match d with
    | Some _ => Ok (s1, d, [])
    | None => if w_closing (s_wr s1) then Ok (s1, None, []) else packet s1 now pick m en
    end.

(** session.rs:948-950 *)
Definition is_rtp_closed (s : ses) : bool :=
  w_closing (s_wr s) && match s_fb s with [] => true | _ => false end.

Inductive sop :=
| SCall (o : wop)                        (* writes, timeouts and calls on streams (WrModel) *)
| SFeedback (front back : list rtcp)     (* pushed by a timeout (session.rs:275-346, 389-403) or by session.rs:405-428 *)
| SClear                                 (* session.rs:928-931 clear_feedback *)
| SKeys (c : ctx)                        (* session.rs:259-273 set_keying_material: the sending context *)
| SPoll (now : Z) (pick : option nat) (m : extmap) (en : bool)
| SClose.                                (* session.rs:933-946 close_rtp *)

Definition ses_step (s : ses) (o : sop) : res (ses * option dgram * list (wop * wout)) :=
  match o with
  | SCall o =>
      do r <- wstep P fresh cut ex al ps mtu (s_wr s) o;
      Ok (mkSes (fst r) (s_ctx s) (s_fb s), None, [(o, snd r)])
  | SFeedback f b => Ok (mkSes (s_wr s) (s_ctx s) (f ++ s_fb s ++ b), None, [])
  | SClear => Ok (mkSes (s_wr s) (s_ctx s) [], None, [])
  | SKeys c => Ok (mkSes (s_wr s) (Some c) (s_fb s), None, [])
  | SPoll now pick m en => poll s now pick m en
  | SClose =>
      if w_closing (s_wr s) then Ok (s, None, [])
      else
        do r <- wstep P fresh cut ex al ps mtu (s_wr s) WClose;
        Ok (mkSes (fst r) (s_ctx s) (map Bye (lists_from_iter (local_sender_ssrcs (w_streams (s_wr s))))), None, [(WClose, snd r)])
  end.

(** The datagrams, in order, and what media and streams were asked and answered. *)
Fixpoint ses_run (s : ses) (ops : list sop) : res (ses * list dgram * list (wop * wout)) :=
  match ops with
  | [] => Ok (s, [], [])
  | o :: r =>
      do q <- ses_step s o;
      let '(s1, d, h1) := q in
      do q' <- ses_run s1 r;
      let '(s2, ds, h2) := q' in
      Ok (s2, match d with Some d => [d] | None => [] end ++ ds, h1 ++ h2)
  end.
End Ses.
Arguments mkSes {P}. Arguments s_wr {P}. Arguments s_ctx {P}. Arguments s_fb {P}. Arguments is_rtp_closed {P}.

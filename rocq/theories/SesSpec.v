(** What leaves a session: the packets given to SRTP, and the histories the claims are about. *)
From Verif Require Import Base RtcpModel RtcpSpec SrtpModel SrtpSpec ExtModel HeaderModel TxModel TxSpec WrModel WrSpec SesModel.

(** The RTP packets the streams gave out, in order, each with the index of its stream. *)
Definition sent (h : history) : list (nat * (list Z * receipt)) :=
  flat_map (fun p => match p with (WStream k _, OStream (YPacket b r)) => [(k, (b, r))] | _ => [] end) h.
Definition rtps (ds : list dgram) : list (list Z) := flat_map (fun d => match d with DRtp b => [b] | _ => [] end) ds.
Definition rtcps (ds : list dgram) : list (list Z) := flat_map (fun d => match d with DRtcp b => [b] | _ => [] end) ds.

(** An RTP packet in clear: header, payload, SSRC and 48-bit index. *)
Record clear := mkClear { cl_hdr : list Z; cl_pay : list Z; cl_ssrc : Z; cl_index : Z }.

Definition clear_of (p : nat * (list Z * receipt)) : clear :=
  let '(_, (b, r)) := p in
  let n := Z.to_nat (header_len (rc_hdr r)) in mkClear (firstn n b) (skipn n b) (ssrc (rc_hdr r)) (rc_seq r).
(** The transport-wide numbers of the packets polled with numbering on, in order. *)
Definition transport (h : history) : list (option Z) :=
  flat_map (fun p => match p with
    | (WStream _ (XPoll _ _ true _), OStream (YPacket _ r)) => [transport_cc (ext_vals (rc_hdr r))] | _ => [] end) h.

(** All SSRCs of the declared streams. *)
Definition ssrcs (decl : list (Z * option Z * list Z * option (list Z) * Z)) : list Z :=
  flat_map (fun d => let '(ss, rtx, _, _, _) := d in ss :: match rtx with Some r => [r] | None => [] end) decl.

(** The calls: those of the frame API; polls and close only as such; no second set of keys. *)
Definition ses_call (ps : list wparam) (o : sop) : Prop :=
  match o with
  | SCall (WStream _ (XPoll _ _ _ _)) | SCall WClose => False
  | SCall o => frame_api ps o /\ sample_ok o
  | SKeys _ => False
  | _ => True
  end.
(** A history from the start: [pre], then the keys [c] are there, then [post].  The SSRCs are different 32-bit numbers,
    and the packet numbers have 48 bits; the context is new. *)
Definition sending {P} (fresh : codec -> P) cut Q ex al ps mtu mtu_warn decl (w0 : wr P) (pre : list sop) (c : ctx) (post : list sop)
    (s : ses P) (ds : list dgram) (h : history) : Prop :=
  start mtu_warn al w0 decl /\ NoDup (ssrcs decl) /\ Forall (fun x => 0 <= x < U32) (ssrcs decl) /\
  Forall (ses_call ps) pre /\ Forall (ses_call ps) post /\
  Forall (fun p => real (wp_codec p)) ps /\ 16 <= mtu /\
  ses_run P fresh cut Q ex al ps mtu (mkSes w0 None []) (pre ++ SKeys c :: post) = Ok (s, ds, h) /\
  Forall numbers_fit (acts h) /\ Forall (fun p => 0 <= rc_seq (snd (snd p)) < 2 ^ 48) (sent h) /\ c_index c = 0.

(** A compound packet as SRTCP takes it: [protect] with index [i] made [d] of [b]. *)
Definition protected_as (Q : prims) (c : ctx) (d b : list Z) (i : Z) : Prop :=
  exists sc c', protect_rtcp Q (mkCtx (c_rtp c) (c_rtcp c) i sc) b = Ok (d, c').

(** The compounds behind the SRTCP datagrams [xs], the first of index [i]: a peer that undoes SRTCP reads [outs] of them. *)
Fixpoint peer_reads (Q : prims) (c : ctx) (i : Z) (xs : list (list Z)) (outs : list (list rtcp)) : Prop :=
  match xs, outs with
  | [], [] => True
  | x :: xs, out :: outs =>
      (exists b, protected_as Q c x b (i mod 2 ^ 31) /\ read_packet b = Ok (map as_read out)) /\ peer_reads Q c (i + 1) xs outs
  | _, _ => False
  end.
(** The feedback given to a session. *)
Definition pushed (ops : list sop) : list rtcp := flat_map (fun o => match o with SFeedback f b => f ++ b | _ => [] end) ops.
(** Calls that do not take queued feedback away, nor change the keys. *)
Definition keeps_feedback (o : sop) : Prop := match o with SClear | SClose | SKeys _ => False | _ => True end.
(** A poll once time has begun. *)
Definition polls (al : Z) (o : sop) : Prop := match o with SPoll now _ _ _ => now <> al | _ => False end.

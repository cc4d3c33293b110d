(** C46 and C47: what one receive stream sends back and tells about pauses, step by step. *)
From Verif Require Import Base SeqModel NackModel RegisterModel MtimeModel ExtModel HeaderModel TxModel RxModel RxSpec.

(** The operations that leave stream [k] of media [m] in place: it is not removed, and no packet of an unknown
    SSRC claims the media (its SSRC would take over, streams/mod.rs:652-675). *)
Definition keeps (k : Z) (m : list Z) (o : rop) : Prop :=
  match o with
  | RRtp _ h _ => mid (ext_vals h) = Some m -> ssrc h = k
  | RRemove j => j <> k
  | RRemoveMedia m' => m' <> m
  | _ => True
  end.

(** ** Requests *)
(** What stream [k] was asked to send: a key frame request (true: FIR), a REMB; the number of the next FIR; arrival
    and NTP time of the last sender report for it. *)
Record want := mkWant { w_kf : option bool; w_fir : Z; w_remb : option Z; w_sr : option (Z * Z) }.
Definition want0 : want := mkWant None 0 None None.
(** A key frame or REMB request replaces an earlier one that was not sent yet; reception that stops takes the key
    frame request back. *)
Definition want_next (k : Z) (m : list Z) (w : want) (o : rop) : want :=
  match o with
  | RKeyframe j fir => if j =? k then mkWant (Some fir) (w_fir w) (w_remb w) (w_sr w) else w
  | RRemb j b => if j =? k then mkWant (w_kf w) (w_fir w) (Some b) (w_sr w) else w
  | RSr now j ntp _ => if j =? k then mkWant (w_kf w) (w_fir w) (w_remb w) (Some (now, ntp)) else w
  | RStopRecv m' => if leqb m m' then mkWant None (w_fir w) (w_remb w) (w_sr w) else w
  | RTimeout _ _ _ _ => mkWant None (match w_kf w with Some true => (w_fir w + 1) mod 256 | _ => w_fir w end) None (w_sr w)
  | _ => w
  end.
(** What a timeout sends for it, besides reports and NACKs. *)
Definition want_out (k sender : Z) (w : want) : list rxfb :=
  match w_kf w with Some true => [FbFir sender k (w_fir w)] | Some false => [FbPli sender k] | None => [] end ++
  match w_remb w with Some b => [FbRemb sender b k] | None => [] end.
(** The requests for [k] in some feedback. *)
Definition requests (k : Z) (l : list rxfb) : list rxfb :=
  filter (fun f => match f with FbPli _ j | FbFir _ j _ | FbRemb _ _ j => j =? k | _ => false end) l.
(** A report about [k] repeats the middle of the NTP time of the last sender report and the time since, in units of
    1/65536 second (RFC 3550 6.4.1); both are zero if there was none.  Instants are microseconds. *)
Definition report_times (now : Z) (w : want) (lsr dlsr : Z) : Prop :=
  match w_sr w with
  | Some (at_, ntp) => lsr = ntp / 2 ^ 16 mod 2 ^ 32 /\ dlsr = Z.max 0 (now - at_) * 65536 / 1000000 mod 2 ^ 32
  | None => lsr = 0 /\ dlsr = 0
  end.
(** One step does what is asked. *)
Definition serves (k : Z) (w : want) (o : rop) (a : rout) : Prop :=
  match o, a with
  | RTimeout now sender _ _, OFeedback l =>
      requests k l = want_out k sender w /\
      forall sd rep lsr dlsr, In (FbRr sd (Some (k, rep, lsr, dlsr))) l -> sd = sender /\ report_times now w lsr dlsr
  | RTimeout _ _ _ _, _ => False
  | _, OFeedback _ => False
  | _, _ => True
  end.
Fixpoint all_served (k : Z) (m : list Z) (w : want) (os : list rop) (outs : list rout) : Prop :=
  match os, outs with
  | [], [] => True
  | o :: os, a :: outs => serves k w o a /\ all_served k m (want_next k m w o) os outs
  | _, _ => False
  end.

(** ** Pauses *)
(** What is known about the pauses of stream [k]: the threshold in force, until when it counts as live (None: it is
    paused), the last event told about it.  A stream starts paused, with 1.5 seconds. *)
Record pview := mkPv { v_thr : Z; v_until : option Z; v_told : bool }.
Definition pview0 : pview := mkPv 1500000 None true.
Definition is_paused (v : pview) : bool := match v_until v with None => true | Some _ => false end.
(** [heard]: the packet of this step was one of the stream.  A packet makes it live for the threshold; a timeout at
    or after the end of that pauses it. *)
Definition pview_next (k : Z) (v : pview) (o : rop) (a : rout) (heard : bool) : pview :=
  match o, a with
  | RRtp now _ _, _ => if heard then mkPv (v_thr v) (Some (now + v_thr v)) (v_told v) else v
  | RTimeout now _ _ _, _ => match v_until v with Some t => if t <=? now then mkPv (v_thr v) None (v_told v) else v | None => v end
  | RThreshold j d, _ => if j =? k then mkPv d (v_until v) (v_told v) else v
  | RPollPaused, OPaused j p => if j =? k then mkPv (v_thr v) (v_until v) p else v
  | _, _ => v
  end.
(** A pause event about [k] says how it is; if there is none to poll, the last one still holds. *)
Definition tells (k : Z) (v : pview) (o : rop) (a : rout) : Prop :=
  match o, a with
  | RPollPaused, OPaused j p => j = k -> p = is_paused v
  | RPollPaused, ONone => v_told v = is_paused v
  | RPollPaused, _ => False
  | _, OPaused _ _ => False
  | _, _ => True
  end.
(** The step hands a packet of SSRC [k] on: to the assembly of frames, or to the application, which polls right
    before and right after. *)
Definition hands_on (k : Z) (after_poll : bool) (a : rout) (os : list rop) (outs : list rout) : Prop :=
  match a with
  | ORtp l => (exists m r p, In (EvDepay m r p) l /\ ssrc (q_hdr p) = k) \/
              (after_poll = true /\ match os, outs with RPollPacket :: _, OPacket (Some p) :: _ => ssrc (q_hdr p) = k | _, _ => False end)
  | _ => False
  end.
Fixpoint all_told (k : Z) (after_poll : bool) (v : pview) (os : list rop) (outs : list rout) (heard : list bool) : Prop :=
  match os, outs, heard with
  | [], [], [] => True
  | o :: os, a :: outs, h :: hs =>
      tells k v o a /\ (hands_on k after_poll a os outs -> h = true) /\
      all_told k (match o with RPollPacket => true | _ => false end) (pview_next k v o a h) os outs hs
  | _, _, _ => False
  end.

(** Vocabulary for the properties of reception. *)
From Verif Require Import Base SeqModel NackModel RegisterModel MtimeModel ExtModel HeaderModel TxModel RxModel.

(** The identity of a packet: its SSRC and its index (sequence number with rollovers). *)
Definition pid (p : rxpkt) : Z * Z := (ssrc (q_hdr p), q_seq p).
(** The packets the application polled. *)
Definition polled (l : list rout) : list rxpkt := flat_map (fun o => match o with OPacket (Some p) => [p] | _ => [] end) l.

(** ** Sane peers: an SSRC is either for media or for repair *)
(** [isrtx] says which SSRCs carry repair packets, [rtxpt] which payload types are repair types.
    SSRC 0 is the probe SSRC of libwebrtc. *)
Definition pkt_class (isrtx rtxpt : Z -> bool) (h : header) : Prop :=
  (ssrc h = 0 -> mid (ext_vals h) = None) /\
  (ssrc h <> 0 -> isrtx (ssrc h) = rtxpt (payload_type h) /\
    (rid (ext_vals h) <> None -> isrtx (ssrc h) = false) /\
    (rid (ext_vals h) = None -> rid_repair (ext_vals h) <> None -> isrtx (ssrc h) = true)).
Definition op_class (isrtx rtxpt : Z -> bool) (o : rop) : Prop :=
  match o with
  | RRtp _ h _ => pkt_class isrtx rtxpt h
  | RExpect k rtx _ _ _ => isrtx k = false /\ forall q, rtx = Some q -> isrtx q = true
  | RCodecs c => forall p, In p c -> rtxpt (p_pt p) = false /\ forall r, p_rtx p = Some r -> rtxpt r = true
  | _ => True
  end.

(** ** Where a packet comes from *)
(** The header of a packet taken out of a repair packet [h]: RFC 4588. *)
Definition restored (h : header) (k pt osn : Z) : header :=
  let e := ext_vals h in
  mkH (version h) (has_padding h) (has_extension h) (csrc_count h) (marker h) pt osn (timestamp h) k (csrc h)
      (ev_ids e (rid_repair e) None (mid e)) (header_len h).
(** [p] was made from a datagram with header [h] that SRTP accepted at index [seq] with clear text
    [clear] (padding removed): either it is that packet, or it is the packet a repair packet holds
    (first two bytes: the original sequence number).  A repair payload of one byte is taken whole,
    as if its original sequence number were 0. *)
Definition made_from (h : header) (seq : Z) (clear : list Z) (p : rxpkt) : Prop :=
  seq mod 65536 = sequence_number h /\
  ((q_hdr p = h /\ q_pay p = clear /\ q_seq p = seq) \/
   (exists k pt a b rest, clear = a :: b :: rest /\ q_hdr p = restored h k pt (256 * a + b) /\ q_pay p = rest /\ q_seq p mod 65536 = 256 * a + b) \/
   (exists k pt a, clear = [a] /\ q_hdr p = restored h k pt 0 /\ q_pay p = clear /\ q_seq p mod 65536 = 0)).
(** ... with the instant the datagram arrived. *)
Definition taken (now : Z) (h : header) (dec : Z -> option (list Z)) (p : rxpkt) : Prop :=
  q_at p = now /\ exists seq raw clear, dec seq = Some raw /\ unpad h raw = Ok clear /\ made_from h seq clear p.
(** ... out of a list of operations. *)
Definition from_ops (ops : list rop) (p : rxpkt) : Prop := exists now h dec, In (RRtp now h dec) ops /\ taken now h dec p.
(** The packets given to the frame assembly *)
Definition assembled (l : list rout) : list rxpkt :=
  flat_map (fun o => match o with ORtp evs => flat_map (fun e => match e with EvDepay _ _ p => [p] | _ => [] end) evs | _ => [] end) l.

(** ** Calls the interface allows *)
(** A sequence number has 16 bits, the SRTP layer gives bytes; a receive stream is only declared for
    a media the session has (direct.rs:250 panics otherwise); a rollover counter is not negative. *)
Definition op_fine (x : sess) (o : rop) : Prop :=
  match o with
  | RRtp _ h dec => 0 <= sequence_number h < U16 /\ forall q raw, dec q = Some raw -> bytes_ok raw
  | RExpect _ _ m _ _ => In m (map m_mid (medias x))
  | RResetRoc _ roc => 0 <= roc
  | _ => True
  end.
(** every operation is allowed in the state it meets *)
Fixpoint ops_fine (x : sess) (os : list rop) : Prop :=
  match os with
  | [] => True
  | o :: r => op_fine x o /\ match rxstep x o with Ok (y, _) => ops_fine y r | _ => True end
  end.

(** The application polls after every packet it feeds. *)
Definition drains (ops : list rop) : Prop :=
  forall a now h dec b, ops = a ++ RRtp now h dec :: b -> exists c, b = RPollPacket :: c.

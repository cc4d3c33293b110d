(** C43: what an outgoing stream may put on the wire, as an automaton over the calls made and the
    packets that came out.  It knows no cache, no statistics and no send queue internals: only the
    packets written and not yet out, the packets already out, the sequence numbers asked for by NACK,
    the next number of the RTX stream, the padding asked for, and the TWCC counter. *)
From Verif Require Import Base MtimeModel ExtModel HeaderModel Vp8Model NackModel TxModel.

Record spec := mkSp {
  a_ssrc : Z; a_rtx : option Z; a_mid : list Z; a_rid : option (list Z);
  a_acked : bool;                          (* a receiver report named the main SSRC *)
  a_queue : list (rtpwrite * bool);        (* written, not out yet; true: a timeout saw it *)
  a_sent : list rtpwrite;                  (* out on the main SSRC *)
  a_asked : list Z;                        (* 16-bit numbers NACKed, oldest first *)
  a_next : Z;                              (* every RTX packet from now on has at least this number *)
  a_pad : Z;                               (* padding bytes asked for *)
  a_twcc : Z }.

(** [a] is [b] with some elements left out. *)
Inductive sublist {A} : list A -> list A -> Prop :=
| sub_nil : forall b, sublist [] b
| sub_keep : forall x a b, sublist a b -> sublist (x :: a) (x :: b)
| sub_skip : forall x a b, sublist a b -> sublist a (x :: b).

(** The payload as it goes out: the bytes written, with the VP8 patch applied. *)
Definition body_of (w : rtpwrite) (b : list Z) : Prop :=
  match w_patch w with None => b = w_pay w | Some ops => copy_to ops (w_pay w) = Ok b end.

(** Send time and transport sequence number, when negotiated. *)
Definition common (e : extvals) (m : extmap) (now : Z) (twcc : option Z) : extvals :=
  mkEV (audio_level e) (voice_activity e) (video_orientation e) (video_content_type e) (tx_time_offs e)
       (if existsb (fun o => match o with Some AbsoluteSendTime => true | _ => false end) m then Some now else abs_send_time e)
       (abs_capture_time e)
       (match twcc with Some t => Some (t mod U16) | None => transport_cc e end)
       (play_delay_min e) (play_delay_max e) (video_timing e) (rid e) (rid_repair e) (mid e) (frame_mark e) (user e).

(** Main packet for the write [w]: the written fields; MID and RID attached until acknowledged. *)
Definition main_header (a : spec) (w : rtpwrite) (m : extmap) (now : Z) (twcc : option Z) (len : Z) : header :=
  let e := w_ext w in
  mkH 2 false true (w_csrc_count w) (w_marker w) (w_pt w) (w_seq w mod U16) (w_time w) (a_ssrc a) (w_csrc w)
      (common (ev_ids e (if a_acked a then rid e else a_rid a) None (if a_acked a then mid e else Some (a_mid a))) m now twcc) len.

(** RTX packet number [n] that repeats [w]: RTX SSRC and PT, the repaired RID instead of the RID. *)
Definition rtx_header (a : spec) (w : rtpwrite) (m : extmap) (now : Z) (twcc : option Z) (pt ssrc n len : Z) : header :=
  mkH 2 false true (w_csrc_count w) (w_marker w) pt (n mod U16) (w_time w) ssrc (w_csrc w)
      (common (ev_ids (w_ext w) None (a_rid a) (Some (a_mid a))) m now twcc) len.

(** Padding packet number [n]: no marker, no sources, time 0. *)
Definition blank_header (a : spec) (m : extmap) (now : Z) (twcc : option Z) (padded : bool) (pt ssrc n len : Z) : header :=
  mkH 2 padded true 0 false pt (n mod U16) 0 ssrc (rep 0 15)
      (common (ev_ids ev0 None (a_rid a) (Some (a_mid a))) m now twcc) len.

(** The RTX payload type [ps] pairs with the main payload type [pt]. *)
Definition rtx_pt (ps : list param) (pt rpt : Z) : Prop :=
  exists l pr r, ps = l ++ pr :: r /\ p_pt pr = pt /\ p_rtx pr = Some rpt /\ forall x, In x l -> p_pt x <> pt.
Definition known (ps : list param) (pt : Z) : Prop := exists pr, In pr ps /\ p_pt pr = pt.

Definition after (a : spec) (q : list (rtpwrite * bool)) (sent : list rtpwrite) (asked : list Z) (nx pad tw : Z) : spec :=
  mkSp (a_ssrc a) (a_rtx a) (a_mid a) (a_rid a) (a_acked a) q sent asked nx pad tw.

(** One poll. [en]: transport-wide numbering is negotiated. *)
Inductive spoll (a : spec) (now : Z) (m : extmap) (en : bool) (ps : list param) : txout -> spec -> Prop :=
| sp_main : forall w q hb body asked,
    a_queue a = (w, true) :: q -> known ps (w_pt w) ->
    sublist asked (a_asked a) ->
    let tw := if en then Some (a_twcc a) else None in
    write_header 2000 (main_header a w m now tw 16) m = Ok hb -> body_of w body ->
    spoll a now m en ps
      (YPacket (hb ++ body) (mkRc (main_header a w m now tw (zlen hb)) (w_seq w) false (zlen (w_pay w))))
      (after a q (w :: a_sent a) asked (a_next a) (a_pad a) (a_twcc a + b2z en))
| sp_resend : forall w rpt rs n asked hb body,
    In w (a_sent a) -> w_nack w = true -> rtx_pt ps (w_pt w) rpt -> a_rtx a = Some rs ->
    a_next a <= n -> sublist (w_seq w mod U16 :: asked) (a_asked a) ->
    let tw := if en then Some (a_twcc a) else None in
    write_header 2000 (rtx_header a w m now tw rpt rs n 16) m = Ok hb -> body_of w body ->
    spoll a now m en ps
      (YPacket (hb ++ be16 (w_seq w mod U16) ++ body)
               (mkRc (rtx_header a w m now tw rpt rs n (zlen hb)) n false (zlen (w_pay w) + 2)))
      (after a (a_queue a) (a_sent a) asked (n + 1) (a_pad a) (a_twcc a + b2z en))
| sp_spurious : forall w rpt rs n asked hb body,
    In w (a_sent a) -> w_nack w = true -> rtx_pt ps (w_pt w) rpt -> a_rtx a = Some rs ->
    a_next a <= n -> sublist asked (a_asked a) -> 50 < a_pad a ->
    (forall w' q, a_queue a <> (w', true) :: q) ->
    let tw := if en then Some (a_twcc a) else None in
    write_header 2000 (rtx_header a w m now tw rpt rs n 16) m = Ok hb -> body_of w body ->
    spoll a now m en ps
      (YPacket (hb ++ be16 (w_seq w mod U16) ++ body)
               (mkRc (rtx_header a w m now tw rpt rs n (zlen hb)) n true (zlen (w_pay w) + 2)))
      (after a (a_queue a) (a_sent a) asked (n + 1) (Z.max 0 (a_pad a - zlen (w_pay w))) (a_twcc a + b2z en))
| sp_blank : forall pt rpt rs n asked hb len k,
    rtx_pt ps pt rpt -> a_rtx a = Some rs -> a_next a <= n -> sublist asked (a_asked a) ->
    0 < a_pad a -> len = 16 * k -> 16 <= len <= 240 -> (a_pad a <= len < a_pad a + 16 \/ len = 240 /\ 240 <= a_pad a) ->
    (forall w' q, a_queue a <> (w', true) :: q) ->
    let tw := if en then Some (a_twcc a) else None in
    write_header 2000 (blank_header a m now tw true rpt rs n 16) m = Ok hb ->
    spoll a now m en ps
      (YPacket (hb ++ rep 0 (len - 1) ++ [len])
               (mkRc (blank_header a m now tw false rpt rs n (zlen hb)) n true len))
      (after a (a_queue a) (a_sent a) asked (n + 1) (Z.max 0 (a_pad a - len)) (a_twcc a + b2z en))
| sp_drop : forall w q asked,        (* a payload type the peer does not have: not sendable *)
    a_queue a = (w, true) :: q -> ~ known ps (w_pt w) -> sublist asked (a_asked a) ->
    spoll a now m en ps YNone (after a q (a_sent a) asked (a_next a) (a_pad a) (a_twcc a))
| sp_idle : forall asked nx pad,     (* nothing to send, or a payload type in use was taken away *)
    (forall w' q, a_queue a = (w', true) :: q -> exists w, In w (a_sent a) /\ ~ known ps (w_pt w)) ->
    sublist asked (a_asked a) -> a_next a <= nx -> 0 <= pad <= a_pad a ->
    spoll a now m en ps YNone (after a (a_queue a) (a_sent a) asked nx pad (a_twcc a)).

(** The 16-bit numbers a NACK lists: the packet id and the following sixteen by bit mask. *)
Definition listed (e : nack_entry) : list Z :=
  pid e :: map (fun i => (pid e + i + 1) mod U16) (filter (fun i => Z.testbit (blp e) i) (zseq 0 16)).

Inductive sstep (a : spec) : txop -> txout -> spec -> Prop :=
| ss_write : forall w, sstep a (XWrite w) YNone
    (after a (a_queue a ++ [(w, false)]) (a_sent a) (a_asked a) (a_next a) (a_pad a) (a_twcc a))
| ss_timeout : forall now au c f, sstep a (XTimeout now au c f) YNone
    (after a (map (fun x => (fst x, true)) (a_queue a)) (a_sent a) (a_asked a) (a_next a) (a_pad a) (a_twcc a))
| ss_poll : forall now m en ps y a', spoll a now m en ps y a' -> sstep a (XPoll now m en ps) y a'
| ss_nack : forall now es asked, sublist asked (a_asked a ++ flat_map listed es) ->
    sstep a (XRtcp now (FNack es)) YNone
      (after a (a_queue a) (a_sent a) asked (a_next a) (a_pad a) (a_twcc a))
| ss_rr : forall now r, sstep a (XRtcp now (FRr r)) YNone
    (mkSp (a_ssrc a) (a_rtx a) (a_mid a) (a_rid a)
          (a_acked a || match a_rtx a with None => r =? a_ssrc a | Some _ => false end)
          (a_queue a) (a_sent a) (a_asked a) (a_next a) (a_pad a) (a_twcc a))
| ss_fb : forall now f, match f with FNack _ | FRr _ => False | _ => True end -> sstep a (XRtcp now f) YNone a
| ss_pad : forall n pad, pad = a_pad a + n /\ a_rtx a <> None \/ pad = a_pad a -> sstep a (XPad n) YNone
    (after a (a_queue a) (a_sent a) (a_asked a) (a_next a) pad (a_twcc a))
| ss_cache : forall mx ag cap, sstep a (XSetCache mx ag cap) YNone
    (after a (a_queue a) [] (a_asked a) (a_next a) (a_pad a) (a_twcc a))
| ss_reset : sstep a XReset YNone (after a [] [] [] (a_next a) 0 (a_twcc a))
| ss_reset_ssrc : forall ns nr q1 q2, sstep a (XResetSsrc ns nr q1 q2) YNone
    (mkSp ns nr (a_mid a) (a_rid a) false [] [] [] q2 0 (a_twcc a))
| ss_other : forall o y, match o with XState _ | XSr _ | XNextSeq | XPollKf | XPollRemb | XSetUnpaced _ => True | _ => False end ->
    match y with YPacket _ _ => False | _ => True end -> sstep a o y a.

Inductive srun : spec -> list txop -> list txout -> spec -> Prop :=
| sr_nil : forall a, srun a [] [] a
| sr_cons : forall a o y a1 os ys a2, sstep a o y a1 -> srun a1 os ys a2 -> srun a (o :: os) (y :: ys) a2.

(** * What the calls and the packets say, without the automaton *)
Definition writes (ops : list txop) : list rtpwrite :=
  flat_map (fun o => match o with XWrite w => [w] | _ => [] end) ops.
Definition nacked (ops : list txop) : list Z :=
  flat_map (fun o => match o with XRtcp _ (FNack es) => flat_map listed es | _ => [] end) ops.
Definition requested (ops : list txop) : Z :=
  fold_right (fun o s => match o with XPad n => n + s | _ => s end) 0 ops.
Definition packets (ys : list txout) : list (list Z * receipt) :=
  flat_map (fun y => match y with YPacket b r => [(b, r)] | _ => [] end) ys.
Definition on_ssrc (ss : Z) (p : list Z * receipt) : bool := ssrc (rc_hdr (snd p)) =? ss.
Definition keeps_ssrc (o : txop) : Prop := match o with XResetSsrc _ _ _ _ => False | _ => True end.

(** The identifying fields of a packet out and of a packet written. *)
Definition out_key (p : list Z * receipt) : Z * Z * Z * bool * Z :=
  let h := rc_hdr (snd p) in (rc_seq (snd p), sequence_number h, payload_type h, marker h, timestamp h).
Definition write_key (w : rtpwrite) : Z * Z * Z * bool * Z := (w_seq w, w_seq w mod U16, w_pt w, w_marker w, w_time w).
(** The bytes after the header. *)
Definition payload_of (p : list Z * receipt) : list Z := skipn (Z.to_nat (header_len (rc_hdr (snd p)))) (fst p).
Definition count (q : Z) (l : list Z) : Z := zlen (filter (Z.eqb q) l).
Definition padding_sent (ps : list (list Z * receipt)) : Z :=
  fold_right (fun p s => (if rc_pad (snd p) then rc_size (snd p) - 2 else 0) + s) 0 ps.
(** The original sequence numbers of the retransmissions sent (padding aside). *)
Definition osn (p : list Z * receipt) : list Z :=
  match read_osn (payload_of p) with Some (q, _) => [q] | None => [] end.
Definition resent (rs : Z) (ys : list txout) : list Z :=
  flat_map osn (filter (fun p => on_ssrc rs p && negb (rc_pad (snd p))) (packets ys)).
(** A padding packet without content: zeros and, last, their number. *)
Definition blank (p : list Z * receipt) : Prop :=
  rc_pad (snd p) = true /\ exists n, 16 <= n <= 240 /\ payload_of p = rep 0 (n - 1) ++ [n].
(** The packet repeats the write [w]: original sequence number, then the payload. *)
Definition repeats (p : list Z * receipt) (w : rtpwrite) : Prop :=
  exists body, body_of w body /\ payload_of p = be16 (w_seq w mod U16) ++ body /\
    timestamp (rc_hdr (snd p)) = w_time w /\ marker (rc_hdr (snd p)) = w_marker w.
Definition transport_numbers (ys : list txout) : list (option Z) :=
  map (fun p => transport_cc (ext_vals (rc_hdr (snd p)))) (packets ys).
(** The media packets sent: number, size and time of each. *)
Definition media_sent (ss : Z) (ops : list txop) (ys : list txout) : list (EvictModel.rpkt unit * Z) :=
  flat_map (fun x => match x with
    | (XPoll now _ _ _, YPacket b r) => if ssrc (rc_hdr r) =? ss then [(EvictModel.mkPkt (rc_seq r) (rc_size r) tt, now)] else []
    | _ => []
    end) (combine ops ys).
(** The history neither replaces nor clears the cache, and every poll uses the payload types [ps]. *)
Definition steady (ps : list param) (o : txop) : Prop :=
  match o with XSetCache _ _ _ | XReset | XResetSsrc _ _ _ _ => False | XPoll _ _ _ ps' => ps' = ps | _ => True end.

Definition is_poll (o : txop) : bool := match o with XPoll _ _ _ _ => true | _ => false end.
(** Transport-wide numbering is on. *)
Definition numbered (o : txop) : Prop := match o with XPoll _ _ en _ => en = true | _ => True end.
(** The [n] numbers from [t] on, as 16 bits. *)
Fixpoint counting (t : Z) (n : nat) : list (option Z) :=
  match n with O => [] | S n' => Some (t mod U16) :: counting (t + 1) n' end.

(** Argument ranges: a sequence number is a u64, a padding size and a packet id are not negative. *)
Definition op_ok (o : txop) : Prop :=
  match o with
  | XWrite w => 0 <= w_seq w < U64
  | XPad n => 0 <= n
  | XRtcp _ (FNack es) => Forall (fun e => 0 <= pid e < U16) es
  | _ => True
  end.
(** A stream as declared. *)
Definition spec0 (ss : Z) (rtx : option Z) (m : list Z) (r : option (list Z)) (seq_rtx tw : Z) : spec :=
  mkSp ss rtx m r false [] [] [] seq_rtx 0 tw.

(** The packet carries the write: numbers, type, marker, time and payload. *)
Definition carries (p : list Z * receipt) (w : rtpwrite) : Prop :=
  out_key p = write_key w /\ body_of w (payload_of p) /\ rc_pad (snd p) = false.
Definition sendable (ps : list param) (w : rtpwrite) : bool := existsb (fun pr => p_pt pr =? w_pt w) ps.

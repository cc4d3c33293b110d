(** Model of the frame API on the sending side: media/writer.rs (Writer::write), media/mod.rs
    (set_to_payload, do_payload, payloader_for), packet/payload.rs (Payloader) and session.rs
    (do_payload and how handle_timeout uses it), on top of the send streams of TxModel.

    Simplifications.  The packetizer of a codec is a parameter: a state [P], the state [fresh] a new one
    has, and [cut], which splits a sample for an MTU into chunks or fails; every theorem holds for any.
    The streams of the session are a list, where the code has a hash map: [find] takes the first one that
    fits in an order the code does not say, here that of the list.  The streams and the payload types stay the same.
    The [user] value of ExtModel stands for one user value, and [m_vla] says whether it is the
    VideoLayersAllocation.  [data.into()] and logging are left out. *)
From Verif Require Import Base SeqModel MtimeModel ExtModel TxModel.

(** format/codec.rs:51-78 *)
Inductive codec := Opus | PCMU | PCMA | G722 | CN | H264 | H265 | H266 | Vp8 | Vp9 | Av1 | Rtx | Null | Unknown.
(** A PayloadParams: its PT, RTX PT and RTP clock rate (TxModel) and its codec. *)
Record wparam := mkWP { wp_par : param; wp_codec : codec }.
Definition wp_pt (p : wparam) : Z := p_pt (wp_par p).

(** packet/mod.rs:381-396 and the is_marker of each packetizer: all video ones return [last], the audio
    ones false, the null one is unreachable. *)
Definition is_marker (c : codec) (last : bool) : res bool :=
  match c with
  | H264 | H265 | H266 | Vp8 | Vp9 | Av1 => Ok last
  | Opus | PCMU | PCMA | G722 | CN => Ok false
  | Rtx | Null | Unknown => Panic
  end.
(** payload.rs:46 [spec.codec != Codec::CN] *)
Definition allow_talkspurt (c : codec) : bool := match c with CN => false | _ => true end.
(** packet/mod.rs:315-331 [CodecPacketizer::new] panics for these two *)
Definition can_start (c : codec) : bool := match c with Rtx | Unknown => false | _ => true end.

(** media/mod.rs:189-197 ToPayload *)
Record sample := mkSm { m_pt : Z; m_rid : option (list Z); m_wall : Z; m_time : mtime; m_spurt : bool;
  m_data : list Z; m_ext : extvals; m_vla : bool }.

(** media/mod.rs:151-171 *)
Inductive rids := RNone | RAny | RSome (l : list (list Z)).
Definition id_eq (a b : list Z) : bool := if list_eq_dec Z.eq_dec a b then true else false.
Definition rid_eq (a b : option (list Z)) : bool :=
  match a, b with None, None => true | Some x, Some y => id_eq x y | _, _ => false end.
Definition rids_contains (r : rids) (x : list Z) : bool :=
  match r with RNone => false | RAny => true | RSome l => existsb (id_eq x) l end.

(** Errors (lib.rs RtcError) *)
Inductive werr := UnknownPt | UnknownRid | WriteWithoutPoll | NoSenderSource | Packet.

Section Wr.
Variables (P : Type) (fresh : codec -> P) (cut : P -> Z -> list Z -> P * option (list (list Z))).

(** media/mod.rs Media: the fields used here *)
Record media := mkMd { d_mid : list Z; d_audio : bool; d_rids : rids; d_wait : list sample;
  d_pay : list ((Z * option (list Z)) * P) }.
Definition set_wait (d : media) (l : list sample) : media := mkMd (d_mid d) (d_audio d) (d_rids d) l (d_pay d).
Definition set_pay (d : media) (l : list ((Z * option (list Z)) * P)) : media :=
  mkMd (d_mid d) (d_audio d) (d_rids d) (d_wait d) l.
Definition set_rids (d : media) (r : rids) : media := mkMd (d_mid d) (d_audio d) r (d_wait d) (d_pay d).

(** the session; [w_tw] is its transport-wide counter, [w_closing] its rtp_closing *)
Record wr := mkWr { w_medias : list media; w_streams : list tx; w_tw : Z; w_closing : bool }.

(** writer.rs:118-169 write and media/mod.rs:476-484 set_to_payload, on the medium it names *)
Definition write1 (ps : list wparam) (d : media) (s : sample) : media * option werr :=
  if negb (existsb (fun p => wp_pt p =? m_pt s) ps) then (d, Some UnknownPt)
  else if match m_rid s with Some r => negb (rids_contains (d_rids d) r) | None => false end then (d, Some UnknownRid)
  else if 100 <? zlen (d_wait d) then (d, Some WriteWithoutPoll)
  else (set_wait d (d_wait d ++ [s]), None).
(** session.rs:302 and writer.rs:258-260: the first medium with the MID; None: [Rtc::writer] returns None *)
Fixpoint write_media (ps : list wparam) (l : list media) (m : list Z) (s : sample) : option (list media * option werr) :=
  match l with
  | [] => None
  | d :: r =>
      if id_eq (d_mid d) m then let '(d', e) := write1 ps d s in Some (d' :: r, e)
      else match write_media ps r m s with Some (r', e) => Some (d :: r', e) | None => None end
  end.

(** rtp/id.rs:371-373 special_equals and send.rs:1248-1250: no RID asked for fits any stream of the medium *)
Definition fits (m : list Z) (r : option (list Z)) (x : tx) : bool :=
  id_eq m (x_mid x) && match r with None => true | Some _ => rid_eq r (x_rid x) end.
(** streams/mod.rs:602-604 [values_mut().find] *)
Fixpoint find_tx (l : list tx) (m : list Z) (r : option (list Z)) : option nat :=
  match l with
  | [] => None
  | x :: l' => if fits m r x then Some O else match find_tx l' m r with Some k => Some (S k) | None => None end
  end.
Fixpoint upd {A} (l : list A) (k : nat) (v : A) : list A :=
  match l, k with
  | [], _ => []
  | _ :: r, O => v :: r
  | a :: r, S k' => a :: upd r k' v
  end.

(** media/mod.rs:462-474 payloader_for: the payloader of this PT and RID, made when first used *)
Definition key_eq (a b : Z * option (list Z)) : bool := (fst a =? fst b) && rid_eq (snd a) (snd b).
Fixpoint get_pay (l : list ((Z * option (list Z)) * P)) (k : Z * option (list Z)) : option P :=
  match l with [] => None | (k', p) :: r => if key_eq k' k then Some p else get_pay r k end.
Fixpoint put_pay (l : list ((Z * option (list Z)) * P)) (k : Z * option (list Z)) (p : P) :=
  match l with
  | [] => [(k, p)]
  | (k', p') :: r => if key_eq k' k then (k', p) :: r else (k', p') :: put_pay r k p
  end.
Fixpoint find_par (ps : list wparam) (pt : Z) : option wparam :=
  match ps with [] => None | p :: r => if wp_pt p =? pt then Some p else find_par r pt end.

(** payload.rs:82-96: the extension values of one packet of the sample *)
Definition pkt_ext (s : sample) (first last : bool) : extvals :=
  let e := m_ext s in
  mkEV (audio_level e) (voice_activity e) (if last then video_orientation e else None)
    (if last then video_content_type e else None) (tx_time_offs e) (abs_send_time e)
    (if first then abs_capture_time e else None) (transport_cc e) (play_delay_min e) (play_delay_max e)
    (if last then video_timing e else None) (rid e) (rid_repair e) (mid e) (frame_mark e)
    (if negb first && m_vla s then None else user e).

(** payload.rs:69-110, the loop of push_sample *)
Fixpoint push_chunks (p : wparam) (audio : bool) (s : sample) (first : bool) (cs : list (list Z)) (x : tx) : res tx :=
  match cs with
  | [] => Ok x
  | b :: rest =>
      let last := match rest with [] => true | _ => false end in
      do mk <- is_marker (wp_codec p) last;
      let marker := mk || (audio && allow_talkspurt (wp_codec p) && m_spurt s) in
      let seq := x_seq x in
      let time := numer (rebase (m_time s) (p_clock (wp_par p))) mod U32 in
      let w := mkW (m_pt s) seq time (m_wall s) marker (pkt_ext s first last) (negb audio) b 0 (rep 0 15) None in
      push_chunks p audio s false rest (write_rtp (set_seq x (seq + 1)) w)
  end.

(** What one medium did in a timeout: a sample was cut into chunks for stream [k], starting at number [n];
    or it was dropped. *)
Inductive act := Sent (m : list Z) (s : sample) (k : nat) (n : Z) (cs : list (list Z))
               | Dropped (m : list Z) (s : sample) (e : werr).

(** media/mod.rs:486-522 do_payload; rtp/srtp.rs:30-35: the block is 16 bytes, the overhead too *)
Definition align (mtu : Z) : Z := (mtu - 16) - (mtu - 16) mod 16.
Definition pay_media (ps : list wparam) (mtu : Z) (d : media) (xs : list tx)
    : res (media * list tx * list act * option werr) :=
  match d_wait d with
  | [] => Ok (d, xs, [], None)
  | s :: rest =>
      let d := set_wait d rest in
      match find_tx xs (d_mid d) (m_rid s) with
      | None => Ok (d, xs, [Dropped (d_mid d) s NoSenderSource], Some NoSenderSource)
      | Some k =>
          match find_par ps (m_pt s), nth_error xs k with
          | Some p, Some x =>
              let key := (m_pt s, m_rid s) in
              do st <- match get_pay (d_pay d) key with
                       | Some st => Ok st
                       | None => if can_start (wp_codec p) then Ok (fresh (wp_codec p)) else Panic
                       end;
              if mtu <? 16 then Panic
              else
                let '(st', r) := cut st (align mtu) (m_data s) in
                let d := set_pay d (put_pay (d_pay d) key st') in
                match r with
                | None => Ok (d, xs, [Dropped (d_mid d) s Packet], Some Packet)
                | Some cs =>
                    do x' <- push_chunks p (d_audio d) s true cs x;
                    Ok (d, upd xs k x', [Sent (d_mid d) s k (x_seq x) cs], None)
                end
          | _, _ => Panic
          end
      end
  end.
(** session.rs:1226-1238 do_payload: the first error ends the loop *)
Fixpoint pay_all (ps : list wparam) (mtu : Z) (ds : list media) (xs : list tx)
    : res (list media * list tx * list act * option werr) :=
  match ds with
  | [] => Ok ([], xs, [], None)
  | d :: r =>
      do q <- pay_media ps mtu d xs;
      let '(d', xs', a, e) := q in
      match e with
      | Some e => Ok (d' :: r, xs', a, Some e)
      | None =>
          do q' <- pay_all ps mtu r xs';
          let '(r', xs'', a', e') := q' in
          Ok (d' :: r', xs'', a ++ a', e')
      end
  end.

(** media/mod.rs:486-492 poll_timeout: a waiting sample asks for a timeout at once *)
Definition asks (w : wr) : bool := existsb (fun d => match d_wait d with [] => false | _ => true end) (w_medias w).

(** * Histories *)
Inductive wop :=
| WWrite (m : list Z) (s : sample)
| WTimeout                       (* the payloading part of session.rs:275-281 handle_timeout *)
| WStream (k : nat) (o : txop)   (* any other call on stream [k] *)
| WRids (m : list Z) (r : rids)  (* media/mod.rs:600-611: the RIDs allowed change *)
| WClose.                        (* session.rs:933-946 close_rtp: send buffers are reset *)
Inductive wout :=
| OWrite (r : option (option werr))      (* None: no such medium; Some None: Ok *)
| OTimeout (a : list act) (e : option werr)
| OStream (y : txout)
| ONone.

Definition wstep (ex : Z -> Z -> Z -> bool) (al : Z) (ps : list wparam) (mtu : Z) (w : wr) (o : wop) : res (wr * wout) :=
  match o with
  | WWrite m s =>
      match write_media ps (w_medias w) m s with
      | None => Ok (w, OWrite None)
      | Some (ds, e) => Ok (mkWr ds (w_streams w) (w_tw w) (w_closing w), OWrite (Some e))
      end
  | WTimeout =>
      if w_closing w then Ok (w, OTimeout [] None)
      else
        do q <- pay_all ps mtu (w_medias w) (w_streams w);
        let '(ds, xs, a, e) := q in Ok (mkWr ds xs (w_tw w) (w_closing w), OTimeout a e)
  | WStream k o =>
      match nth_error (w_streams w) k with
      | None => Ok (w, ONone)
      | Some x =>
          do q <- txstep ex al x (w_tw w) o;
          let '(x', tw, y) := q in Ok (mkWr (w_medias w) (upd (w_streams w) k x') tw (w_closing w), OStream y)
      end
  | WRids m r => Ok (mkWr (map (fun d => if id_eq (d_mid d) m then set_rids d r else d) (w_medias w))
                      (w_streams w) (w_tw w) (w_closing w), ONone)
  | WClose => if w_closing w then Ok (w, ONone)
              else Ok (mkWr (w_medias w) (map (fun x => reset_buffers x al) (w_streams w)) (w_tw w) true, ONone)
  end.
Fixpoint wrun ex al ps mtu (w : wr) (ops : list wop) : res (wr * list (wop * wout)) :=
  match ops with
  | [] => Ok (w, [])
  | o :: r =>
      do q <- wstep ex al ps mtu w o;
      do q' <- wrun ex al ps mtu (fst q) r;
      Ok (fst q', (o, snd q) :: snd q')
  end.
End Wr.
Arguments d_mid {P}. Arguments d_audio {P}. Arguments d_rids {P}. Arguments d_wait {P}. Arguments d_pay {P}.
Arguments w_medias {P}. Arguments w_streams {P}. Arguments w_tw {P}. Arguments w_closing {P}. Arguments mkMd {P}. Arguments mkWr {P}.

(** What a history of writes, timeouts and polls says, for the properties of the frame API. *)
From Verif Require Import Base SeqModel MtimeModel ExtModel HeaderModel TxModel TxSpec WrModel.

Definition history := list (wop * wout).
Definition acts (h : history) : list act :=
  flat_map (fun p => match snd p with OTimeout a _ => a | _ => [] end) h.
Definition media_of (a : act) : list Z := match a with Sent m _ _ _ _ => m | Dropped m _ _ => m end.
Definition sample_of (a : act) : sample := match a with Sent _ s _ _ _ => s | Dropped _ s _ => s end.
Definition is_sent (a : act) : bool := match a with Sent _ _ _ _ _ => true | _ => false end.

(** The samples [write] answered Ok for on this medium, in order; those a timeout took off, in order. *)
Definition accepted (m : list Z) (h : history) : list sample :=
  flat_map (fun p => match p with (WWrite m' s, OWrite (Some None)) => if id_eq m' m then [s] else [] | _ => [] end) h.
Definition taken (m : list Z) (l : list act) : list sample :=
  flat_map (fun a => if id_eq (media_of a) m then [sample_of a] else []) l.
(** Those still waiting. *)
Definition waiting {P} (m : list Z) (w : wr P) : list sample :=
  match find (fun d => id_eq (d_mid d) m) (w_medias w) with Some d => d_wait d | None => [] end.
(** The media that have samples waiting, each with its first. *)
Definition due {P} (w : wr P) : list (list Z * sample) :=
  flat_map (fun d => match d_wait d with s :: _ => [(d_mid d, s)] | [] => [] end) (w_medias w).

(** The codec is one that can be packetized. *)
Definition real (c : codec) : Prop := match c with Rtx | Null | Unknown => False | _ => True end.
Definition video (c : codec) : bool := match c with H264 | H265 | H266 | Vp8 | Vp9 | Av1 => true | _ => false end.

(** Packet [i] of the frame: sample [s] cut into [cs], numbered from [n], sent as codec [c] with RTP clock
    [clk] on an audio or video medium. *)
Record frame_packet (c : codec) (clk : Z) (audio : bool) (s : sample) (n : Z) (cs : list (list Z)) (i : nat)
    (w : rtpwrite) : Prop := {
  fp_payload : nth_error cs i = Some (w_pay w);
  fp_seq : w_seq w = n + Z.of_nat i;
  fp_pt : w_pt w = m_pt s;
  fp_time : w_time w = (numer (m_time s) * clk / denom (m_time s)) mod U32;
  fp_wall : w_wall w = m_wall s;
  (* the marker: on the last packet of a video frame; on every packet of an audio frame that starts a talkspurt, but for CN *)
  fp_marker : w_marker w = true <->
    (video c = true /\ S i = length cs) \/ (audio = true /\ m_spurt s = true /\ c <> CN);
  fp_nack : w_nack w = negb audio;
  (* orientation, content type and timing on the last packet only *)
  fp_last : let '(a, b, t) := if Nat.eqb (S i) (length cs)
                              then (video_orientation (m_ext s), video_content_type (m_ext s), video_timing (m_ext s))
                              else (None, None, None) in
            video_orientation (w_ext w) = a /\ video_content_type (w_ext w) = b /\ video_timing (w_ext w) = t;
  (* capture time and layer allocation on the first packet only *)
  fp_first : abs_capture_time (w_ext w) = (if Nat.eqb i 0 then abs_capture_time (m_ext s) else None) /\
             user (w_ext w) = (if Nat.eqb i 0 then user (m_ext s) else if m_vla s then None else user (m_ext s));
  (* the others on all *)
  fp_all : audio_level (w_ext w) = audio_level (m_ext s) /\ voice_activity (w_ext w) = voice_activity (m_ext s) /\
           play_delay_min (w_ext w) = play_delay_min (m_ext s) /\ play_delay_max (w_ext w) = play_delay_max (m_ext s) }.

(** The packets of one frame on the medium [m]; [kinds] says which media are audio. *)
Definition frame (ps : list wparam) (kinds : list (list Z * bool)) (m : list Z) (s : sample) (n : Z)
    (cs : list (list Z)) (ws : list rtpwrite) : Prop :=
  exists p audio, In p ps /\ wp_pt p = m_pt s /\ In (m, audio) kinds /\ length ws = length cs /\
    forall i w, nth_error ws i = Some w -> frame_packet (wp_codec p) (p_clock (wp_par p)) audio s n cs i w.

(** The packets the frames for stream [k] make, one frame after the other, numbered from [n] on without a gap. *)
Inductive frames (ps : list wparam) (kinds : list (list Z * bool)) (k : nat) : Z -> list act -> list rtpwrite -> Prop :=
| fr_nil : forall n, frames ps kinds k n [] []
| fr_sent : forall n m s cs l ws1 ws2, frame ps kinds m s n cs ws1 -> frames ps kinds k (n + zlen cs) l ws2 ->
    frames ps kinds k n (Sent m s k n cs :: l) (ws1 ++ ws2)
| fr_skip : forall n a l ws, (forall m s n' cs, a <> Sent m s k n' cs) -> frames ps kinds k n l ws ->
    frames ps kinds k n (a :: l) ws.

(** What the packetizer for one medium, PT and RID was given and gave, in order. *)
Definition cut_log (m : list Z) (pt : Z) (r : option (list Z)) (l : list act) : list (list Z * option (list (list Z))) :=
  flat_map (fun a => if id_eq (media_of a) m && (m_pt (sample_of a) =? pt) && rid_eq (m_rid (sample_of a)) r then
                       match a with
                       | Sent _ s _ _ cs => [(m_data s, Some cs)]
                       | Dropped _ s Packet => [(m_data s, None)]
                       | Dropped _ _ _ => []
                       end
                     else []) l.
(** One packetizer, from the state [st] on, made these. *)
Inductive cuts {P} (cut : P -> Z -> list Z -> P * option (list (list Z))) (mtu : Z) : P -> list (list Z * option (list (list Z))) -> Prop :=
| cut_nil : forall st, cuts cut mtu st []
| cut_cons : forall st st' data r l, cut st mtu data = (st', r) -> cuts cut mtu st' l -> cuts cut mtu st ((data, r) :: l).

(** What left stream [k]. *)
Definition out (k : nat) (h : history) : list (list Z * receipt) :=
  packets (flat_map (fun p => match p with (WStream k' _, OStream y) => if Nat.eqb k' k then [y] else [] | _ => [] end) h).
(** The packet carries the write (TxSpec) and its media extension values. *)
Definition carries_all (p : list Z * receipt) (w : rtpwrite) : Prop :=
  carries p w /\
  let e := ext_vals (rc_hdr (snd p)) in let f := w_ext w in
  audio_level e = audio_level f /\ voice_activity e = voice_activity f /\ video_orientation e = video_orientation f /\
  video_content_type e = video_content_type f /\ abs_capture_time e = abs_capture_time f /\
  play_delay_min e = play_delay_min f /\ play_delay_max e = play_delay_max f /\ video_timing e = video_timing f /\
  user e = user f.

(** The calls on streams are those the session makes: the application writes only with the frame API, the
    payload types are the session's, and the retransmission cache and the SSRC stay. *)
Definition frame_api (ps : list wparam) (o : wop) : Prop :=
  match o with
  | WStream _ (XWrite _) | WStream _ XNextSeq => False
  | WStream _ o => steady (map wp_par ps) o /\ op_ok o
  | _ => True
  end.
(** A sample with a media time that is one: a positive denominator. *)
Definition sample_ok (o : wop) : Prop :=
  match o with WWrite _ s => 0 <= numer (m_time s) /\ 0 < denom (m_time s) | _ => True end.
(** The numbers of the packets fit 64 bits. *)
Definition numbers_fit (a : act) : Prop := match a with Sent _ _ _ n cs => n + zlen cs <= U64 | _ => True end.

(** A stream as declared: SSRC, RTX SSRC, MID, RID and first number. *)
Definition declared (mtu_warn al : Z) (x : tx) (d : Z * option Z * list Z * option (list Z) * Z) : Prop :=
  let '(ss, rtx, m, r, q0) := d in
  exists qr lst, x = tx_new ss rtx m r mtu_warn al q0 qr lst /\ rtx <> Some ss /\ 0 <= q0.
(** A medium before any sample. *)
Definition idle {P} (d : media P) : Prop := d_wait d = [] /\ d_pay d = [].
Definition start {P} (mtu_warn al : Z) (w : wr P) (decl : list (Z * option Z * list Z * option (list Z) * Z)) : Prop :=
  Forall idle (w_medias w) /\ NoDup (map d_mid (w_medias w)) /\ Forall2 (declared mtu_warn al) (w_streams w) decl /\
  w_closing w = false.
Definition kinds_of {P} (w : wr P) : list (list Z * bool) := map (fun d => (d_mid d, d_audio d)) (w_medias w).
(** A history from the start of a session with the media [kinds] and the streams [decl] declared. *)
Definition session {P} (fresh : codec -> P) cut ex al ps mtu mtu_warn decl (w0 : wr P) (ops : list wop) (w : wr P) (h : history) : Prop :=
  start mtu_warn al w0 decl /\ Forall (frame_api ps) ops /\ Forall sample_ok ops /\
  Forall (fun p => real (wp_codec p)) ps /\ 16 <= mtu /\
  wrun P fresh cut ex al ps mtu w0 ops = Ok (w, h) /\ Forall numbers_fit (acts h).
(** The medium allows the RID; the sample's PT is one of the session's. *)
Definition rid_allowed (l : rids) (r : list Z) : Prop := match l with RNone => False | RAny => True | RSome l => In r l end.
Definition medium {P} (w : wr P) (m : list Z) (d : media P) : Prop := In d (w_medias w) /\ d_mid d = m.

(** C16: which values are legal and what should arrive, stated per field. *)
From Verif Require Import Base MtimeModel ExtModel.

Definition opt_ok {A} (P : A -> Prop) (o : option A) : Prop := match o with Some a => P a | None => True end.
(** An id made by Mid::from / Rid::from of a non-empty string. *)
Definition id_ok (n : Z) (s : list Z) : Prop :=
  0 < zlen s <= n /\ Forall (fun c => alnum c = true \/ c = 95) s.
(** A playout delay expressible in twelve bits of 10 ms. *)
Definition delay_ok (t : mtime) : Prop :=
  0 <= numer t /\ 0 < denom t /\ numer t * 100 / denom t < 4096.
Definition u16_ok (z : Z) : Prop := 0 <= z < U16.
Definition u32_ok (z : Z) : Prop := 0 <= z < U32.

Record ev_ok (e : extvals) : Prop := {
  ok_audio : opt_ok (fun v => -127 <= v <= 0) (audio_level e);
  ok_orient : opt_ok (fun v => 0 <= v <= 3) (video_orientation e);
  ok_content : opt_ok byte_ok (video_content_type e);
  ok_tx : opt_ok u32_ok (tx_time_offs e);
  ok_ast : opt_ok (fun t => 0 <= t /\ t / 1000 < U64 / 262144) (abs_send_time e);
  ok_act : opt_ok (fun p => 0 <= fst p < U64 /\ opt_ok (fun o => -9223372036854775808 <= o < 9223372036854775808) (snd p)) (abs_capture_time e);
  ok_tcc : opt_ok u16_ok (transport_cc e);
  ok_dmin : opt_ok delay_ok (play_delay_min e);
  ok_dmax : opt_ok delay_ok (play_delay_max e);
  ok_vt : opt_ok (fun v => byte_ok (vflags v) /\ u16_ok (enc_start v) /\ u16_ok (enc_finish v) /\
                     u16_ok (pack_complete v) /\ u16_ok (left_pacer v)) (video_timing e);
  ok_rid : opt_ok (id_ok 8) (rid e);
  ok_rrid : opt_ok (id_ok 8) (rid_repair e);
  ok_mid : opt_ok (id_ok 16) (mid e);
  ok_fm : opt_ok u32_ok (frame_mark e);
  ok_user : opt_ok (fun b => 0 < zlen b <= 255 /\ bytes_ok b) (user e) }.

(** A 16-slot map; a custom extension that may exceed 16 bytes asks for the two-byte form. *)
Definition map_ok (m : extmap) (e : extvals) : Prop :=
  length m = 16%nat /\
  (forall two, In (Some (EUser two)) m -> two = true \/ opt_ok (fun b => zlen b <= 16) (user e)).

Definition mapped (x : ext) (m : extmap) : bool :=
  existsb (fun o => match o with
    | Some AbsoluteSendTime => match x with AbsoluteSendTime => true | _ => false end
    | Some AbsoluteCaptureTime => match x with AbsoluteCaptureTime => true | _ => false end
    | Some AudioLevel => match x with AudioLevel => true | _ => false end
    | Some TransmissionTimeOffset => match x with TransmissionTimeOffset => true | _ => false end
    | Some VideoOrientation => match x with VideoOrientation => true | _ => false end
    | Some TransportSequenceNumber => match x with TransportSequenceNumber => true | _ => false end
    | Some PlayoutDelay => match x with PlayoutDelay => true | _ => false end
    | Some VideoContentType => match x with VideoContentType => true | _ => false end
    | Some VideoTiming => match x with VideoTiming => true | _ => false end
    | Some RtpStreamId => match x with RtpStreamId => true | _ => false end
    | Some RepairedRtpStreamId => match x with RepairedRtpStreamId => true | _ => false end
    | Some RtpMid => match x with RtpMid => true | _ => false end
    | Some FrameMarking => match x with FrameMarking => true | _ => false end
    | Some (EUser _) => match x with EUser _ => true | _ => false end
    | _ => false
    end) m.

Definition when {A} (b : bool) (o : option A) : option A := if b then o else None.
Definition both {A B C} (o : option A) (p : option B) (f : A -> B -> C) : option C :=
  match o, p with Some a, Some b => Some (f a b) | _, _ => None end.

(** A playout delay after the trip: whole hundredths of a second. *)
Definition hundredths (t : mtime) : mtime := mkT (numer t * 100 / denom t) 100.
(** The send time as it arrives: [E] plus the 24 low bits of the 6.18 fixed-point seconds,
    in whole microseconds. *)
Definition sent_18 (t : Z) : Z := (t / 1000 * 262144 / 1000000) mod 16777216.
Definition arrives_ast (E t : Z) : Z := E + sent_18 t * 1000000 / 262144 * 1000.

(** What the receiver should see: for each mapped extension the sender's value, nothing else.
    [vad] is what arrives for the voice activity flag. *)
Definition arrives (vad : Z -> bool -> bool) (E : Z) (m : extmap) (e : extvals) : extvals :=
  mkEV (when (mapped AudioLevel m) (both (audio_level e) (voice_activity e) (fun l v => l)))
       (when (mapped AudioLevel m) (both (audio_level e) (voice_activity e) vad))
       (when (mapped VideoOrientation m) (video_orientation e))
       (when (mapped VideoContentType m) (video_content_type e))
       (when (mapped TransmissionTimeOffset m) (tx_time_offs e))
       (when (mapped AbsoluteSendTime m) (option_map (arrives_ast E) (abs_send_time e)))
       (when (mapped AbsoluteCaptureTime m) (abs_capture_time e))
       (when (mapped TransportSequenceNumber m) (transport_cc e))
       (when (mapped PlayoutDelay m) (both (play_delay_min e) (play_delay_max e) (fun a b => hundredths a)))
       (when (mapped PlayoutDelay m) (both (play_delay_min e) (play_delay_max e) (fun a b => hundredths b)))
       (when (mapped VideoTiming m) (video_timing e))
       (when (mapped RtpStreamId m) (rid e))
       (when (mapped RepairedRtpStreamId m) (rid_repair e))
       (when (mapped RtpMid m) (mid e))
       (when (mapped FrameMarking m) (frame_mark e))
       (when (mapped (EUser true) m) (user e)).

(** Enough buffer for every value of [e]: 16 slots of at most 18 bytes, custom ones apart, and the
    16 bytes the capture time checks for. *)
Definition customs (m : extmap) : Z := zlen (filter (fun o => match o with Some (EUser _) => true | _ => false end) m).
Definition room (m : extmap) : Z := 320 + 260 * customs m.

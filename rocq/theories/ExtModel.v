(** Model of src/rtp/ext.rs: RTP header extensions, and of the string ids of src/rtp/id.rs.

    Simplifications.  One custom serializer ([EUser]) is modelled, the one that writes and reads its
    bytes unchanged; [two] is its [requires_two_byte_form].  A capture time is its 64-bit NTP value
    (the f64 conversions of util/time_tricks.rs are not modelled).  An Instant is its
    distance in nanoseconds from the UNIX epoch, so [to_unix_duration] is the identity, and [E] is
    that distance for the process constant [already_happened()].  Logging is omitted. *)
From Verif Require Import Base MtimeModel.

(** ext.rs:26-69 *)
Inductive ext := AbsoluteSendTime | AbsoluteCaptureTime | AudioLevel | TransmissionTimeOffset
  | VideoOrientation | TransportSequenceNumber | PlayoutDelay | VideoContentType | VideoTiming
  | RtpStreamId | RepairedRtpStreamId | RtpMid | FrameMarking | ColorSpace | EUser (two : bool).

(** ext.rs:1170-1179 *)
Record vtiming := mkVT { vflags : Z; enc_start : Z; enc_finish : Z; pack_complete : Z; left_pacer : Z }.

(** ext.rs:883-924 ExtensionValues *)
Record extvals := mkEV {
  audio_level : option Z; voice_activity : option bool; video_orientation : option Z;
  video_content_type : option Z; tx_time_offs : option Z; abs_send_time : option Z;
  abs_capture_time : option (Z * option Z); transport_cc : option Z;
  play_delay_min : option mtime; play_delay_max : option mtime; video_timing : option vtiming;
  rid : option (list Z); rid_repair : option (list Z); mid : option (list Z);
  frame_mark : option Z; user : option (list Z) }.
Definition ev0 : extvals :=
  mkEV None None None None None None None None None None None None None None None None.

Definition set_audio e a b := mkEV (Some a) (Some b) (video_orientation e) (video_content_type e) (tx_time_offs e) (abs_send_time e) (abs_capture_time e) (transport_cc e) (play_delay_min e) (play_delay_max e) (video_timing e) (rid e) (rid_repair e) (mid e) (frame_mark e) (user e).
Definition set_orient e v := mkEV (audio_level e) (voice_activity e) (Some v) (video_content_type e) (tx_time_offs e) (abs_send_time e) (abs_capture_time e) (transport_cc e) (play_delay_min e) (play_delay_max e) (video_timing e) (rid e) (rid_repair e) (mid e) (frame_mark e) (user e).
Definition set_content e v := mkEV (audio_level e) (voice_activity e) (video_orientation e) (Some v) (tx_time_offs e) (abs_send_time e) (abs_capture_time e) (transport_cc e) (play_delay_min e) (play_delay_max e) (video_timing e) (rid e) (rid_repair e) (mid e) (frame_mark e) (user e).
Definition set_txoffs e v := mkEV (audio_level e) (voice_activity e) (video_orientation e) (video_content_type e) (Some v) (abs_send_time e) (abs_capture_time e) (transport_cc e) (play_delay_min e) (play_delay_max e) (video_timing e) (rid e) (rid_repair e) (mid e) (frame_mark e) (user e).
Definition set_ast e v := mkEV (audio_level e) (voice_activity e) (video_orientation e) (video_content_type e) (tx_time_offs e) (Some v) (abs_capture_time e) (transport_cc e) (play_delay_min e) (play_delay_max e) (video_timing e) (rid e) (rid_repair e) (mid e) (frame_mark e) (user e).
Definition set_act e v := mkEV (audio_level e) (voice_activity e) (video_orientation e) (video_content_type e) (tx_time_offs e) (abs_send_time e) (Some v) (transport_cc e) (play_delay_min e) (play_delay_max e) (video_timing e) (rid e) (rid_repair e) (mid e) (frame_mark e) (user e).
Definition set_tcc e v := mkEV (audio_level e) (voice_activity e) (video_orientation e) (video_content_type e) (tx_time_offs e) (abs_send_time e) (abs_capture_time e) (Some v) (play_delay_min e) (play_delay_max e) (video_timing e) (rid e) (rid_repair e) (mid e) (frame_mark e) (user e).
Definition set_delay e a b := mkEV (audio_level e) (voice_activity e) (video_orientation e) (video_content_type e) (tx_time_offs e) (abs_send_time e) (abs_capture_time e) (transport_cc e) (Some a) (Some b) (video_timing e) (rid e) (rid_repair e) (mid e) (frame_mark e) (user e).
Definition set_timing e v := mkEV (audio_level e) (voice_activity e) (video_orientation e) (video_content_type e) (tx_time_offs e) (abs_send_time e) (abs_capture_time e) (transport_cc e) (play_delay_min e) (play_delay_max e) (Some v) (rid e) (rid_repair e) (mid e) (frame_mark e) (user e).
Definition set_rid e v := mkEV (audio_level e) (voice_activity e) (video_orientation e) (video_content_type e) (tx_time_offs e) (abs_send_time e) (abs_capture_time e) (transport_cc e) (play_delay_min e) (play_delay_max e) (video_timing e) (Some v) (rid_repair e) (mid e) (frame_mark e) (user e).
Definition set_rrid e v := mkEV (audio_level e) (voice_activity e) (video_orientation e) (video_content_type e) (tx_time_offs e) (abs_send_time e) (abs_capture_time e) (transport_cc e) (play_delay_min e) (play_delay_max e) (video_timing e) (rid e) (Some v) (mid e) (frame_mark e) (user e).
Definition set_mid e v := mkEV (audio_level e) (voice_activity e) (video_orientation e) (video_content_type e) (tx_time_offs e) (abs_send_time e) (abs_capture_time e) (transport_cc e) (play_delay_min e) (play_delay_max e) (video_timing e) (rid e) (rid_repair e) (Some v) (frame_mark e) (user e).
Definition set_fm e v := mkEV (audio_level e) (voice_activity e) (video_orientation e) (video_content_type e) (tx_time_offs e) (abs_send_time e) (abs_capture_time e) (transport_cc e) (play_delay_min e) (play_delay_max e) (video_timing e) (rid e) (rid_repair e) (mid e) (Some v) (user e).
Definition set_user e v := mkEV (audio_level e) (voice_activity e) (video_orientation e) (video_content_type e) (tx_time_offs e) (abs_send_time e) (abs_capture_time e) (transport_cc e) (play_delay_min e) (play_delay_max e) (video_timing e) (rid e) (rid_repair e) (mid e) (frame_mark e) (Some v).

(** * String ids, src/rtp/id.rs:50-68 and core::str::from_utf8 *)
(** One decoded character: an ASCII byte, or [-1] for any other scalar value. *)
Definition cont (b : Z) : bool := (128 <=? b) && (b <=? 191).
Definition rng (a b x : Z) : bool := (a <=? x) && (x <=? b).
Fixpoint utf8 (l : list Z) : option (list Z) :=
  match l with
  | [] => Some []
  | a :: l1 =>
    if rng 0 127 a then match utf8 l1 with Some r => Some (a :: r) | None => None end
    else match l1 with
    | [] => None
    | b :: l2 =>
      if rng 194 223 a && cont b then match utf8 l2 with Some r => Some (-1 :: r) | None => None end
      else match l2 with
      | [] => None
      | c :: l3 =>
        if ((a =? 224) && rng 160 191 b || rng 225 236 a && cont b || (a =? 237) && rng 128 159 b
            || rng 238 239 a && cont b) && cont c
        then match utf8 l3 with Some r => Some (-1 :: r) | None => None end
        else match l3 with
        | [] => None
        | d :: l4 =>
          if ((a =? 240) && rng 144 191 b || rng 241 243 a && cont b || (a =? 244) && rng 128 143 b)
             && cont c && cont d
          then match utf8 l4 with Some r => Some (-1 :: r) | None => None end
          else None
        end
      end
    end
  end.
Definition alnum (c : Z) : bool := rng 48 57 c || rng 65 90 c || rng 97 122 c.
(** id.rs:50-68: non-alphanumerics become '_', at most [n] characters are kept. *)
Definition id_from (n : Z) (chars : list Z) : list Z :=
  firstn (Z.to_nat n) (map (fun c => if alnum c then c else 95) chars).

(** * One extension value *)
Definition fits_in (cap : Z) (bs : list Z) : res (option (list Z)) :=
  if cap <? zlen bs then Panic else Ok (Some bs).

(** ext.rs:624-745 Extension::write_to; [cap] is the length of the buffer. *)
Definition write_ext (x : ext) (e : extvals) (cap : Z) : res (option (list Z)) :=
  match x with
  | AbsoluteSendTime =>
      match abs_send_time e with
      | None => Ok None
      | Some t => let v := numer (rebase (from_duration t) 262144) mod U32 in
          fits_in cap (be24 v)
      end
  | AbsoluteCaptureTime =>
      match abs_capture_time e with
      | None => Ok None
      | Some (ntp, Some off) => if cap <? 16 then Ok None else fits_in cap (be64 ntp ++ be64 (off mod U64))
      | Some (ntp, None) => if cap <? 8 then Ok None else fits_in cap (be64 ntp)
      end
  | AudioLevel =>
      match audio_level e, voice_activity e with
      | Some v1, Some v2 =>
          fits_in cap [Z.lor (if v2 then 128 else 0) ((- (Z.land 127 v1)) mod 256)]
      | _, _ => Ok None
      end
  | TransmissionTimeOffset => match tx_time_offs e with None => Ok None | Some v => fits_in cap (be32 v) end
  | VideoOrientation => match video_orientation e with None => Ok None | Some v => fits_in cap [v] end
  | TransportSequenceNumber => match transport_cc e with None => Ok None | Some v => fits_in cap (be16 v) end
  | PlayoutDelay =>
      match play_delay_min e, play_delay_max e with
      | Some m1, Some m2 =>
          let mn := Z.land (numer (rebase m1 100)) 4095 in
          let mx := Z.land (numer (rebase m2 100)) 4095 in
          fits_in cap [Z.shiftr mn 4 mod 256; Z.lor (Z.shiftl mn 4 mod 256) (Z.shiftr mx 8 mod 256); mx mod 256]
      | _, _ => Ok None
      end
  | VideoContentType => match video_content_type e with None => Ok None | Some v => fits_in cap [v] end
  | VideoTiming =>
      match video_timing e with
      | None => Ok None
      | Some v => fits_in cap ([vflags v] ++ be16 (enc_start v) ++ be16 (enc_finish v) ++ be16 (pack_complete v)
                               ++ be16 (left_pacer v) ++ [0; 0; 0; 0])
      end
  | RtpStreamId => match rid e with None => Ok None | Some v => fits_in cap v end
  | RepairedRtpStreamId => match rid_repair e with None => Ok None | Some v => fits_in cap v end
  | RtpMid => match mid e with None => Ok None | Some v => fits_in cap v end
  | FrameMarking => match frame_mark e with None => Ok None | Some v => fits_in cap (be32 v) end
  | ColorSpace => Ok None
  | EUser _ => match user e with
               | None => Ok None
               | Some v => if zlen v =? 0 then Ok None else fits_in cap v
               end
  end.

(** ext.rs:747-876 Extension::parse_value.  The caller ignores the returned option, so a failed
    parse is the unchanged record. *)
Definition parse_value (E : Z) (x : ext) (b : list Z) (e : extvals) : res extvals :=
  let n := zlen b in
  match x with
  | AbsoluteSendTime =>
      if n <? 3 then Ok e else
      do b0 <- idx b 0; do b1 <- idx b 1; do b2 <- idx b 2;
      Ok (set_ast e (E + numer (rebase (mkT (rd24 b0 b1 b2) 262144) 1000000) * 1000))
  | AbsoluteCaptureTime =>
      if n <? 8 then Ok e else
      do b0 <- idx b 0; do b1 <- idx b 1; do b2 <- idx b 2; do b3 <- idx b 3;
      do b4 <- idx b 4; do b5 <- idx b 5; do b6 <- idx b 6; do b7 <- idx b 7;
      let ntp := rd32 b0 b1 b2 b3 * U32 + rd32 b4 b5 b6 b7 in
      if n <? 16 then Ok (set_act e (ntp, None)) else
      do c0 <- idx b 8; do c1 <- idx b 9; do c2 <- idx b 10; do c3 <- idx b 11;
      do c4 <- idx b 12; do c5 <- idx b 13; do c6 <- idx b 14; do c7 <- idx b 15;
      let off := rd32 c0 c1 c2 c3 * U32 + rd32 c4 c5 c6 c7 in
      Ok (set_act e (ntp, Some (if off <? 9223372036854775808 then off else off - U64)))
  | AudioLevel =>
      if n =? 0 then Ok e else
      do b0 <- idx b 0; Ok (set_audio e (- (Z.land 127 b0)) (0 <? Z.land b0 128))
  | TransmissionTimeOffset =>
      if n <? 4 then Ok e else
      do b0 <- idx b 0; do b1 <- idx b 1; do b2 <- idx b 2; do b3 <- idx b 3;
      Ok (set_txoffs e (rd32 b0 b1 b2 b3))
  | VideoOrientation => if n =? 0 then Ok e else do b0 <- idx b 0; Ok (set_orient e (Z.land b0 3))
  | TransportSequenceNumber =>
      if n <? 2 then Ok e else do b0 <- idx b 0; do b1 <- idx b 1; Ok (set_tcc e (rd16 b0 b1))
  | PlayoutDelay =>
      if n <? 3 then Ok e else
      do b0 <- idx b 0; do b1 <- idx b 1; do b2 <- idx b 2;
      Ok (set_delay e (mkT (Z.lor (Z.shiftl b0 4) (Z.shiftr b1 4)) 100)
                      (mkT (Z.lor (Z.shiftl (Z.land b1 15) 8) b2) 100))
  | VideoContentType => if n =? 0 then Ok e else do b0 <- idx b 0; Ok (set_content e b0)
  | VideoTiming =>
      if n <? 9 then Ok e else
      do b0 <- idx b 0; do b1 <- idx b 1; do b2 <- idx b 2; do b3 <- idx b 3; do b4 <- idx b 4;
      do b5 <- idx b 5; do b6 <- idx b 6; do b7 <- idx b 7; do b8 <- idx b 8;
      Ok (set_timing e (mkVT b0 (rd16 b1 b2) (rd16 b3 b4) (rd16 b5 b6) (rd16 b7 b8)))
  | RtpStreamId => match utf8 b with None => Ok e | Some s => Ok (set_rid e (id_from 8 s)) end
  | RepairedRtpStreamId => match utf8 b with None => Ok e | Some s => Ok (set_rrid e (id_from 8 s)) end
  | RtpMid => match utf8 b with None => Ok e | Some s => Ok (set_mid e (id_from 16 s)) end
  | FrameMarking =>
      if n <? 4 then Ok e else
      do b0 <- idx b 0; do b1 <- idx b 1; do b2 <- idx b 2; do b3 <- idx b 3;
      Ok (set_fm e (rd32 b0 b1 b2 b3))
  | ColorSpace => Ok e
  | EUser _ => Ok (set_user e b)
  end.

(** * The map: 16 slots, index 0 is id 1 (ext.rs:352-359).  The [locked] flag only matters to [swap]. *)
Definition MAX_ID : Z := 16.
Definition extmap : Type := list (option ext).
Inductive form := OneByte | TwoByte.

(** ext.rs:409-416 lookup *)
Definition lookup (m : extmap) (id : Z) : option ext :=
  if (1 <=? id) && (id <=? MAX_ID)
  then match nth_error m (Z.to_nat (id - 1)) with Some o => o | None => None end else None.

(** ext.rs:94-115 *)
Definition form_bytes (f : form) : list Z := match f with OneByte => [190; 222] | TwoByte => [16; 0] end.
Definition form_parse (a b : Z) : option form :=
  let v := rd16 a b in
  if v =? 48862 then Some OneByte else if Z.land v 65520 =? 4096 then Some TwoByte else None.

(** ext.rs:528-537 form *)
Definition needs_two (id : Z) (o : option ext) : bool :=
  match o with
  | None => false
  | Some (EUser two) => (14 <? id) || two
  | Some _ => 14 <? id
  end.
Fixpoint any_two (id : Z) (m : extmap) : bool :=
  match m with [] => false | o :: m' => needs_two id o || any_two (id + 1) m' end.
Definition form_of (m : extmap) : form := if any_two 1 m then TwoByte else OneByte.

(** ext.rs:469-526 parse.  [fuel] bounds the number of iterations of [loop]; running out is Panic. *)
Fixpoint parse_exts (fuel : nat) (E : Z) (m : extmap) (f : form) (buf : list Z) (e : extvals) : res extvals :=
  match fuel with
  | O => Panic
  | S fuel' =>
    if zlen buf =? 0 then Ok e
    else
      do b0 <- idx buf 0;
      if b0 =? 0 then do buf' <- from buf 1; parse_exts fuel' E m f buf' e
      else
        let value (id len : Z) (buf : list Z) : res extvals :=
          if zlen buf <? len then Ok e
          else
            do eb <- upto buf len;
            do e' <- match lookup m id with Some x => parse_value E x eb e | None => Ok e end;
            do buf' <- from buf len;
            parse_exts fuel' E m f buf' e' in
        match f with
        | OneByte =>
            let id := Z.shiftr b0 4 in
            let len := Z.land b0 15 + 1 in
            do buf' <- from buf 1;
            if id =? 15 then Ok e else value id len buf'
        | TwoByte =>
            if zlen buf <? 2 then Ok e
            else do id <- idx buf 0; do len <- idx buf 1; do buf' <- from buf 2; value id len buf'
        end
  end.

(** ext.rs:539-571 write_to: the loop from slot [id - 1] on, [cap] bytes of buffer left. *)
Fixpoint write_exts (id : Z) (m : extmap) (e : extvals) (f : form) (cap : Z) : res (list Z) :=
  match m with
  | [] => Ok []
  | None :: m' => write_exts (id + 1) m' e f cap
  | Some x :: m' =>
      match f with
      | OneByte =>
          if cap <? 1 then Panic
          else do w <- write_ext x e (cap - 1);
               match w with
               | None => write_exts (id + 1) m' e f cap
               | Some bs =>
                   let n := zlen bs in
                   if (16 <? n) || (n <? 1) then Panic
                   else do r <- write_exts (id + 1) m' e f (cap - 1 - n);
                        Ok (Z.lor (Z.shiftl id 4 mod 256) (n - 1) :: bs ++ r)
               end
      | TwoByte =>
          if cap <? 2 then Panic
          else do w <- write_ext x e (cap - 2);
               match w with
               | None => write_exts (id + 1) m' e f cap
               | Some bs =>
                   do r <- write_exts (id + 1) m' e f (cap - 2 - zlen bs);
                   Ok (id mod 256 :: zlen bs mod 256 :: bs ++ r)
               end
      end
  end.

(** ext.rs:926-952 update_absolute_send_time.  The Instant never underflows. *)
Definition update_ast (E now v : Z) : res Z :=
  let rel := v - E in
  if 64000000000 <? rel then Panic
  else
    let closest := Z.max 0 (now - ((now / 1000) mod 64000000) * 1000) in
    let since_beginning := Z.max 0 (closest - E) in
    let offset := E + since_beginning in
    let offset := if now <? offset + rel then offset - 64000000000 else offset in
    Ok (offset + rel).

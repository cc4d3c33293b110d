(** Model of src/packet/h264.rs. *)
From Verif Require Import Base Vp8Model.

(** h264.rs:28-46 *)
Definition nal_type (b : Z) : Z := Z.land b 31.
Definition nal_ref (b : Z) : Z := Z.land b 96.
Definition start_code : list Z := [0; 0; 0; 1].

(** h264.rs:106-119 next_ind: [scan] is the loop over [nalu[start..]], [i] the enumeration index;
    [None] is (-1, -1).  Start beyond the end would panic; callers pass start <= length. *)
Fixpoint scan (start : Z) (l : list Z) (i zero_count : Z) : option (Z * Z) :=
  match l with
  | [] => None
  | b :: r => if b =? 0 then scan start r (i + 1) (zero_count + 1)
              else if (b =? 1) && (2 <=? zero_count) then Some (start + i - zero_count, zero_count + 1)
              else scan start r (i + 1) 0
  end.
Definition next_ind (nalu : list Z) (start : Z) : res (option (Z * Z)) :=
  do l <- from nalu start; Ok (scan start l 0 0).

(** h264.rs:23-26 *)
Record h264p := mkHp { sps : option (list Z); pps : option (list Z) }.

(** h264.rs:178-224: the FU-A fragments of a NAL unit.  The first fragment cannot carry the end bit. *)
Definition fua (mtu : Z) (b0 : Z) (data : list Z) : list (list Z) :=
  if Z.min (mtu - 2) (zlen data) <=? 0 then []
  else map (fun '(first, last, d) =>
              Z.lor 28 (nal_ref b0) :: (if first : bool then Z.lor (nal_type b0) 128 else if last : bool then Z.lor (nal_type b0) 64 else nal_type b0) :: d)
           (frags (mtu - 2) data).
(** h264.rs:139-147; lengths are truncated to 16 bits *)
Definition stap_a (s p : list Z) : list Z := [120] ++ be16 (zlen s mod U16) ++ s ++ be16 (zlen p mod U16) ++ p.
(** h264.rs:121-225 emit *)
Definition emit (st : h264p) (nalu : list Z) (mtu : Z) : h264p * list (list Z) :=
  match nalu with
  | [] => (st, [])
  | b0 :: data =>
    let t := nal_type b0 in
    if (t =? 9) || (t =? 12) then (st, [])
    else if t =? 7 then (mkHp (Some nalu) (pps st), [])
    else if t =? 8 then (mkHp (sps st) (Some nalu), [])
    else
      let '(st, stap) := match sps st, pps st with
                         | Some s, Some p => (mkHp None None, if zlen (stap_a s p) <=? mtu then [stap_a s p] else [])
                         | _, _ => (st, [])
                         end in
      (st, stap ++ if zlen nalu <=? mtu then [nalu] else fua mtu b0 data)
  end.
(** h264.rs:241-257; [fuel] is the payload length: every round moves past a start code *)
Fixpoint emit_loop (fuel : nat) (st : h264p) (payload : list Z) (mtu : Z) (ind : option (Z * Z)) : res (h264p * list (list Z)) :=
  match fuel, ind with
  | S fuel, Some (s, n) =>
      let prev_start := s + n in
      do ind' <- next_ind payload prev_start;
      do nalu <- match ind' with Some (s', _) => slice payload prev_start s' | None => from payload prev_start end;
      let '(st', ps) := emit st nalu mtu in
      do r <- emit_loop fuel st' payload mtu ind';
      Ok (fst r, ps ++ snd r)
  | _, _ => Ok (st, [])
  end.
(** h264.rs:230-261 packetize *)
Definition h264_packetize (st : h264p) (mtu : Z) (payload : list Z) : res (h264p * list (list Z)) :=
  if (zlen payload =? 0) || (mtu =? 0) then Ok (st, [])
  else do ind <- next_ind payload 0;
       match ind with
       | None => Ok (emit st payload mtu)
       | Some _ => emit_loop (S (length payload)) st payload mtu ind
       end.

(** h264.rs:275-279; the codec extra is the key frame flag, [None] when not yet set *)
Record h264d := mkHd { is_avc : bool; fua_buffer : option (list Z) }.
(** h264.rs:307-312 and twice more *)
Definition mark_key (t : Z) (x : option bool) : option bool :=
  Some (match x with Some k => (t =? 5) || k | None => t =? 5 end).
(** h264.rs:314-318 *)
Definition prefix (avc : bool) (n : Z) : list Z := if avc then be32 (n mod U32) else start_code.
(** h264.rs:323-354; [r] is packet[curr_offset..]; [None] the size error.  The size error leaves
    [out] and [extra] as far as they got; the caller discards them (buffer_rx.rs). *)
Fixpoint stap_loop (fuel : nat) (avc : bool) (r out : list Z) (x : option bool) : option (list Z * option bool) :=
  match fuel, r with
  | S fuel, hi :: lo :: r =>
      let n := Z.lor (Z.shiftl hi 8) lo in
      if zlen r <? n then None
      else match r with
           | [] => stap_loop fuel avc r out x
           | b0 :: _ => stap_loop fuel avc (skipn (Z.to_nat n) r) (out ++ prefix avc n ++ firstn (Z.to_nat n) r) (mark_key (nal_type b0) x)
           end
  | _, _ => Some (out, x)
  end.
(** h264.rs:290-400 depacketize *)
Definition h264_depacketize (s : h264d) (packet out : list Z) (x : option bool) : h264d * option (list Z * option bool) :=
  match packet with
  | [] => (s, None)
  | b0 :: r =>
    let t := nal_type b0 in
    if (1 <=? t) && (t <=? 23) then (s, Some (out ++ prefix (is_avc s) (zlen packet) ++ packet, mark_key t x))
    else if t =? 24 then (s, stap_loop (S (length r)) (is_avc s) r out x)
    else if t =? 28 then
      match r with
      | [] => (s, None)
      | b1 :: d =>
        let buf := (match fua_buffer s with Some b => b | None => [] end) ++ d in
        if bit b1 64 then
          (mkHd (is_avc s) None, Some (out ++ prefix (is_avc s) (zlen buf + 1) ++ [Z.lor (nal_ref b0) (nal_type b1)] ++ buf, mark_key (nal_type b1) x))
        else (mkHd (is_avc s) (Some buf), Some (out, x))
      end
    else (s, None)
  end.
(** h264.rs:403-419 *)
Definition h264_head (packet : list Z) : bool :=
  match packet with
  | b0 :: b1 :: _ => if (nal_type b0 =? 28) || (nal_type b0 =? 29) then bit b1 128 else true
  | _ => false
  end.
(** h264.rs:71-85 *)
Fixpoint stap_key (fuel : nat) (r : list Z) : bool :=
  match fuel, r with
  | S fuel, hi :: lo :: r =>
      let n := Z.lor (Z.shiftl hi 8) lo in
      if zlen r <? n then false
      else (match r with b0 :: _ => nal_type b0 =? 5 | [] => false end) || stap_key fuel (skipn (Z.to_nat n) r)
  | _, _ => false
  end.
(** h264.rs:58-103 *)
Definition detect_h264_keyframe (payload : list Z) : bool :=
  match payload with
  | [] => false
  | b0 :: r =>
    let t := nal_type b0 in
    if (1 <=? t) && (t <=? 23) then t =? 5
    else if t =? 24 then stap_key (S (length r)) r
    else if t =? 28 then match r with [] => false | b1 :: _ => bit b1 128 && (nal_type b1 =? 5) end
    else false
  end.

(** Model of the simple packetizers and of VP8: src/packet/{opus,g7xx,comfort_noise,null,vp8}.rs.

    The fragment loops keep an index and a remaining count into the frame; here the remaining
    bytes themselves are the loop variable, and [fuel] (the frame length) bounds the loop. *)
From Verif Require Import Base SeqModel.

(** The loop shared by all packetizers: fragments of at most [max] bytes, each with "is first" and "is last".
    opus.rs:20-25, g7xx.rs:19-30, vp8.rs:510-544, vp9.rs:287-340, h264.rs:188-224. *)
Fixpoint frags_ (fuel : nat) (max : Z) (first : bool) (l : list Z) : list (bool * bool * list Z) :=
  match fuel with
  | O => []
  | S fuel =>
      if zlen l <=? 0 then []
      else let n := Z.min max (zlen l) in
           (first, zlen l =? n, firstn (Z.to_nat n) l) :: frags_ fuel max false (skipn (Z.to_nat n) l)
  end.
Definition frags (max : Z) (l : list Z) : list (bool * bool * list Z) := frags_ (length l) max true l.

(** opus.rs:13-28, g7xx.rs:14-33 *)
Definition plain_packetize (mtu : Z) (payload : list Z) : list (list Z) :=
  if (zlen payload =? 0) || (mtu =? 0) then [] else map snd (frags mtu payload).
(** opus.rs:50-61, g7xx.rs:49-60, null.rs:24-32: append, never an error. *)
Definition plain_depacketize (out packet : list Z) : option (list Z) := Some (out ++ packet).
(** comfort_noise.rs:10-20, 32-44 *)
Definition noise_packetize (mtu : Z) (payload : list Z) : res (list (list Z)) :=
  if zlen payload =? 0 then Ok [] else if mtu <? zlen payload then Err else Ok [payload].
Definition noise_depacketize (out packet : list Z) : option (list Z) :=
  if zlen packet =? 0 then None else Some (out ++ packet).

(** * VP8 *)
Definition bit (b m : Z) : bool := negb (Z.land b m =? 0).

(** vp8.rs:458-461; [enable] is false by default, [picture_id] is 15 bits *)
Record vp8p := mkVp { enable_picture_id : bool; picture_id : Z }.
(** vp8.rs:490-498 *)
Definition header_size (p : vp8p) : Z :=
  if enable_picture_id p then if picture_id p <? 128 then 3 else 4 else 1.
(** vp8.rs:515-535 *)
Definition vp8_header (p : vp8p) (first : bool) : list Z :=
  let b0 := if first then 16 else 0 in
  if enable_picture_id p then
    if picture_id p <? 128 then [Z.lor b0 128; 128; Z.land (picture_id p) 127]
    else [Z.lor b0 128; 128; Z.lor 128 (Z.land (Z.shiftr (picture_id p) 8) 127); Z.land (picture_id p) 255]
  else [b0].
(** vp8.rs:465-550 *)
Definition vp8_packetize (p : vp8p) (mtu : Z) (payload : list Z) : vp8p * list (list Z) :=
  if (zlen payload =? 0) || (mtu =? 0) then (p, [])
  else if Z.min (mtu - header_size p) (zlen payload) <=? 0 then (p, [])
  else (mkVp (enable_picture_id p) (Z.land (picture_id p + 1) 32767),
        map (fun '(first, _, d) => vp8_header p first ++ d) (frags (mtu - header_size p) payload)).

(** vp8.rs:376-394 *)
Record vp8x := mkX { discardable : bool; sync : bool; layer_index : Z; x_pid : option Z; x_tl0 : option Z; x_key : bool }.
(** vp8.rs:564-606: what survives from one packet to the next and is read. *)
Record vp8d := mkD { ext_pid : option Z; ext_tl0 : option Z; tid : Z; y : Z }.
Definition vp8d0 : vp8d := mkD None None 0 0.

(** vp8.rs:615-773 depacketize.  [None] stands for a returned error; the state keeps what was
    updated before the error.  Reading past the end ([get_u8] = None) is an error. *)
Definition vp8_depacketize (s : vp8d) (packet out : list Z) (extra : option vp8x) : vp8d * option (list Z * vp8x) :=
  match packet with
  | [] => (s, None)
  | b0 :: r =>
    (* 646-670 *)
    match (if bit b0 128 then
             match r with
             | [] => None
             | e :: r' => if bit e 64 && negb (bit e 32) then None else Some (bit e 128, bit e 64, bit e 32, bit e 16, r')
             end
           else Some (false, false, false, false, r)) with
    | None => (s, None)
    | Some (i, l, t, k, r) =>
      (* 672-686 *)
      match (if i then
               match r with
               | [] => None
               | b :: r' =>
                   if bit b 128 then
                     match r' with
                     | [] => None
                     | x :: r'' => Some (Some (extend_u15 (ext_pid s) (Z.lor (Z.shiftl (Z.land b 127) 8) x)), r'')
                     end
                   else Some (Some (extend_u7 (ext_pid s) b), r')
               end
             else Some (ext_pid s, r)) with
      | None => (s, None)
      | Some (pid, r) =>
        let s1 := mkD pid (ext_tl0 s) (tid s) (y s) in
        (* 688-697 *)
        match r with
        | [] => (s1, None)
        | t0 :: r1 =>
          let s2 := if l then mkD pid (Some (extend_u8 (ext_tl0 s) t0)) (tid s) (y s) else s1 in
          let r := if l then r1 else r in
          (* 699-713 *)
          match r with
          | [] => (s2, None)
          | tk :: r2 =>
            let s3 := if t then mkD (ext_pid s2) (ext_tl0 s2) (Z.shiftr tk 6) (Z.land (Z.shiftr tk 5) 1) else s2 in
            let r := if t || k then r2 else r in
            (* 715-719 *)
            match r with
            | [] => (s3, None)
            | h :: _ =>
                (* 743-768 *)
                let p0 := bit b0 16 && (Z.land b0 7 =? 0) && (Z.land h 1 =? 0) in
                (s3, Some (out ++ r,
                   mkX (bit b0 32) (y s3 =? 1) (tid s3) (if i then ext_pid s3 else None) (if l then ext_tl0 s3 else None)
                       (match extra with Some e => x_key e || p0 | None => p0 end)))
            end
          end
        end
      end
    end
  end.
(** vp8.rs:776-786 *)
Definition vp8_head (payload : list Z) : bool := match payload with [] => false | b :: _ => bit b 16 end.
Definition vp8_tail (marker : bool) (payload : list Z) : bool := marker.

(** * The payload descriptor, for forwarding *)
(** vp8.rs:218-237: a field is its value and offset *)
Record desc := mkDesc { payload_offset : Z; d_pid : option (Z * Z * bool); d_tl0 : option (Z * Z); d_key : option (Z * Z) }.
(** vp8.rs:366-372 *)
Definition rd_byte (payload : list Z) (off : Z) : option Z := nth_error payload (Z.to_nat off).
(** vp8.rs:250-311 Vp8Descriptor::parse *)
Definition desc_parse (payload : list Z) : option desc :=
  match payload with
  | [] => None
  | required :: _ =>
    match
      (if bit required 128 then
        match rd_byte payload 1 with
        | None => None
        | Some e =>
          if bit e 64 && negb (bit e 32) then None else
          match (if bit e 128 then
                   match rd_byte payload 2 with
                   | None => None
                   | Some b =>
                       if bit b 128 then
                         match rd_byte payload 3 with
                         | None => None
                         | Some lo => Some (Some (Z.lor (Z.shiftl (Z.land b 127) 8) lo, 2, true), 4)
                         end
                       else Some (Some (Z.land b 127, 2, false), 3)
                   end
                 else Some (None, 2)) with
          | None => None
          | Some (pid, off) =>
            match (if bit e 64 then match rd_byte payload off with None => None | Some v => Some (Some (v, off), off + 1) end
                   else Some (None, off)) with
            | None => None
            | Some (tl0, off) =>
              match (if bit e 32 || bit e 16 then
                       match rd_byte payload off with None => None | Some v => Some (if bit e 16 then Some (v, off) else None, off + 1) end
                     else Some (None, off)) with
              | None => None
              | Some (key, off) => Some (mkDesc off pid tl0 key)
              end
            end
          end
        end
      else Some (mkDesc 1 None None None)) with
    | None => None
    | Some d => if zlen payload <=? payload_offset d then None else Some d
    end
  end.

(** vp8.rs:21-60: a patch is a list of (offset, byte); [copy_to] writes each, panicking out of range. *)
Fixpoint copy_to (patch : list (Z * Z)) (dst : list Z) : res (list Z) :=
  match patch with
  | [] => Ok dst
  | (o, b) :: p => if zlen dst <=? o then Panic else copy_to p (lset dst (Z.to_nat o) b)
  end.
(** vp8.rs:168-210 build.  Offsets are stored as u8. *)
Definition build (d : desc) (pid tl0 key : option Z) : option (list (Z * Z)) :=
  match (match pid with
         | None => Some []
         | Some v => match d_pid d with
                     | None => None
                     | Some (_, off, wide) =>
                         if 32767 <? v then None
                         else if negb wide && (127 <? v) then None
                         else Some (if wide then [(off mod U8, Z.lor 128 (Z.land (Z.shiftr v 8) 127)); ((off + 1) mod U8, v mod U8)]
                                    else [(off mod U8, v mod U8)])
                     end
         end) with
  | None => None
  | Some p1 =>
    match (match tl0 with
           | None => Some []
           | Some v => match d_tl0 d with None => None | Some (_, off) => Some [(off mod U8, v)] end
           end) with
    | None => None
    | Some p2 =>
      match (match key with
             | None => Some []
             | Some v => match d_key d with
                         | None => None
                         | Some (old, off) => if 31 <? v then None else Some [(off mod U8, Z.lor (Z.land old 224) v)]
                         end
             end) with
      | None => None
      | Some p3 => Some (p1 ++ p2 ++ p3)
      end
    end
  end.
(** vp8.rs:341-353 *)
Definition starts_keyframe (d : desc) (payload : list Z) : bool :=
  match payload with
  | [] => false
  | r :: _ => if negb (bit r 16) || negb (Z.land r 7 =? 0) then false
              else match rd_byte payload (payload_offset d) with Some h => Z.land h 1 =? 0 | None => false end
  end.
(** vp8.rs:403-449 *)
Definition detect_vp8_keyframe (payload : list Z) : bool :=
  match payload with
  | [] => false
  | b0 :: _ =>
    if negb (bit b0 16) || negb (Z.land b0 7 =? 0) then false
    else match (if bit b0 128 then
                  match rd_byte payload 1 with
                  | None => None
                  | Some e =>
                    match (if bit e 128 then match rd_byte payload 2 with None => None | Some b => Some (if bit b 128 then 4 else 3) end
                           else Some 2) with
                    | None => None
                    | Some i => let i := if bit e 64 then i + 1 else i in
                                Some (if bit e 32 || bit e 16 then i + 1 else i)
                    end
                  end
                else Some 1) with
         | None => false
         | Some i => match rd_byte payload i with Some h => Z.land h 1 =? 0 | None => false end
         end
  end.

(** Model of AV1: src/packet/av1.rs.

    The reader (packet/mod.rs:180-280, byte aligned) is the list of unread bytes.  The re-used buffers
    [obus], [packets], [parsed_obus] are overwritten from the start before they are read, so they are results here, not state.
    Subtraction below zero, indexing out of range and writing past the end of a buffer are [Panic].
    Sizes are Rust's usize; a slice is shorter than 2^63 bytes. *)
From Verif Require Import Base Vp8Model.

Definition sub (a b : Z) : res Z := if a <? b then Panic else Ok (a - b).

(** ** LEB128 *)
(** av1.rs:573-582 leb_128_size; a usize takes at most ten rounds *)
Fixpoint leb_size_ (fuel : nat) (v : Z) : Z :=
  match fuel with O => 0 | S fuel => if v <? 128 then 1 else 1 + leb_size_ fuel (Z.shiftr v 7) end.
Definition leb_size (v : Z) : Z := leb_size_ 10 v.
(** vla.rs:404-420 encode_leb_u63: the bytes written *)
Fixpoint leb_ (fuel : nat) (v : Z) : list Z :=
  match fuel with O => [] | S fuel => if v <? 128 then [v] else Z.lor (Z.land v 127) 128 :: leb_ fuel (Z.shiftr v 7) end.
Definition leb (v : Z) : list Z := leb_ 10 v.
(** packet/mod.rs:247-264 get_leb128: at most ten bytes, the value kept in 64 bits *)
Fixpoint get_leb_ (fuel : nat) (i acc : Z) (l : list Z) : option (Z * list Z) :=
  match fuel with
  | O => None
  | S fuel =>
      match l with
      | [] => None
      | b :: r =>
          let acc := Z.lor acc (Z.shiftl (Z.land b 127) i mod 2 ^ 64) in
          if b <? 128 then Some (acc, r) else get_leb_ fuel (i + 7) acc r
      end
  end.
Definition get_leb (l : list Z) : option (Z * list Z) := get_leb_ 10 0 0 l.

(** ** OBUs *)
(** av1.rs:504-510; the size is that of header, extension and payload (av1.rs:609-640) *)
Record obu := mkO { o_header : Z; o_ext : Z; o_payload : list Z }.
Definition has_ext (o : obu) : bool := bit (o_header o) 4.
Definition o_size (o : obu) : Z := 1 + (if has_ext o then 1 else 0) + zlen (o_payload o).
(** av1.rs:512-536 obu_type *)
Definition obu_type (h : Z) : Z := Z.shiftr (Z.land h 120) 3.
(** av1.rs:476-501 include_in_packetization, and unknown types are left out by parse_obus (av1.rs:634-638) *)
Definition kept (h : Z) : bool := existsb (Z.eqb (obu_type h)) [1; 3; 4; 5; 6; 7].

(** av1.rs:597-640 parse_obus *)
Fixpoint parse_obus_ (fuel : nat) (l : list Z) : res (list obu) :=
  match fuel with
  | O => Ok []
  | S fuel =>
      match l with
      | [] => Ok []
      | h :: r =>
          match (if bit h 4 then match r with [] => None | x :: r => Some (x, r) end else Some (0, r)) with
          | None => Err
          | Some (x, r) =>
              match (if bit h 2 then
                       match get_leb r with
                       | None => None
                       | Some (n, r) => if zlen r <? n then None else Some (firstn (Z.to_nat n) r, skipn (Z.to_nat n) r)
                       end
                     else Some (r, [])) with
              | None => Err
              | Some (pl, r) =>
                  do os <- parse_obus_ fuel r ;
                  Ok (if kept h then mkO h x pl :: os else os)
              end
          end
      end
  end.
Definition parse_obus (l : list Z) : res (list obu) := parse_obus_ (length l) l.

(** ** Packetizer *)
(** av1.rs:538-561 Packet *)
Record pkt := mkPk { first_obu : Z; num : Z; first_off : Z; last_size : Z; psize : Z }.
Definition pk_new (i : Z) : pkt := mkPk i 0 0 0 0.
(** av1.rs:250-260 extra_size_for_previous_obu *)
Definition extra_size (p : pkt) : Z := if psize p =? 0 then 0 else if 3 <? num p then 0 else leb_size (last_size p).
(** av1.rs:265-277 max_fragment_size; [1 << 70] overflows *)
Fixpoint max_frag_ (fuel : nat) (size idx : Z) : res Z :=
  match fuel with
  | O => Panic
  | S fuel => if size <? 2 ^ (7 * idx) + 1 then sub size idx else max_frag_ fuel size (idx + 1)
  end.
Definition max_frag (size : Z) : res Z := if size <=? 1 then Ok 0 else max_frag_ 9 size 1.

(** av1.rs:114-125: the middle fragments; at most [size] of them *)
Fixpoint middles (fuel : nat) (max size idx : Z) (ps : list pkt) (cur : pkt) (off : Z) : res (list pkt * pkt * Z) :=
  if off + max <? size then
    match fuel with
    | O => Panic
    | S fuel => middles fuel max size idx (ps ++ [cur]) (mkPk idx 1 off max max) (off + max)
    end
  else Ok (ps, cur, off).
(** av1.rs:60-137: one OBU of the given size *)
Definition emit_step (max : Z) (st : list pkt * pkt * Z) (idx size : Z) : res (list pkt * pkt * Z) :=
  let '(ps, cur, rem) := st in
  let prev := extra_size cur in
  let minr := if 3 <=? num cur then 2 else 1 in
  let '(ps, cur, rem, prev) := if rem <? prev + minr then (ps ++ [cur], pk_new idx, max, 0) else (ps, cur, rem, prev) in
  let cur := mkPk (first_obu cur) (num cur + 1) (first_off cur) (last_size cur) (psize cur + prev) in
  do rem <- sub rem prev ;
  let must := 3 <? num cur in
  let req := size + (if must then leb_size size else 0) in
  if req <=? rem then Ok (ps, mkPk (first_obu cur) (num cur) (first_off cur) size (psize cur + req), rem - req)
  else
    do first <- (if must then max_frag rem else Ok rem) ;
    do cur <- (if first =? 0 then do s <- sub (psize cur) prev ; Ok (mkPk (first_obu cur) (num cur - 1) (first_off cur) (last_size cur) s)
               else Ok (mkPk (first_obu cur) (num cur) (first_off cur) first (psize cur + first + (if must then leb_size first else 0)))) ;
    do (ps, cur, off) <- middles (Z.to_nat size) max size idx ps cur first ;
    do ls <- sub size off ;
    do rem <- sub max ls ;
    Ok (ps ++ [cur], mkPk idx 1 off ls ls, rem).
Fixpoint emit_loop (max : Z) (st : list pkt * pkt * Z) (idx : Z) (sizes : list Z) : res (list pkt * pkt * Z) :=
  match sizes with
  | [] => Ok st
  | s :: sizes => do st <- emit_step max st idx s ; emit_loop max st (idx + 1) sizes
  end.

(** av1.rs:206-241 aggregation_header *)
Definition agg_header (p : pkt) (obus : list obu) (is_first : bool) : res Z :=
  match nth_error obus (Z.to_nat (first_obu p + num p - 1)), obus with
  | Some o, o0 :: _ =>
      let last_off := if num p =? 1 then first_off p else 0 in
      let a := if 0 <? first_off p then 128 else 0 in
      let a := if last_off + last_size p <? o_size o then Z.lor a 64 else a in
      let a := if num p <=? 3 then Z.lor a (Z.shiftl (num p) 4) else a in
      Ok (if (obu_type (o_header o0) =? 1) && is_first then Z.lor a 8 else a)
  | _, _ => Panic
  end.
(** av1.rs:155-184: all elements but the last *)
Fixpoint write_init (obus : list obu) (n : nat) (i off : Z) : res (list Z) :=
  match n with
  | O => Ok []
  | S n =>
      match nth_error obus (Z.to_nat i) with
      | None => Panic
      | Some o =>
          do fs <- sub (o_size o) off ;
          let po := Z.max 0 (off - (if has_ext o then 2 else 1)) in
          do _ <- sub (zlen (o_payload o)) po ;
          do r <- write_init obus n (i + 1) 0 ;
          Ok (leb fs ++ (if off =? 0 then [Z.land (o_header o) 253] else []) ++ (if (off <=? 1) && has_ext o then [o_ext o] else [])
              ++ skipn (Z.to_nat po) (o_payload o) ++ r)
      end
  end.
(** av1.rs:186-201: the last element *)
Definition write_last (obus : list obu) (p : pkt) (off : Z) : res (list Z) :=
  match nth_error obus (Z.to_nat (first_obu p + num p - 1)) with
  | None => Panic
  | Some o =>
      let fs := last_size p in
      let head := (off =? 0) && (0 <? fs) in
      let fs1 := if head then fs - 1 else fs in
      let ex := (off <=? 1) && has_ext o && (0 <? fs1) in
      let fs2 := if ex then fs1 - 1 else fs1 in
      let po := Z.max 0 (off - (if has_ext o then 2 else 1)) in
      if zlen (o_payload o) <? po + fs2 then Panic
      else Ok ((if 3 <? num p then leb fs else []) ++ (if head then [Z.land (o_header o) 253] else []) ++ (if ex then [o_ext o] else [])
               ++ firstn (Z.to_nat fs2) (skipn (Z.to_nat po) (o_payload o)))
  end.
(** av1.rs:143-204 write_rtp_payloads, one packet.  The buffer has [1 + packet_size] zero bytes, written from the front. *)
Definition write_packet (obus : list obu) (p : pkt) (is_first : bool) : res (list Z) :=
  if num p =? 0 then Panic
  else
    do a <- agg_header p obus is_first ;
    do b <- write_init obus (Z.to_nat (num p - 1)) (first_obu p) (first_off p) ;
    do c <- write_last obus p (if num p =? 1 then first_off p else 0) ;
    let body := b ++ c in
    if psize p <? zlen body then Panic
    else Ok (a :: body ++ repeat 0 (Z.to_nat (psize p - zlen body))).
Fixpoint write_all (obus : list obu) (ps : list pkt) (is_first : bool) : res (list (list Z)) :=
  match ps with
  | [] => Ok []
  | p :: ps => do x <- write_packet obus p is_first ; do xs <- write_all obus ps false ; Ok (x :: xs)
  end.
(** av1.rs:42-141 emit *)
Definition emit (mtu : Z) (obus : list obu) : res (list (list Z)) :=
  match obus with
  | [] => Ok []
  | _ => do max <- sub mtu 1 ;
         do (ps, cur, _) <- emit_loop max ([], pk_new 0, max) 0 (map o_size obus) ;
         write_all obus (ps ++ [cur]) true
  end.
(** av1.rs:281-291 packetize *)
Definition av1_packetize (mtu : Z) (payload : list Z) : res (list (list Z)) :=
  if (zlen payload =? 0) || (mtu <=? 1) then Ok [] else do obus <- parse_obus payload ; emit mtu obus.

(** ** Depacketizer *)
(** av1.rs:299-319: the OBU being put together; the flags are set anew from each packet *)
Record avd := mkAv { ob : list Z; olen : Z }.
Definition avd0 : avd := mkAv [] 0.
(** av1.rs:372-455: the loop over the elements of a packet; [idx] is obu_idx.
    Every round reads at least one byte.  The state comes back with an error too. *)
Fixpoint av1_loop (fuel : nat) (z y : bool) (count idx : Z) (s : avd) (r out : list Z) : avd * res (list Z) :=
  match fuel with
  | O => (s, Ok out)
  | S fuel =>
      match r with
      | [] => (s, Ok out)
      | _ =>
          let last := negb (count =? 0) && (idx =? count - 1) in
          match (if (count =? 0) || negb last then
                   match get_leb r with
                   | None => None
                   | Some (n, r) => Some (n, (if (count =? 0) && (n =? zlen r) then true else last), r)
                   end
                 else Some (zlen r, last, r)) with
          | None => (s, Err)
          | Some (n, last, r) =>
              if n =? 0 then (s, Err)
              else if zlen r <? n then (s, Err)
              else
                let el := firstn (Z.to_nat n) r in
                let r := skipn (Z.to_nat n) r in
                if (idx =? 0) && z && (zlen (ob s) =? 0) then av1_loop fuel z y count 1 s r out
                else
                  let s := mkAv (ob s ++ el) (olen s + n) in
                  if last && y then (s, Ok out)
                  else
                    match parse_obus (ob s) with
                    | Panic => (s, Panic)
                    | Err => (s, Err)
                    | Ok [] => av1_loop fuel z y count (idx + 1) avd0 r out
                    | Ok (o :: _) =>
                        let h := Z.lor (o_header o) 2 in
                        let l := Z.max 0 (olen s - 1) in
                        let l := if has_ext o then Z.max 0 (l - 1) else l in
                        let out := out ++ [h] ++ (if has_ext o then [o_ext o] else []) ++ (if bit (o_header o) 2 then [] else leb l) in
                        if zlen (ob s) <? l then (mkAv (ob s) l, Err)
                        else
                          let out := out ++ skipn (Z.to_nat (zlen (ob s) - l)) (ob s) in
                          if last then (avd0, Ok out) else av1_loop fuel z y count (idx + 1) avd0 r out
                    end
          end
      end
  end.
(** av1.rs:334-458 depacketize.  [key] is [Some k] for AV1 codec information.  Output written before an error is dropped with the frame. *)
Definition av1_depacketize (s : avd) (packet out : list Z) (key : option bool) : avd * res (list Z * bool) :=
  match packet with
  | [] => (s, Err)
  | a :: r =>
      let z := bit a 128 in
      let y := bit a 64 in
      let count := Z.shiftr (Z.land a 48) 4 in
      let n := bit a 8 in
      let s := if negb z || n then avd0 else s in
      let k := n || match key with Some k => k | None => false end in
      match av1_loop (length r) z y count 0 s r out with
      | (s, Ok out) => (s, Ok (out, k))
      | (s, Err) => (s, Err)
      | (s, Panic) => (s, Panic)
      end
  end.
(** av1.rs:460-468 is_partition_head *)
Definition av1_head (payload : list Z) : bool := match payload with [] => false | a :: _ => negb (bit a 128) end.
(** av1.rs:9-23 detect_av1_keyframe *)
Definition av1_keyframe (payload : list Z) : bool := match payload with [] => false | a :: _ => bit a 8 end.

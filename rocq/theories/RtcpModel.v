(** Model of the RTCP codec and packer (/repo/src/rtp/rtcp/*.rs).

    A [ReportList] is a [list] here; RlistProps.v (C22) shows that every
    operation used below acts on the 31-slot array exactly as on that list.
    Wall-clock times (NTP) are the 64-bit value on the wire: the conversion to
    [SystemTime] is not modelled.  The REMB bitrate (an f32) is represented by
    its integer part. *)
From Verif Require Import Base TwccModel.

(** rr.rs:14-25 [ReceptionReport] *)
Record rr := RR { r_ssrc : Z; r_frac : Z; r_lost : Z; r_max : Z; r_jit : Z; r_lsr : Z; r_dlsr : Z }.
(** sr.rs:24-36 [SenderInfo] *)
Record sinfo := SI { s_ssrc : Z; s_ntp : Z; s_rtp : Z; s_pkts : Z; s_octs : Z }.
(** xr.rs:81-86 [DlrrItem], 32-35 [ReportBlock] *)
Record dlrr := DL { d_ssrc : Z; d_last : Z; d_delay : Z }.
Inductive xblock := Rrtr (ntp : Z) | Dlrr (items : list dlrr).
(** sdes.rs:22-51 [SdesType] by number; Unknown is 14 (13 + 1, the implicit
    discriminant after RepairedRtpStreamId) *)
Definition SD_END : Z := 0.
Definition SD_UNKNOWN : Z := 14.
(** sdes.rs:140-158 *)
Definition sdes_type (v : Z) : Z :=
  if (0 <=? v) && (v <=? 8) then v else if (v =? 12) || (v =? 13) then v else SD_UNKNOWN.
(** sdes.rs:17-20 [Sdes] *)
Record sdes := SDES { sd_ssrc : Z; sd_vals : list (Z * list Z) }.
(** nack.rs:21-24, fir.rs:15-20 *)
Record nentry := NE { ne_pid : Z; ne_blp : Z }.
Record fentry := FE { fe_ssrc : Z; fe_seq : Z }.

(** mod.rs:70-96 [Rtcp] *)
Inductive rtcp :=
| Sr (info : sinfo) (reports : list rr)
| Rr (ssrc : Z) (reports : list rr)
| Xr (ssrc : Z) (blocks : list xblock)
| Sdes (reports : list sdes)
| Bye (reports : list Z)
| Nack (sender ssrc : Z) (reports : list nentry)
| Pli (sender ssrc : Z)
| Fir (sender : Z) (reports : list fentry)
| Tw (t : twcc)
| Remb (sender bitrate : Z) (ssrcs : list Z)
| App (sender media : Z) (payload : list Z).

(** ** Lengths in words *)
Definition sumz (l : list Z) : Z := fold_right Z.add 0 l.
(** sdes.rs:123-138 [word_size]; mod.rs:477-480 [pad_bytes_to_word] *)
Definition sdes_size (s : sdes) : Z :=
  let n := 4 + sumz (map (fun v => 2 + zlen (snd v)) (sd_vals s)) + 1 in
  let pad := 4 - n mod 4 in
  (if pad =? 4 then n else n + pad) / 4.
(** xr.rs:121-128, 146-148, 176-178: bytes *)
Definition xblock_len (b : xblock) : Z :=
  match b with Rrtr _ => 12 | Dlrr items => 4 + zlen items * 4 * 3 end.
(** mod.rs:377-391 and the [length_words] of each type: sr.rs:47-52, rr.rs:36-41,
    xr.rs:97-102, sdes.rs:62-66, bb.rs:19-22, nack.rs:35-41, pli.rs:24-29,
    fir.rs:33-39, remb.rs:66-71, psfbapp.rs:34-38 *)
Definition words (p : rtcp) : Z :=
  match p with
  | Sr _ r => 1 + 6 + 6 * zlen r
  | Rr _ r => 1 + 1 + 6 * zlen r
  | Xr _ b => 1 + 1 + sumz (map (fun b => xblock_len b / 4) b)
  | Sdes r => 1 + sumz (map sdes_size r)
  | Bye r => 1 + zlen r
  | Nack _ _ r => 1 + 2 + zlen r
  | Pli _ _ => 3
  | Fir _ r => 1 + 1 + 1 + zlen r * 2
  | Tw t => twcc_words t
  | Remb _ _ s => 1 + 16 / 4 + zlen s
  | App _ _ p => 1 + 2 + (zlen p + 3) / 4
  end.

(** ** Writing: the bytes and the returned count *)
(** header.rs:96-105 and fmt.rs:41-54 (count above 31 panics); [words_less_one]
    is truncated to 16 bits *)
Definition hdr (fmt ty w : Z) : list Z := [Z.lor 128 fmt; ty] ++ be16 (w - 1).
Definition hdr_count (n ty w : Z) : res (list Z) :=
  if n mod 256 <=? 31 then Ok (hdr (n mod 256) ty w) else Panic.

(** rr.rs:63-71: [packets_lost] is written as four bytes, then the first is
    replaced by [fraction_lost] *)
Definition rr_write (r : rr) : list Z :=
  be32 (r_ssrc r) ++ [r_frac r] ++ be24 (r_lost r) ++ be32 (r_max r) ++ be32 (r_jit r)
  ++ be32 (r_lsr r) ++ be32 (r_dlsr r).
(** sr.rs:67-81 *)
Definition sinfo_write (s : sinfo) : list Z :=
  be32 (s_ssrc s) ++ be64 (s_ntp s) ++ be32 (s_rtp s) ++ be32 (s_pkts s) ++ be32 (s_octs s).
(** xr.rs:131-144, 152-174 *)
Definition dlrr_write (d : dlrr) : list Z := be32 (d_ssrc d) ++ be32 (d_last d) ++ be32 (d_delay d).
Definition xblock_write (b : xblock) : list Z :=
  match b with
  | Rrtr t => [4; 0] ++ be16 2 ++ be64 t
  | Dlrr items => [5; 0] ++ be16 (zlen items * 3) ++ flat_map dlrr_write items
  end.
(** sdes.rs:85-120: the length byte is truncated *)
Definition sdes_val_write (v : Z * list Z) : list Z := [fst v; zlen (snd v) mod 256] ++ snd v.
Definition sdes_write (s : sdes) : list Z :=
  let b := be32 (sd_ssrc s) ++ flat_map sdes_val_write (sd_vals s) ++ [SD_END] in
  let pad := 4 - zlen b mod 4 in
  if pad <? 4 then b ++ rep SD_END pad else b.
Definition nack_write (e : nentry) : list Z := be16 (ne_pid e) ++ be16 (ne_blp e).
Definition fir_write (e : fentry) : list Z := be32 (fe_ssrc e) ++ [fe_seq e; 0; 0; 0].

(** remb.rs:6,74-82: halve until below 2^18.  Halving an f32 of at least 2^18
    is exact, so on the integer part it is a division by two; the clamp's upper
    bound is 0x3FFFF * 2^63. *)
Definition REMB_MAX : Z := 262143 * 2 ^ 63.
Fixpoint remb_scale (fuel : nat) (b e : Z) : Z * Z :=
  match fuel with
  | O => (b, e)
  | S f => if 262144 <=? b then remb_scale f (b / 2) (e + 1) else (b, e)
  end.
(** remb.rs:73-104 *)
Definition remb_write (sender bitrate : Z) (ssrcs : list Z) (w : Z) : list Z :=
  let (m, e) := remb_scale 64 (Z.max 0 (Z.min REMB_MAX bitrate)) 0 in
  hdr 15 206 w ++ be32 sender ++ [0; 0; 0; 0] ++ [82; 69; 77; 66]
  ++ [zlen ssrcs mod 256; Z.lor (e * 4 mod 256) (m / 65536 mod 256); m / 256 mod 256; m mod 256]
  ++ flat_map be32 ssrcs.

(** mod.rs:393-407 and the [write_to] of each type *)
Definition write (p : rtcp) : res (list Z * Z) :=
  let w := words p in
  match p with
  | Sr i r => do h <- hdr_count (zlen r) 200 w ; Ok (h ++ sinfo_write i ++ flat_map rr_write r, w * 4)
  | Rr s r => do h <- hdr_count (zlen r) 201 w ; Ok (h ++ be32 s ++ flat_map rr_write r, w * 4)
  | Xr s b =>
      Ok (hdr 0 207 w ++ be32 s ++ flat_map xblock_write b, 8 + sumz (map xblock_len b))
  | Sdes r =>
      do h <- hdr_count (zlen r) 202 w ;
      Ok (h ++ flat_map sdes_write r, 4 + sumz (map (fun s => zlen (sdes_write s)) r))
  | Bye r => do h <- hdr_count (zlen r) 203 w ; Ok (h ++ flat_map be32 r, w * 4)
  | Nack a s r => Ok (hdr 1 205 w ++ be32 a ++ be32 s ++ flat_map nack_write r, w * 4)
  | Pli a s => Ok (hdr 1 206 w ++ be32 a ++ be32 s, 12)
  | Fir a r =>
      let media := match r with [] => 0 | e :: _ => fe_ssrc e end in
      Ok (hdr 4 206 w ++ be32 a ++ be32 media ++ flat_map fir_write r, 4 + 4 + 4 + zlen r * 8)
  | Tw t => twcc_write t
  | Remb a b s => Ok (remb_write a b s w, 4 + 16 + zlen s * 4)
  | App a m pl =>
      let pad := (zlen pl + 3) / 4 * 4 - zlen pl in
      Ok (hdr 15 206 w ++ be32 a ++ be32 m ++ pl ++ rep 0 pad, 12 + zlen pl + pad)
  end.

(** ** Parsing *)
(** [n] fixed-size records from the front of the buffer *)
Fixpoint read_n {A} (n : nat) (sz : Z) (rd : list Z -> res A) (buf : list Z) : res (list A) :=
  match n with
  | O => Ok []
  | S n' => do a <- rd buf ; do b <- from buf sz ; do r <- read_n n' sz rd b ; Ok (a :: r)
  end.
Definition rdu64 (b : list Z) (i : Z) : res Z :=
  do h <- rdu32 b i ; do l <- rdu32 b (i + 4) ; Ok (h * U32 + l).

(** rr.rs:104-133 *)
Definition rr_parse (b : list Z) : res rr :=
  if zlen b <? 24 then Err
  else do a <- rdu32 b 0 ; do f <- idx b 4 ; do l <- rdu24 b 5 ; do m <- rdu32 b 8 ;
       do j <- rdu32 b 12 ; do s <- rdu32 b 16 ; do d <- rdu32 b 20 ; Ok (RR a f l m j s d).
(** rr.rs:84-95 / sr.rs:90-101: as many reports as fit, at most 31 *)
Definition rrs_parse (b : list Z) : res (list rr) :=
  read_n (Z.to_nat (Z.min (zlen b / 24) 31)) 24 rr_parse b.
(** rr.rs:74-102 *)
Definition rrp_parse (b : list Z) : res rtcp :=
  if zlen b <? 4 then Err
  else do s <- rdu32 b 0 ; do r <- from b 4 ; do rs <- rrs_parse r ; Ok (Rr s rs).
(** sr.rs:110-149, 84-108 *)
Definition sinfo_parse (b : list Z) : res sinfo :=
  if zlen b <? 24 then Err
  else do s <- rdu32 b 0 ; do n <- rdu64 b 4 ; do t <- rdu32 b 12 ; do p <- rdu32 b 16 ;
       do o <- rdu32 b 20 ; Ok (SI s n t p o).
Definition sr_parse (b : list Z) : res rtcp :=
  do i <- sinfo_parse b ; do r <- from b 24 ; do rs <- rrs_parse r ; Ok (Sr i rs).

(** [str::from_utf8] (the table of well-formed byte sequences, Unicode table 3-7) *)
Definition inr (lo hi b : Z) : bool := (lo <=? b) && (b <=? hi).
Fixpoint utf8 (l : list Z) : bool :=
  match l with
  | [] => true
  | a :: l1 =>
      if inr 0 127 a then utf8 l1
      else match l1 with
      | [] => false
      | b :: l2 =>
          if inr 194 223 a then inr 128 191 b && utf8 l2
          else match l2 with
          | [] => false
          | c :: l3 =>
              if (a =? 224) && inr 160 191 b || inr 225 236 a && inr 128 191 b
                 || (a =? 237) && inr 128 159 b || inr 238 239 a && inr 128 191 b
              then inr 128 191 c && utf8 l3
              else match l3 with
              | [] => false
              | d :: l4 =>
                  ((a =? 240) && inr 144 191 b || inr 241 243 a && inr 128 191 b
                   || (a =? 244) && inr 128 143 b)
                  && inr 128 191 c && inr 128 191 d && utf8 l4
              end
          end
      end
  end.

(** sdes.rs:214-279: the values of one chunk; [n] values so far, [abs] bytes consumed *)
Fixpoint sdes_vals_parse (fuel : nat) (n abs : Z) (b : list Z) : res (list (Z * list Z)) :=
  match fuel with
  | O => Panic
  | S f =>
      if n =? 31 then Ok []
      else
        let one_end := match b with [z] => z =? SD_END | _ => false end in
        if one_end then Ok []
        else if zlen b <? 2 then Err
        else
          do ty <- idx b 0 ;
          let st := sdes_type ty in
          if st =? SD_END then
            let pad := 4 - abs mod 4 in
            if (pad <? 4) && (zlen b <? pad) then Err else Ok []
          else
            do len <- idx b 1 ;
            if zlen b <? 2 + len then Err
            else
              do b1 <- from b 2 ;
              do v <- upto b1 len ;
              do b2 <- from b1 len ;
              if utf8 v then
                do r <- sdes_vals_parse f (n + 1) (abs + 2 + len) b2 ; Ok ((st, v) :: r)
              else sdes_vals_parse f n (abs + 2 + len) b2
  end.
(** sdes.rs:200-283 *)
Definition sdes_parse (b : list Z) : res sdes :=
  if zlen b <? 8 then Err
  else do s <- rdu32 b 0 ; do r <- from b 4 ;
       do v <- sdes_vals_parse (S (length r)) 0 0 r ; Ok (SDES s v).
(** sdes.rs:160-198; [n] chunks so far *)
Fixpoint sdess_parse (fuel : nat) (n : Z) (b : list Z) : res (list sdes) :=
  match fuel with
  | O => Panic
  | S f =>
      if n =? 31 then Ok []
      else if zlen b <? 8 then Ok []
      else
        do s <- sdes_parse b ;
        let len := sdes_size s * 4 in
        if (len =? 0) || (zlen b <=? len) then Ok [s]
        else do b' <- from b len ; do r <- sdess_parse f (n + 1) b' ; Ok (s :: r)
  end.

(** bb.rs:35-61 *)
Definition bye_parse (count : Z) (b : list Z) : res rtcp :=
  if zlen b <? 4 then Err
  else if zlen b <? count * 4 then Err
  else do r <- read_n (Z.to_nat (Z.min count 31)) 4 (fun b => rdu32 b 0) b ; Ok (Bye r).

(** nack.rs:63-93 *)
Definition nentry_parse (b : list Z) : res nentry :=
  do p <- rdu16 b 0 ; do q <- rdu16 b 2 ; Ok (NE p q).
Definition nack_parse (b : list Z) : res rtcp :=
  if zlen b <? 12 then Err
  else do a <- rdu32 b 0 ; do s <- rdu32 b 4 ; do r <- from b 8 ;
       do es <- read_n (Z.to_nat (Z.min (zlen r / 4) 31)) 4 nentry_parse r ; Ok (Nack a s es).
(** pli.rs:39-52 *)
Definition pli_parse (b : list Z) : res rtcp :=
  if zlen b <? 8 then Err else do a <- rdu32 b 0 ; do s <- rdu32 b 4 ; Ok (Pli a s).
(** fir.rs:66-94 *)
Definition fentry_parse (b : list Z) : res fentry :=
  do s <- rdu32 b 0 ; do q <- idx b 4 ; Ok (FE s q).
Definition fir_parse (b : list Z) : res rtcp :=
  if zlen b <? 16 then Err
  else do a <- rdu32 b 0 ; do r <- from b 8 ;
       do es <- read_n (Z.to_nat (Z.min (zlen r / 8) 31)) 8 fentry_parse r ; Ok (Fir a es).

(** xr.rs:249-285 [Dlrr]: stops early when less than 12 bytes are left *)
Fixpoint dlrr_items (n : nat) (b : list Z) : res (list dlrr) :=
  match n with
  | O => Ok []
  | S n' =>
      if zlen b <? 12 then Ok []
      else do s <- rdu32 b 0 ; do l <- rdu32 b 4 ; do d <- rdu32 b 8 ; do b' <- from b 12 ;
           do r <- dlrr_items n' b' ; Ok (DL s l d :: r)
  end.
(** xr.rs:211-285 [ReportBlock::try_from] *)
Definition xblock_parse (b : list Z) : res xblock :=
  match b with
  | [] => Err
  | ty :: _ =>
      if ty =? 4 then
        if zlen b <? 12 then Err else do t <- rdu64 b 4 ; Ok (Rrtr t)
      else if ty =? 5 then
        if zlen b <? 4 then Err
        else do n <- rdu16 b 2 ; do r <- from b 4 ; do it <- dlrr_items (Z.to_nat (n / 3)) r ; Ok (Dlrr it)
      else Err
  end.
(** xr.rs:194-205: until a block fails to parse *)
Fixpoint xblocks_parse (fuel : nat) (b : list Z) : res (list xblock) :=
  match fuel with
  | O => Panic
  | S f =>
      match xblock_parse b with
      | Panic => Panic
      | Err => Ok []
      | Ok x =>
          let len := xblock_len x in
          if (len =? 0) || (zlen b <=? len) then Ok [x]
          else do b' <- from b len ; do r <- xblocks_parse f b' ; Ok (x :: r)
      end
  end.
(** xr.rs:181-209 *)
Definition xr_parse (b : list Z) : res rtcp :=
  if zlen b <? 4 then Err
  else do s <- rdu32 b 0 ; do r <- from b 4 ; do bs <- xblocks_parse (S (length r)) r ; Ok (Xr s bs).

(** remb.rs:143-149: normalise the mantissa (18 bits) so that bit 23 is set *)
Fixpoint remb_norm (fuel : nat) (m e : Z) : Z * Z :=
  match fuel with
  | O => (m, e)
  | S f => if Z.land m 8388608 =? 0 then remb_norm f (m * 2) (e - 1) else (m, e)
  end.
(** integer part of [f32::from_bits] for a normal number with the given
    exponent field and 23 fraction bits *)
Definition f32_int (e frac : Z) : Z :=
  let m := 8388608 + frac in
  if 150 <=? e then m * 2 ^ (e - 150) else m / 2 ^ (150 - e).
(** remb.rs:107-178 *)
Definition remb_parse (b : list Z) : res rtcp :=
  if zlen b <? 16 then Err
  else
    do a <- rdu32 b 0 ; do m <- rdu32 b 4 ;
    if negb (m =? 0) then Err
    else
      do i0 <- idx b 8 ; do i1 <- idx b 9 ; do i2 <- idx b 10 ; do i3 <- idx b 11 ;
      if negb ((i0 =? 82) && (i1 =? 69) && (i2 =? 77) && (i3 =? 66)) then Err
      else
        do n <- idx b 12 ; do b17 <- idx b 13 ; do b18 <- idx b 14 ; do b19 <- idx b 15 ;
        let e0 := b17 / 4 + 127 + 23 in
        let m0 := Z.lor (Z.lor (Z.land b17 3 * 65536) (b18 * 256)) b19 in
        let (mm, e) := if m0 =? 0 then (m0, e0) else remb_norm 24 m0 e0 in
        let rate := f32_int e (Z.land mm 8388607) in
        if zlen b <? 16 + n * 4 then Err
        else do r <- from b 16 ; do s <- read_n (Z.to_nat n) 4 (fun b => rdu32 b 0) r ; Ok (Remb a rate s).
(** psfbapp.rs:64-84 *)
Definition app_parse (b : list Z) : res rtcp :=
  if zlen b <? 8 then Err
  else do a <- rdu32 b 0 ; do m <- rdu32 b 4 ; do p <- from b 8 ; Ok (App a m p).

(** header.rs:160-197 with fmt.rs:70-84, 113-132: (type, fmt, length in words) *)
Definition hdr_parse (b : list Z) : res (Z * Z * Z) :=
  if zlen b <? 4 then Err
  else
    do b0 <- idx b 0 ; do b1 <- idx b 1 ; do w <- rdu16 b 2 ;
    if negb (Z.land b0 192 / 64 =? 2) then Err
    else
      let fmt := Z.land b0 31 in
      if negb ((200 <=? b1) && (b1 <=? 207)) then Err
      else if (b1 =? 205) && negb ((fmt =? 1) || (fmt =? 15)) then Err
      else if (b1 =? 206) && negb ((fmt =? 1) || (fmt =? 2) || (fmt =? 3) || (fmt =? 4) || (fmt =? 15)) then Err
      else Ok (b1, fmt, w + 1).

(** mod.rs:410-468 [Rtcp::try_from] *)
Definition parse (b : list Z) : res rtcp :=
  do (ty, fmt, _) <- hdr_parse b ;
  do r <- from b 4 ;
  if ty =? 200 then sr_parse r
  else if ty =? 201 then rrp_parse r
  else if ty =? 202 then do s <- sdess_parse (S (length r)) 0 r ; Ok (Sdes s)
  else if ty =? 203 then bye_parse fmt r
  else if ty =? 204 then Err
  else if ty =? 205 then
    if fmt =? 1 then nack_parse r else do t <- twcc_parse r ; Ok (Tw t)
  else if ty =? 206 then
    if fmt =? 1 then pli_parse r
    else if fmt =? 2 then Err
    else if fmt =? 3 then Err
    else if fmt =? 4 then fir_parse r
    else match remb_parse r with
         | Ok p => Ok p
         | Panic => Panic
         | Err => app_parse r
         end
  else xr_parse r.

(** mod.rs:99-139 [read_packet]: the feedback pushed, in order *)
Fixpoint read_packets (fuel : nat) (b : list Z) : res (list rtcp) :=
  match fuel with
  | O => Panic
  | S f =>
      match b with
      | [] => Ok []
      | b0 :: _ =>
          match hdr_parse b with
          | Panic => Panic
          | Err => Ok []
          | Ok (_, _, w) =>
              let full := w * 4 in
              if zlen b <? full then Ok []
              else
                do pad <- (if 0 <? Z.land b0 32 then idx b (full - 1) else Ok 0) ;
                if full <? pad then Ok []
                else
                  do u <- upto b (full - pad) ;
                  do rest <- from b full ;
                  match parse u with
                  | Panic => Panic
                  | Err => read_packets f rest
                  | Ok p => do r <- read_packets f rest ; Ok (p :: r)
                  end
          end
      end
  end.
Definition read_packet (b : list Z) : res (list rtcp) := read_packets (S (length b)) b.

(** ** Packing *)
(** mod.rs:337-357 [order_no] *)
Definition order_no (p : rtcp) : Z :=
  match p with
  | Sr _ _ => 0 | Rr _ _ => 1 | Sdes _ => 2 | Nack _ _ _ => 3 | Pli _ _ => 4 | Fir _ _ => 5
  | Tw _ => 6 | Remb _ _ _ => 7 | App _ _ _ => 8 | Xr _ _ => 10 | Bye _ => 11
  end.

(** list.rs:64-103 on lists (see C22_append): how many items of [b] move when
    there are [room] slots and [w] words *)
Fixpoint ntake {A} (wsz : A -> Z) (room : nat) (b : list A) (w : Z) : nat :=
  match room, b with
  | S room', x :: b' => if w <? wsz x then O else S (ntake wsz room' b' (w - wsz x))
  | _, _ => O
  end.
Definition append {A} (wsz : A -> Z) (a b : list A) (w : Z) : list A * list A * nat :=
  let n := ntake wsz (31 - length a) b w in (a ++ firstn n b, skipn n b, n).

(** mod.rs:189-230 [merge]: the two packets and whether anything moved *)
Definition merge (a b : rtcp) (w : Z) : rtcp * rtcp * bool :=
  match a, b with
  | Sr i r1, Rr s r2 => let '(x, y, n) := append (fun _ => 6) r1 r2 w in (Sr i x, Rr s y, (0 <? n)%nat)
  | Rr s1 r1, Rr s2 r2 => let '(x, y, n) := append (fun _ => 6) r1 r2 w in (Rr s1 x, Rr s2 y, (0 <? n)%nat)
  | Sdes r1, Sdes r2 => let '(x, y, n) := append sdes_size r1 r2 w in (Sdes x, Sdes y, (0 <? n)%nat)
  | Bye r1, Bye r2 => let '(x, y, n) := append (fun _ => 1) r1 r2 w in (Bye x, Bye y, (0 <? n)%nat)
  | Nack a1 s1 r1, Nack a2 s2 r2 =>
      if s1 =? s2 then
        let '(x, y, n) := append (fun _ => 1) r1 r2 w in (Nack a1 s1 x, Nack a2 s2 y, (0 <? n)%nat)
      else (a, b, false)
  | Fir a1 r1, Fir a2 r2 => let '(x, y, n) := append (fun _ => 2) r1 r2 w in (Fir a1 x, Fir a2 y, (0 <? n)%nat)
  | _, _ => (a, b, false)
  end.

(** mod.rs:232-246 [is_full] *)
Definition full {A} (l : list A) : bool := zlen l =? 31.
Definition is_full (p : rtcp) : bool :=
  match p with
  | Sr _ r => full r | Rr _ r => full r | Sdes r => full r | Bye r => full r | Nack _ _ r => full r
  | Fir _ r => full r | _ => true
  end.
(** mod.rs:250-275 [is_empty] *)
Definition nilb {A} (l : list A) : bool := match l with [] => true | _ => false end.
Definition is_empty (p : rtcp) : bool :=
  match p with
  | Rr _ r => nilb r | Xr _ r => nilb r | Sdes r => nilb r | Bye r => nilb r | Nack _ _ r => nilb r
  | Fir _ r => nilb r | _ => false
  end.

(** mod.rs:288 [sort_by_key]: a stable sort; insertion sort gives the same list *)
Fixpoint insert (p : rtcp) (l : list rtcp) : list rtcp :=
  match l with
  | [] => [p]
  | q :: l' => if order_no p <=? order_no q then p :: l else q :: insert p l'
  end.
Fixpoint sort (l : list rtcp) : list rtcp :=
  match l with [] => [] | p :: l' => insert p (sort l') end.

(** mod.rs:307-325: the inner loop; the first component tells [break 'outer] *)
Fixpoint pack_into (cap : Z) (a : rtcp) (rest : list rtcp) (any : bool)
  : bool * rtcp * list rtcp * bool :=
  match rest with
  | [] => (false, a, [], any)
  | b :: bs =>
      if is_full a || is_empty a then (false, a, rest, any)
      else if cap <? words a then (true, a, rest, any)
      else
        let '(a', b', did) := merge a b (cap - words a) in
        let '(brk, a'', bs', any') := pack_into cap a' bs (any || did) in
        (brk, a'', b' :: bs', any')
  end.

(** mod.rs:290-331: the outer loop.  [pre] are the items before index [i]. *)
Fixpoint pack_loop (fuel : nat) (cap : Z) (pre : list rtcp) (a : rtcp) (rest : list rtcp)
  : res (list rtcp) :=
  match fuel with
  | O => Panic
  | S f =>
      match rest with
      | [] => Ok (pre ++ [a])
      | _ =>
          if cap <? words a then Ok (pre ++ a :: rest)
          else
            let '(brk, a', rest', any) := pack_into cap a rest false in
            if brk then Ok (pre ++ a' :: rest')
            else if any then pack_loop f cap pre a' rest'
            else if cap <? words a' then Panic
            else match rest' with
                 | [] => Panic
                 | b :: bs => pack_loop f (cap - words a') (pre ++ [a']) b bs
                 end
      end
  end.

(** enough iterations for [pack_loop] (proved in RtcpPackProofs.v) *)
Definition nitems (p : rtcp) : nat :=
  match p with
  | Sr _ r => length r | Rr _ r => length r | Sdes r => length r | Bye r => length r
  | Nack _ _ r => length r | Fir _ r => length r | _ => 0%nat
  end.
Definition pack_fuel (l : list rtcp) : nat := S (fold_right (fun p n => S (nitems p + n)) 0%nat l).

(** mod.rs:277-335 [pack] *)
Definition pack (q : list rtcp) (cap : Z) : res (list rtcp) :=
  match q with
  | [] | [_] => Ok q
  | _ =>
      match sort q with
      | [] => Panic
      | a :: rest =>
          do l <- pack_loop (pack_fuel (a :: rest)) cap [] a rest ;
          Ok (filter (fun p => negb (is_empty p)) l)
      end
  end.

(** mod.rs:159-186: write from the front while the next item fits.  Gives the
    bytes, the packets written and the queue left over. *)
Fixpoint emit (left : Z) (q : list rtcp) : res (list Z * list rtcp * list rtcp) :=
  match q with
  | [] => Ok ([], [], [])
  | p :: q' =>
      let len := words p * 4 in
      if left <? len then Ok ([], [], q)
      else
        do (bs, n) <- write p ;
        if left <? zlen bs then Panic (* past the end of the buffer *)
        else if negb (n =? len) then Panic (* assert_eq 174 *)
        else
          do (bs', out, rest) <- emit (left - len) q' ;
          Ok (bs ++ bs', p :: out, rest)
  end.

(** mod.rs:141-187 [write_packet] into a buffer of [total] bytes *)
Definition write_packet (q : list rtcp) (total : Z) : res (list Z * list rtcp * list rtcp) :=
  match q with
  | [] => Ok ([], [], [])
  | _ => do l <- pack q (total / 4) ; emit total l
  end.

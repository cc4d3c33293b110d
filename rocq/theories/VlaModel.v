(** Model of the Video Layers Allocation header extension. /repo/src/rtp/vla.rs (whole file).
    Arithmetic overflow is a panic (debug build); vectors are lists; u8/u16/u64 are Z. *)
From Verif Require Import Base.

(** vla.rs:41-67; a resolution is (width, height, framerate). *)
Record spatial := mkSpatial { sp_tl : list Z; sp_res : option (Z * Z * Z) }.
(** vla.rs:16-35 *)
Record vla := mkVla { v_cur : Z; v_streams : list (list spatial) }.

(** vla.rs:477-486: (bits >> (8 - end)) & (0xff >> (8 - len)) *)
Definition read_bits (b s e : Z) : Z := (b / 2 ^ (8 - e)) mod 2 ^ (e - s).
Definition read_bit (b i : Z) : bool := 0 <? read_bits b i (i + 1).

(** vla.rs:459-474: bit 0 first, cut after the last set bit *)
Fixpoint cut (l : list bool) : list bool :=
  match l with
  | [] => []
  | x :: l' => match cut l' with [] => if x then [x] else [] | r => x :: r end
  end.
Definition lower4 (b : Z) : list bool := cut [read_bit b 7; read_bit b 6; read_bit b 5; read_bit b 4].

(** vla.rs:442-456 *)
Definition split2 (b : Z) : list Z := [read_bits b 0 4; read_bits b 4 8].
Definition split4 (b : Z) : list Z := [read_bits b 0 2; read_bits b 2 4; read_bits b 4 6; read_bits b 6 8].

(** vla.rs:423-440 *)
Definition split_at (l : list Z) (n : Z) : option (list Z * list Z) :=
  if zlen l <? n then None else Some (firstn (Z.to_nat n) l, skipn (Z.to_nat n) l).
Definition div_round_up (t b : Z) : Z := if t =? 0 then 0 else (t - 1) / b + 1.

(** vla.rs:391-402: None when the bytes end first (then the value is 0 and nothing is consumed).
    The chunks occupy disjoint bits, so | is +. *)
Fixpoint leb_from (index acc : Z) (l : list Z) : option (Z * list Z) :=
  match l with
  | [] => None
  | b :: r =>
      let acc' := acc + read_bits b 1 8 * 2 ^ (7 * index) in
      if negb (read_bit b 0) || (index =? 8) then Some (acc', r) else leb_from (index + 1) acc' r
  end.
Definition parse_leb (l : list Z) : Z * list Z :=
  match leb_from 0 0 l with Some r => r | None => (0, l) end.

(** vla.rs:140-147 *)
Fixpoint parse_rates (n : nat) (l : list Z) : list Z * list Z :=
  match n with
  | O => ([], l)
  | S n' => let (x, r) := parse_leb l in let (xs, r') := parse_rates n' r in (x :: xs, r')
  end.

(** vla.rs:157-171, one item: u16 + 1 overflows for 0xffff *)
Definition next_res (l : list Z) : res (option (Z * Z * Z) * list Z) :=
  match l with
  | a :: b :: c :: d :: e :: r =>
      if (rd16 a b =? 65535) || (rd16 c d =? 65535) then Panic
      else Ok (Some (rd16 a b + 1, rd16 c d + 1, e), r)
  | _ => Ok (None, l)
  end.

(** vla.rs:176-199: one simulcast stream; the queues are (counts, rates, resolution bytes) *)
Fixpoint build_stream (bits : list bool) (cs rs rb : list Z) : res (list spatial * (list Z * list Z * list Z)) :=
  match bits with
  | [] => Ok ([], (cs, rs, rb))
  | true :: bits' =>
      match cs with
      | [] => build_stream bits' cs rs rb
      | c :: cs' =>
          do (r, rb') <- next_res rb ;
          do (l, st) <- build_stream bits' cs' (skipn (Z.to_nat c) rs) rb' ;
          Ok (mkSpatial (firstn (Z.to_nat c) rs) r :: l, st)
      end
  | false :: bits' =>
      do (l, st) <- build_stream bits' cs rs rb ; Ok (mkSpatial [] None :: l, st)
  end.

(** vla.rs:173-202 *)
Fixpoint build (bs : list (list bool)) (cs rs rb : list Z) : res (list (list spatial)) :=
  match bs with
  | [] => Ok []
  | b :: bs' =>
      do (s, (cs', rs', rb')) <- build_stream b cs rs rb ;
      do r <- build bs' cs' rs' rb' ; Ok (s :: r)
  end.

Definition count_active (bs : list (list bool)) : Z :=
  zlen (filter (fun b => b) (concat bs)).
Definition sum (l : list Z) : Z := fold_right Z.add 0 l.

(** vla.rs:71-207.  The u8 sum at 135 is at most 4*16; the test at 150-155 never fires
    (63-bit values). *)
Definition parse (buf : list Z) : res vla :=
  match buf with
  | [] => Err
  | b0 :: after =>
      if (b0 =? 0) && (zlen after =? 0) then Ok (mkVla 0 [])
      else
        let cur := read_bits b0 0 2 in
        let n := read_bits b0 2 4 + 1 in
        let shared := read_bits b0 4 8 in
        let masks :=
          if 0 <? shared then Some (rep (lower4 shared) n, after)
          else match split_at after (div_round_up n 2) with
               | None => None
               | Some (m, rest) => Some (map lower4 (firstn (Z.to_nat n) (flat_map split2 m)), rest)
               end in
        match masks with
        | None => Err
        | Some (bits, rest1) =>
            let total := count_active bits in
            match split_at rest1 (div_round_up total 4) with
            | None => Err
            | Some (cb, rest2) =>
                let counts := firstn (Z.to_nat total) (map (fun x => x + 1) (flat_map split4 cb)) in
                let (rates, rest3) := parse_rates (Z.to_nat (sum counts)) rest2 in
                do ss <- build bits counts rates rest3 ;
                Ok (mkVla cur ss)
            end
        end
  end.

(** ** Writing (vla.rs:242-361): the buffer and the index *)
Definition setb (buf : list Z) (i v : Z) : res (list Z) :=
  if (i <? 0) || (zlen buf <=? i) then Panic else Ok (lset buf (Z.to_nat i) v).
Definition orb_at (buf : list Z) (i v : Z) : res (list Z) :=
  do x <- idx buf i ; setb buf i (Z.lor x v).

Definition active (l : spatial) : bool := match sp_tl l with [] => false | _ => true end.

(** vla.rs:263-268: u8 [<<] overflows from the ninth layer on *)
Fixpoint stream_mask (layer : Z) (l : list spatial) : res Z :=
  match l with
  | [] => Ok 0
  | x :: l' =>
      if 8 <=? layer then Panic
      else do m <- stream_mask (layer + 1) l' ;
           Ok (Z.lor (if active x then 2 ^ layer else 0) m)
  end.

(** vla.rs:259-273: an array of 4, indexed by the stream *)
Fixpoint masks_of (i : Z) (l : list (list spatial)) : res (list Z) :=
  match l with
  | [] => Ok []
  | s :: l' => do m <- stream_mask 0 s ;
               if 4 <=? i then Panic else do ms <- masks_of (i + 1) l' ; Ok (m :: ms)
  end.

(** vla.rs:284-293 *)
Fixpoint mask_loop (si : Z) (ms : list Z) (index : Z) (buf : list Z) : res (Z * list Z) :=
  match ms with
  | [] => Ok (index, buf)
  | m :: ms' =>
      let shift := if si mod 2 =? 0 then 4 else 0 in
      do (index', buf1) <-
        (if shift =? 4 then do b <- setb buf (index + 1) 0 ; Ok (index + 1, b) else Ok (index, buf)) ;
      do buf2 <- orb_at buf1 (index' + si / 2) (Z.land m 15 * 2 ^ shift) ;
      mask_loop (si + 1) ms' index' buf2
  end.

(** vla.rs:303-324, over the active layers (the two nested loops and the if) *)
Fixpoint tl_loop (tl : Z) (ls : list spatial) (index : Z) (buf : list Z) : res (Z * Z * list Z) :=
  match ls with
  | [] => Ok (tl, index, buf)
  | l :: ls' =>
      if negb (active l) then tl_loop tl ls' index buf
      else
        let c := (zlen (sp_tl l) - 1) mod 256 in
        do (index', buf1) <-
          (if tl mod 4 =? 0
           then let i := if 0 <? tl then index + 1 else index in do b <- setb buf i 0 ; Ok (i, b)
           else Ok (index, buf)) ;
        do buf2 <- orb_at buf1 index' ((c * 2 ^ (6 - (tl mod 4) * 2)) mod 256) ;
        tl_loop (tl + 1) ls' index' buf2
  end.

(** vla.rs:405-420; a u64 takes at most 10 rounds *)
Fixpoint leb_write (fuel : nat) (v : Z) (index : Z) (buf : list Z) : res (Z * list Z) :=
  match fuel with
  | O => Panic
  | S f =>
      if v <? 128 then do b <- setb buf index v ; Ok (index + 1, b)
      else do b <- setb buf index (v mod 128 + 128) ; leb_write f (v / 128) (index + 1) b
  end.
Fixpoint rates_loop (rs : list Z) (index : Z) (buf : list Z) : res (Z * list Z) :=
  match rs with
  | [] => Ok (index, buf)
  | v :: rs' => do (i, b) <- leb_write 10 v index buf ; rates_loop rs' i b
  end.

(** buf[index..index+k].copy_from_slice *)
Fixpoint put (bs : list Z) (index : Z) (buf : list Z) : res (list Z) :=
  match bs with
  | [] => Ok buf
  | x :: bs' => do b <- setb buf index x ; put bs' (index + 1) b
  end.

(** vla.rs:342-356 (u16 - 1 overflows for 0) *)
Fixpoint res_loop (ls : list spatial) (index : Z) (buf : list Z) : res (Z * list Z) :=
  match ls with
  | [] => Ok (index, buf)
  | l :: ls' =>
      match sp_res l with
      | None => res_loop ls' index buf
      | Some (w, h, f) =>
          if (w =? 0) || (h =? 0) then Panic
          else do b <- put (be16 (w - 1) ++ be16 (h - 1) ++ [f]) index buf ;
               res_loop ls' (index + 5) b
      end
  end.

(** vla.rs:242-361: the number of bytes written, and the buffer *)
Definition write (v : vla) (buf : list Z) : res (Z * list Z) :=
  do buf <- setb buf 0 0 ;
  if (v_cur v =? 0) && (zlen (v_streams v) =? 0) then Ok (1, buf)
  else
    do buf <- orb_at buf 0 (Z.land (v_cur v) 3 * 64) ;
    if zlen (v_streams v) =? 0 then Panic   (* len() - 1 *)
    else
      do buf <- orb_at buf 0 (Z.land ((zlen (v_streams v) - 1) mod 256) 3 * 16) ;
      do ms <- masks_of 0 (v_streams v) ;
      let shared := forallb (fun m => m =? hd 0 ms) ms in
      do (index, buf) <-
        (if shared then do b <- orb_at buf 0 (Z.land (hd 0 ms) 15) ; Ok (0, b)
         else
           do (i, b) <- mask_loop 0 ms 0 buf ;
           if negb (zlen ms mod 2 =? 0) then do b' <- orb_at b i 15 ; Ok (i, b') else Ok (i, b)) ;
      let index := index + 1 in
      let layers := concat (v_streams v) in
      do (tl, index, buf) <- tl_loop 0 layers index buf ;
      if tl =? 0 then do b <- setb buf index 0 ; Ok (index + 1, b)
      else
        do (index, buf) <- rates_loop (flat_map sp_tl layers) (index + 1) buf ;
        res_loop layers index buf.

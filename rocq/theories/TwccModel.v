(** Model of the transport-wide congestion control feedback codec and of the
    iterator that turns a feedback message into per-packet results
    (/repo/src/rtp/rtcp/twcc.rs 12-222, 574-585, 741-1001). *)
From Verif Require Import Base SeqModel.

(** twcc.rs:834-840 [PacketStatus] *)
Inductive status := NotReceived | SmallDelta | LargeDelta | Unknown.
Definition status_u (s : status) : Z :=
  match s with NotReceived => 0 | SmallDelta => 1 | LargeDelta => 2 | Unknown => 3 end.
(** twcc.rs:854-863 *)
Definition status_of (v : Z) : status :=
  if v =? 0 then NotReceived else if v =? 1 then SmallDelta else if v =? 2 then LargeDelta else Unknown.

(** twcc.rs:842-846 [Delta]; [Small] holds a u8, [Large] an i16 *)
Inductive delta := Small (v : Z) | Large (v : Z).

(** twcc.rs:574-585 [PacketChunk] *)
Inductive chunk :=
| Run (s : status) (n : Z)
| VSingle (v fill : Z)
| VDouble (v fill : Z).

(** twcc.rs:15-33 [Twcc] *)
Record twcc := Twcc {
  t_sender : Z; t_ssrc : Z; t_base : Z; t_count : Z; t_ref : Z; t_fb : Z;
  t_chunks : list chunk; t_deltas : list delta }.

(** i16 from and to its two's complement *)
Definition to_i16 (v : Z) : Z := if v <? 32768 then v else v - 65536.
Definition of_i16 (v : Z) : Z := v mod 65536.

(** twcc.rs:826-831 *)
Definition delta_len (d : delta) : Z := match d with Small _ => 1 | Large _ => 2 end.
(** twcc.rs:813-824 *)
Definition delta_write (d : delta) : list Z :=
  match d with Small v => [v] | Large v => be16 (of_i16 v) end.

(** twcc.rs:741-793 [PacketChunk::write_to]; the asserts panic *)
Definition chunk_write (c : chunk) : res (list Z) :=
  match c with
  | Run s n => if n <=? 8192 then Ok (be16 (Z.lor (status_u s * 8192) n)) else Panic
  | VSingle v f => if (f =? 14) && (v <=? 16384) then Ok (be16 (Z.lor 32768 v)) else Panic
  | VDouble v f => if (f =? 7) && (v <=? 16384) then Ok (be16 (Z.lor (Z.lor 32768 16384) v)) else Panic
  end.
Fixpoint chunks_write (l : list chunk) : res (list Z) :=
  match l with
  | [] => Ok []
  | c :: l' => do a <- chunk_write c ; do b <- chunks_write l' ; Ok (a ++ b)
  end.

Definition deltas_len (l : list delta) : Z := fold_right (fun d n => delta_len d + n) 0 l.

(** twcc.rs:155-175 [length_words] *)
Definition pad4 (n : Z) : Z := let pad := 4 - n mod 4 in if pad <? 4 then n + pad else n.
Definition twcc_words (t : twcc) : Z :=
  5 + pad4 (zlen (t_chunks t) * 2 + deltas_len (t_deltas t)) / 4.

(** twcc.rs:177-221 [write_to]: the bytes and the returned length.  The header
    is header.rs:96-105 with format 15 and type 205; the padding bit is set
    when padding is added and the last padding byte holds its size. *)
Definition twcc_write (t : twcc) : res (list Z * Z) :=
  do cb <- chunks_write (t_chunks t) ;
  let body := be32 (t_sender t) ++ be32 (t_ssrc t) ++ be16 (t_base t) ++ be16 (t_count t)
              ++ be24 (t_ref t) ++ [t_fb t] ++ cb ++ flat_map delta_write (t_deltas t) in
  let total := 4 + zlen body in
  let pad := 4 - total mod 4 in
  let words := be16 (twcc_words t - 1) in
  if pad <? 4 then
    Ok ([Z.lor (Z.lor 128 15) 32; 205] ++ words ++ body ++ rep 0 (pad - 1) ++ [pad], total + pad)
  else Ok ([Z.lor 128 15; 205] ++ words ++ body, total).

(** twcc.rs:973-1000 [PacketChunk::try_from] *)
Definition chunk_parse (buf : list Z) : res chunk :=
  if zlen buf <? 2 then Err
  else
    do a <- idx buf 0 ; do b <- idx buf 1 ;
    let x := rd16 a b in
    if 0 <? Z.land x 32768 then
      let n := Z.land x 16383 in
      if 0 <? Z.land x 16384 then Ok (VDouble n 7) else Ok (VSingle n 14)
    else Ok (Run (status_of (x / 8192 mod 256)) (Z.land x 8191)).

(** twcc.rs:795-801 *)
Definition chunk_max (c : chunk) : Z := match c with Run _ n => n | VSingle _ _ => 14 | VDouble _ _ => 7 end.

(** twcc.rs:893-904: read chunks until all statuses are covered *)
Fixpoint chunks_parse (fuel : nat) (todo : Z) (buf : list Z) : res (list chunk * list Z) :=
  if todo <=? 0 then Ok ([], buf)
  else match fuel with
  | O => Panic
  | S f =>
      do c <- chunk_parse buf ;
      do rest <- from buf 2 ;
      do (cs, b) <- chunks_parse f (todo - chunk_max c) rest ;
      Ok (c :: cs, b)
  end.

(** twcc.rs:910-918 and 920-930: [n] small / large deltas from the start of
    the buffer (the buffer is not advanced here) *)
Fixpoint smalls (n : nat) (buf : list Z) (i : Z) : res (list delta) :=
  match n with
  | O => Ok []
  | S n' => do a <- idx buf i ; do r <- smalls n' buf (i + 1) ; Ok (Small a :: r)
  end.
Definition read_small (buf : list Z) (n : Z) : res (list delta) :=
  if zlen buf <? n then Err else smalls (Z.to_nat n) buf 0.
Fixpoint larges (n : nat) (buf : list Z) (i : Z) : res (list delta) :=
  match n with
  | O => Ok []
  | S n' => do a <- idx buf i ; do b <- idx buf (i + 1) ;
            do r <- larges n' buf (i + 2) ; Ok (Large (to_i16 (rd16 a b)) :: r)
  end.
Definition read_large (buf : list Z) (n : Z) : res (list delta) :=
  if zlen buf <? n * 2 then Err else larges (Z.to_nat n) buf 0.

(** [u16::count_ones] of a 14-bit value *)
Fixpoint ones (n : nat) (v : Z) : Z :=
  match n with O => 0 | S n' => v mod 2 + ones n' (v / 2) end.

(** twcc.rs:950-963: the seven two-bit statuses of a double vector, first at [sh] = 12 *)
Fixpoint double_deltas (n : nat) (sh v : Z) (buf : list Z) : res (list delta * list Z) :=
  match n with
  | O => Ok ([], buf)
  | S n' =>
      match status_of (Z.land (v / 2 ^ sh) 3) with
      | SmallDelta =>
          do d <- read_small buf 1 ; do b <- from buf 1 ;
          do (r, b') <- double_deltas n' (sh - 2) v b ; Ok (d ++ r, b')
      | LargeDelta =>
          do d <- read_large buf 1 ; do b <- from buf 2 ;
          do (r, b') <- double_deltas n' (sh - 2) v b ; Ok (d ++ r, b')
      | _ => double_deltas n' (sh - 2) v buf
      end
  end.

(** twcc.rs:932-967: the deltas announced by one chunk.  A run of large deltas
    advances by [n], not by [2 n] (942). *)
Definition chunk_deltas (c : chunk) (buf : list Z) : res (list delta * list Z) :=
  match c with
  | Run SmallDelta n => do d <- read_small buf n ; do b <- from buf n ; Ok (d, b)
  | Run LargeDelta n => do d <- read_large buf n ; do b <- from buf n ; Ok (d, b)
  | VSingle v _ =>
      let n := ones 16 v in do d <- read_small buf n ; do b <- from buf n ; Ok (d, b)
  | VDouble v _ => double_deltas 7 12 v buf
  | _ => Ok ([], buf)
  end.
Fixpoint chunks_deltas (l : list chunk) (buf : list Z) : res (list delta) :=
  match l with
  | [] => Ok []
  | c :: l' => do (d, b) <- chunk_deltas c buf ; do r <- chunks_deltas l' b ; Ok (d ++ r)
  end.

Definition rdu32 (b : list Z) (i : Z) : res Z :=
  do a0 <- idx b i ; do a1 <- idx b (i + 1) ; do a2 <- idx b (i + 2) ; do a3 <- idx b (i + 3) ;
  Ok (rd32 a0 a1 a2 a3).
Definition rdu24 (b : list Z) (i : Z) : res Z :=
  do a0 <- idx b i ; do a1 <- idx b (i + 1) ; do a2 <- idx b (i + 2) ; Ok (rd24 a0 a1 a2).
Definition rdu16 (b : list Z) (i : Z) : res Z :=
  do a0 <- idx b i ; do a1 <- idx b (i + 1) ; Ok (rd16 a0 a1).

(** twcc.rs:865-970 [Twcc::try_from]; [buf] starts after the RTCP header *)
Definition twcc_parse (buf : list Z) : res twcc :=
  if zlen buf <? 16 then Err
  else
    do s <- rdu32 buf 0 ; do m <- rdu32 buf 4 ; do base <- rdu16 buf 8 ; do cnt <- rdu16 buf 10 ;
    do rf <- rdu24 buf 12 ; do fb <- idx buf 15 ;
    do rest <- from buf 16 ;
    do (cs, b) <- chunks_parse (S (length rest)) cnt rest ;
    do ds <- chunks_deltas cs b ;
    Ok (Twcc s m base cnt rf fb cs ds).

(** ** The iterator, twcc.rs:45-142.  Times are microseconds since [time_zero];
    [checked_sub] below the start of the platform clock is not modelled
    (a time is an unbounded integer). *)
Record titer := TIter { i_base : Z; i_last : Z; i_time : Z; i_idx : Z; i_chunks : list chunk; i_deltas : list delta }.

(** twcc.rs:45-58 [into_iter] *)
Definition twcc_iter (t : twcc) (extend_from : Z) : titer :=
  let base := extend_u16 (Some extend_from) (t_base t) in
  TIter base (base + t_count t) (t_ref t * 64000) 0 (t_chunks t) (t_deltas t).

(** twcc.rs:69-141 [next]: [Ok None] is the end.  Shifts by a negative amount
    (index past the vector) are a debug panic. *)
Definition titer_next (it : titer) : res (option (Z * status * option Z) * titer) :=
  let seq := i_base it + i_idx it in
  if seq =? i_last it then Ok (None, it)
  else match i_chunks it with
  | [] => Ok (None, it)
  | head :: tl =>
      do (st, amount) <-
        match head with
        | Run s n => Ok (match s with Unknown => NotReceived | _ => s end, n)
        | VSingle v n =>
            if 13 <? i_idx it then Panic
            else Ok (if 0 <? Z.land (2 ^ (13 - i_idx it)) v then SmallDelta else NotReceived, n)
        | VDouble v n =>
            if 12 <? i_idx it * 2 then Panic
            else Ok (status_of (Z.land (v / 2 ^ (12 - i_idx it * 2)) 3), n)
        end ;
      let finish ds t inst :=
        let i' := i_idx it + 1 in
        let time := match inst with Some x => x | None => t end in
        let it' := if i' =? amount then TIter (seq + 1) (i_last it) time 0 tl ds
                   else TIter (i_base it) (i_last it) time i' (i_chunks it) ds in
        Ok (Some (seq, st, inst), it') in
      match st with
      | NotReceived | Unknown => finish (i_deltas it) (i_time it) None
      | SmallDelta =>
          match i_deltas it with
          | [] => Ok (None, it)
          | Small v :: ds => finish ds (i_time it) (Some (i_time it + 250 * v))
          | Large _ :: _ => Panic
          end
      | LargeDelta =>
          match i_deltas it with
          | [] => Ok (None, it)
          | Small _ :: _ => Panic
          | Large v :: ds => finish ds (i_time it) (Some (i_time it + 250 * v))
          end
      end
  end.

(** The items produced by at most [n] calls of [next]. *)
Fixpoint titer_run (n : nat) (it : titer) : res (list (Z * status * option Z)) :=
  match n with
  | O => Ok []
  | S n' =>
      do (o, it') <- titer_next it ;
      match o with
      | None => Ok []
      | Some x => do r <- titer_run n' it' ; Ok (x :: r)
      end
  end.

(** Model of src/packet/buffer_rx.rs: DepacketizingBuffer, for any codec.

    The codec is a parameter: its state [DS], how one packet is unpacked ([dep], packet.rs
    Depacketizer::depacketize, which appends to the output and updates the extra data, [None] is an
    error), its head and tail tests, and the contiguity check (contiguity.rs:13-23).

    Simplifications: an RTP time is one number (all packets of a buffer have one clock rate);
    [max_time] is written and never read, and is left out; sequence numbers are mathematical
    integers (the i64 casts and saturating operations of update_segments are exact below 2^63). *)
From Verif Require Import Base.

Section Buf.
Context {DS X CS : Type}.
Variable xnone : X.
Variable dep : DS -> list Z -> list Z -> X -> DS * option (list Z * X).
Variable is_head : DS -> list Z -> bool.
Variable is_tail : DS -> bool -> list Z -> bool.
Variable check : CS -> X -> bool -> CS * (bool * bool).   (* (can emit, contiguous) *)

(** buffer_rx.rs:17-30 (the parts that matter here) *)
Record meta := mkM { seq : Z; time : Z; marker : bool }.
(** 33-39 *)
Record frame := mkF { ftime : Z; contiguous : bool; fmeta : list meta; fdata : list Z; fextra : X }.
(** 113-118 *)
Record entry := mkE { emeta : meta; edata : list Z; head : bool; tail : bool }.
(** 121-130 *)
Record buf := mkB { hold_back : Z; depack : DS; queue : list entry; last_emitted : option (Z * X);
  cache : option ((Z * Z) * frame); contig : CS }.

(** 190-214: [queue] is sorted, so the binary search finds the number or its place. *)
Definition has_seq (q : list entry) (s : Z) : bool := existsb (fun e => seq (emeta e) =? s) q.
Fixpoint insert (q : list entry) (e : entry) : list entry :=
  match q with
  | [] => [e]
  | x :: q' => if seq (emeta e) <? seq (emeta x) then e :: q else x :: insert q' e
  end.

(** 168-215 *)
Definition push_entry (b : buf) (m : meta) (data : list Z) (partition : option (bool * bool)) : buf :=
  let too_old := match last_emitted b with
                 | Some (last, _) => (seq m <=? last) && (0 <? hold_back b)
                 | None => false
                 end in
  if too_old then b
  else if has_seq (queue b) (seq m) then b
  else
    let '(h, t) := match partition with
                   | Some p => p
                   | None => (is_head (depack b) data, is_tail (depack b) (marker m) data)
                   end in
    mkB (hold_back b) (depack b) (insert (queue b) (mkE m data h t)) (last_emitted b) (cache b) (contig b).
(** 160-166 *)
Definition push (b : buf) (m : meta) (data : list Z) : buf := push_entry b m data None.
Definition push_padding (b : buf) (m : meta) : buf := push_entry b m [] (Some (false, false)).

(** 371-425 update_segments: [start] is (index, time, offset). *)
Fixpoint segments (q : list entry) (index : Z) (start : option (Z * Z * Z)) : list (Z * Z) :=
  match q with
  | [] => []
  | e :: q' =>
      let iseq := seq (emeta e) in
      let expected := match start with Some (_, _, off) => off + index =? iseq | None => false end in
      let same_time := match start with Some (_, t, _) => t =? time (emeta e) | None => false end in
      let out1 := match start with
                  | Some (si, _, _) => if expected && negb same_time then [(si, index - 1)] else []
                  | None => []
                  end in
      let start := match start with
                   | Some s => if negb expected || negb same_time then None else Some s
                   | None => None
                   end in
      let start := match start with
                   | None => if head e then Some (index, time (emeta e), iseq - index) else None
                   | Some s => Some s
                   end in
      match start with
      | Some (si, _, _) => if tail e then out1 ++ (si, index) :: segments q' (index + 1) None
                           else out1 ++ segments q' (index + 1) start
      | None => out1 ++ segments q' (index + 1) None
      end
  end.

(** 356-360: unpack the packets in turn. *)
Fixpoint unpack (d : DS) (es : list entry) (data : list Z) (x : X) : DS * option (list Z * X) :=
  match es with
  | [] => (d, Some (data, x))
  | e :: es' => match dep d (edata e) data x with
                | (d', Some (data', x')) => unpack d' es' data' x'
                | (d', None) => (d', None)
                end
  end.

(** 332-369 depacketize: the result and the new codec state.  The cache is taken. *)
Definition range_eq (r s : Z * Z) : bool := (fst r =? fst s) && (snd r =? snd s).
Definition depacketize (b : buf) (start stop : Z) : DS * res frame :=
  let fresh :=
    match slice (queue b) start (stop + 1) with
    | Ok ((e0 :: _) as es) =>
        match unpack (depack b) es [] xnone with
        | (d, Some (data, x)) => (d, Ok (mkF (time (emeta e0)) true (map emeta es) data x))
        | (d, None) => (d, Err)
        end
    | _ => (depack b, Panic)
    end in
  match cache b with
  | Some (r, f) => if range_eq r (start, stop) then (depack b, Ok f) else fresh
  | None => fresh
  end.

Definition is_padding (e : entry) : bool := (zlen (edata e) =? 0) && negb (head e) && negb (tail e).
(** id.rs:222-227 *)
Definition is_next (a b : Z) : bool := a + 1 =? b.

(** 293-303: drop padding from the front while more than [hb] entries are queued. *)
Fixpoint drop_front (hb : Z) (q : list entry) (last : Z) : list entry * Z :=
  match q with
  | [] => ([], last)
  | e :: q' =>
      if zlen q <=? hb then (q, last)
      else if negb (is_padding e) then (q, last)
      else drop_front hb q' (if is_next last (seq (emeta e)) then seq (emeta e) else last)
  end.
(** 318-325 *)
Fixpoint retain_padding (excess : Z) (q : list entry) : list entry :=
  match q with
  | [] => []
  | e :: q' => if (0 <? excess) && is_padding e then retain_padding (excess - 1) q'
               else e :: retain_padding excess q'
  end.
(** 288-330 *)
Definition discard_old_padding (b : buf) : buf :=
  let n := zlen (queue b) in
  let '(q, le) := match last_emitted b with
                  | Some (last, x) => let '(q, last') := drop_front (hold_back b) (queue b) last in (q, Some (last', x))
                  | None => (queue b, None)
                  end in
  let excess := Z.max 0 (zlen (filter is_padding q) - hold_back b) in
  let q := retain_padding excess q in
  mkB (hold_back b) (depack b) q le (if zlen q =? n then cache b else None) (contig b).

(** 427-454 is_following_last *)
Fixpoint all_padding_from (last : Z) (q : list entry) : option Z :=
  match q with
  | [] => Some last
  | e :: q' => if is_next last (seq (emeta e)) && is_padding e then all_padding_from (seq (emeta e)) q' else None
  end.
Definition is_following_last (b : buf) (start : Z) : res bool :=
  match last_emitted b with
  | None => Ok true
  | Some (last, _) =>
      do pre <- upto (queue b) start;
      match all_padding_from last pre with
      | None => Ok false
      | Some s => do e <- idx (queue b) start; Ok (is_next s (seq (emeta e)))
      end
  end.

(** What [pop] returns: nothing, an error, or a frame. *)
Inductive popped := Nothing | Failed | Popped (f : frame).

(** 217-286 pop *)
Definition pop (b : buf) : res (buf * popped) :=
  let segs := segments (queue b) 0 None in
  match segs with
  | [] => Ok (discard_old_padding b, Nothing)
  | (start, stop) :: _ =>
      do elast <- idx (queue b) stop;
      let sq := seq (emeta elast) in
      let '(ds, r) := depacketize b start stop in
      match r with
      | Panic => Panic
      | Err => do q <- from (queue b) (stop + 1);
               Ok (mkB (hold_back b) ds q (Some (sq, xnone)) None (contig b), Failed)
      | Ok f =>
          let more := hold_back b <=? zlen segs in
          do cseq <- is_following_last b start;
          if negb cseq && negb more then
            Ok (discard_old_padding (mkB (hold_back b) ds (queue b) (last_emitted b) (Some ((start, stop), f)) (contig b)), Nothing)
          else
            let '(cs, (emit, cont)) := check (contig b) (fextra f) cseq in
            let f' := mkF (ftime f) cont (fmeta f) (fdata f) (fextra f) in
            do q <- from (queue b) (stop + 1);
            if negb emit then Ok (mkB (hold_back b) ds q (last_emitted b) None cs, Nothing)
            else Ok (mkB (hold_back b) ds q (Some (sq, fextra f)) None cs, Popped f')
      end
  end.

(** 133-158 new *)
Definition new (hb : Z) (d : DS) (c : CS) : buf := mkB hb d [] None None c.

(** A history of calls, and the frames it returned, oldest first. *)
Inductive op := Push (m : meta) (data : list Z) | PushPadding (m : meta) | Pop.
Fixpoint run (b : buf) (ops : list op) : res (buf * list frame) :=
  match ops with
  | [] => Ok (b, [])
  | o :: ops' =>
      do r <- match o with
              | Push m d => Ok (push b m d, Nothing)
              | PushPadding m => Ok (push_padding b m, Nothing)
              | Pop => pop b
              end;
      do r2 <- run (fst r) ops';
      Ok (fst r2, match snd r with Popped f => f :: snd r2 | _ => snd r2 end)
  end.
End Buf.

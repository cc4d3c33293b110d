(** Model of the TWCC receiver register that records arrivals and builds
    feedback (/repo/src/rtp/rtcp/twcc.rs 224-476, 506-559, 561-739, 803-809).
    Times are nanoseconds (an [Instant] is an integer), sequence numbers the
    extended 64-bit ones. *)
From Verif Require Import Base TwccModel.

(** twcc.rs:561-565 [ChunkInterim] *)
Inductive interim := Missing (n : Z) | Recv (s : status) (d : Z).

(** twcc.rs:597-602 *)
Definition istatus (i : interim) : status := match i with Missing _ => NotReceived | Recv s _ => s end.
(** twcc.rs:604-613; [d as u8] *)
Definition idelta (i : interim) : list delta :=
  match i with
  | Missing _ => []
  | Recv SmallDelta d => [Small (d mod 256)]
  | Recv _ d => [Large d]
  end.
(** twcc.rs:615-626: what is left of the interim, and whether it is used up *)
Definition consume (i : interim) (n : Z) : res (interim * bool) :=
  match i with
  | Missing c => if c <? n then Panic else Ok (Missing (c - n), c - n =? 0)
  | Recv s d => if 1 <? n then Panic else Ok (i, n =? 1)
  end.

(** [PacketStatus: PartialEq] *)
Definition status_eqb (a b : status) : bool := status_u a =? status_u b.

(** twcc.rs:725-739 *)
Definition must_be_full (c : chunk) : bool := match c with Run _ _ => false | _ => true end.
Definition free (c : chunk) : Z :=
  match c with Run _ n => 8192 - n | VSingle _ f => 14 - f | VDouble _ f => 7 - f end.
(** twcc.rs:803-809 *)
Definition can_append (c : chunk) (s : status) : bool :=
  match c with
  | Run s' _ => status_eqb s' s
  | VSingle _ _ => negb (status_eqb s LargeDelta)
  | VDouble _ _ => true
  end.
(** twcc.rs:668-723: the new chunk and how many statuses went in.  The left
    shifts are on 16 bits. *)
Definition append (c : chunk) (i : interim) : chunk * Z :=
  match c, i with
  | Run s n, Missing m =>
      if negb (status_eqb s NotReceived) then (c, 0) else let k := Z.min (free c) m in (Run s (n + k), k)
  | Run s n, Recv s2 _ =>
      if negb (status_eqb s s2) then (c, 0) else let k := Z.min (free c) 1 in (Run s (n + k), k)
  | VSingle v f, Missing m => let k := Z.min (free c) m in (VSingle (v * 2 ^ k mod 65536) (f + k), k)
  | VSingle v f, Recv s2 _ =>
      if status_eqb s2 LargeDelta then (c, 0)
      else let k := Z.min (free c) 1 in
           if k =? 1 then (VSingle (Z.lor (v * 2 mod 65536) 1) (f + 1), k) else (c, k)
  | VDouble v f, Missing m => let k := Z.min (free c) m in (VDouble (v * 2 ^ (k * 2) mod 65536) (f + k), k)
  | VDouble v f, Recv s2 _ =>
      let k := Z.min (free c) 1 in
      if k =? 1 then (VDouble (Z.lor (v * 4 mod 65536) (status_u s2)) (f + 1), k) else (c, k)
  end.

(** twcc.rs:637-666: fill [c] in turn from the interims; gives the filled chunk
    and whether the end of the interims was reached *)
Fixpoint fill_max (c : chunk) (is : list interim) : chunk * bool :=
  match is with
  | [] => (c, true)
  | i :: tl =>
      if free c =? 0 then (c, false)
      else if negb (can_append c (istatus i)) then (c, false)
      else fill_max (fst (append c i)) tl
  end.
Definition append_max (c : chunk) (is : list interim) : Z :=
  let (f, reached_end) := fill_max c is in
  if must_be_full f && (0 <? free f) && negb reached_end then 0 else free c - free f.

(** twcc.rs:377-405: the chunk type that takes the most, and how much *)
Definition choose (bytes : Z) (first : status) (is : list interim) : chunk * Z :=
  let c_run := Run first 0 in let c_single := VSingle 0 0 in let c_double := VDouble 0 0 in
  let max_run := append_max c_run is in
  let max_single := append_max c_single is in
  let max_double := append_max c_double is in
  let max := Z.max (Z.max max_run max_single) max_double in
  if max =? max_run then (c_run, max_run)
  else if (max =? max_single) && (19 <=? bytes) then (c_single, max_single)
  else if (max =? max_double) && (19 <=? bytes) then (c_double, max_double)
  else (c_run, max_run).

(** twcc.rs:410-446, the inner loop.  State: chunk, bytes left, interims,
    status count (a u16), deltas, [report_from] *)
Record work := Work { w_chunk : chunk; w_bytes : Z; w_is : list interim; w_cnt : Z; w_ds : list delta; w_from : nat }.
Fixpoint fill (fuel : nat) (todo : Z) (w : work) : res work :=
  match fuel with
  | O => Panic
  | S f =>
      if w_bytes w <? 7 then Ok w
      else if todo =? 0 then Ok w
      else match w_is w with
      | [] => Ok w
      | i :: tl =>
          let (c', k) := append (w_chunk w) i in
          if k <=? 0 then Panic (* assert 425 *)
          else if todo <? k then Panic (* u16 subtraction *)
          else if U16 <=? w_cnt w + k then Panic (* u16 addition *)
          else
            do (i', done) <- consume i k ;
            if done then
              let ds := idelta i' in
              let used := deltas_len ds in
              if w_bytes w <? used then Panic
              else fill f (todo - k)
                     (Work c' (w_bytes w - used) tl (w_cnt w + k) (w_ds w ++ ds)
                        (w_from w + match i' with Recv _ _ => 1 | _ => 0 end))
            else if negb (todo - k =? 0) then Panic (* assert 444 *)
            else fill f (todo - k) (Work c' (w_bytes w) (i' :: tl) (w_cnt w + k) (w_ds w) (w_from w))
      end
  end.

(** twcc.rs:368-457, the outer loop *)
Record acc := Acc { a_bytes : Z; a_is : list interim; a_cnt : Z; a_ds : list delta; a_cs : list chunk; a_from : nat }.
Fixpoint chunks_loop (fuel : nat) (a : acc) : res acc :=
  match fuel with
  | O => Panic
  | S f =>
      match a_is a with
      | [] => Ok a
      | i0 :: _ =>
          if a_bytes a <? 7 then Ok a
          else
            let (c, max) := choose (a_bytes a) (istatus i0) (a_is a) in
            do w <- fill (S (Z.to_nat max)) max (Work c (a_bytes a) (a_is a) (a_cnt a) (a_ds a) (a_from a)) ;
            let c := w_chunk w in
            do c <- (if must_be_full c && (0 <? free c) then
                       match w_is w with
                       | [] => Ok (fst (append c (Missing (free c))))
                       | _ => Panic (* assert 451 *)
                       end
                     else Ok c) ;
            if w_bytes w <? 2 then Panic
            else chunks_loop f (Acc (w_bytes w - 2) (w_is w) (w_cnt w) (w_ds w) (a_cs a ++ [c]) (w_from w))
      end
  end.

(** twcc.rs:523-531: runs of at most 8192 missing packets *)
Fixpoint missings (fuel : nat) (todo : Z) : list interim :=
  match fuel with
  | O => []
  | S f => if todo <=? 0 then [] else Missing (Z.min todo 8192) :: missings f (todo - Z.min todo 8192)
  end.
(** twcc.rs:506-559 [build_interims]: [qs] are the receipts from [report_from]
    on, [ps] and [pt] the previous number and time *)
Fixpoint build_interims (qs : list (Z * Z)) (ps pt : Z) : list interim :=
  match qs with
  | [] => []
  | (s, t) :: tl =>
      let diff_seq := s - ps in
      let miss := if 1 <? diff_seq then missings (Z.to_nat diff_seq) (diff_seq - 1) else [] in
      let diff := Z.quot (t - pt) 1000 in
      if (diff <? -8192000) || (8191750 <? diff) then miss
      else
        let st := if (diff <? 0) || (63750 <? diff) then LargeDelta else SmallDelta in
        miss ++ Recv st (Z.quot diff 250) :: build_interims tl s t
  end.

(** twcc.rs:224-257 [TwccRecvRegister] *)
Record recv := RV { rv_keep : nat; rv_q : list (Z * Z); rv_from : nat; rv_start : option Z; rv_gen : Z }.
(** twcc.rs:266-276 *)
Definition recv_new (keep : nat) : recv := RV keep [] 0 None 0.
(** twcc.rs:285-310 [update_seq]: the queue is sorted, so binary search finds
    the first receipt that is not smaller.  [Instant] subtraction saturates at
    zero. *)
Definition update_seq (r : recv) (seq time : Z) : recv :=
  if existsb (fun x => fst x =? seq) (rv_q r) then r
  else
    let too_old := match rv_start r with
                   | Some st => 8192000000 <=? Z.max 0 (st - time)
                   | None => false
                   end in
    if too_old then r
    else
      let i := length (filter (fun x => fst x <? seq) (rv_q r)) in
      RV (rv_keep r) (firstn i (rv_q r) ++ (seq, time) :: skipn i (rv_q r))
         (if (i <? rv_from r)%nat then i else rv_from r) (rv_start r) (rv_gen r).

(** total number of statuses, enough iterations of the outer loop *)
Definition weight (is : list interim) : Z :=
  fold_right (fun i n => match i with Missing c => c | Recv _ _ => 1 end + n) 0 is.

(** twcc.rs:312-476 [build_report]; the SSRCs are filled in by the caller
    (session.rs:395-396) and are 0 here *)
Definition build_report (r : recv) (max_bytes : Z) : res (option twcc * recv) :=
  if 10000 <? max_bytes then Ok (None, r)
  else match nth_error (rv_q r) (rv_from r) with
  | None => Ok (None, r)
  | Some (base_seq, first_time) =>
      let start := match rv_start r with Some s => s | None => first_time end in
      let rel := Z.max 0 (first_time - start) in
      let reference := (rel / 1000 / 64000) mod U32 in
      let base_time := start + reference * 64000000 in
      let is := build_interims (skipn (rv_from r) (rv_q r)) base_seq base_time in
      if max_bytes <? 20 then Panic (* usize subtraction *)
      else
        do a <- chunks_loop (S (Z.to_nat (weight is))) (Acc (max_bytes - 20) is 0 [] [] (rv_from r)) ;
        match a_cs a with
        | [] => Ok (None, RV (rv_keep r) (rv_q r) (a_from a) (Some start) (rv_gen r))
        | _ =>
            let remove := (a_from a - rv_keep r)%nat in
            Ok (Some (Twcc 0 0 (base_seq mod U16) (a_cnt a) reference (rv_gen r mod 256) (a_cs a) (a_ds a)),
                RV (rv_keep r) (skipn remove (rv_q r)) (a_from a - remove) (Some start) (rv_gen r + 1))
        end
  end.

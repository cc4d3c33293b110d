(** Model of the leaky-bucket pacer. /repo/src/pacer/leaky.rs, /repo/src/pacer/queue.rs,
    /repo/src/bwe/probe/cluster.rs and the rate arithmetic of /repo/crates/proto/src/bandwidth.rs.

    Times and durations are nanoseconds (Z); time 0 is the constant "beginning of time"
    (src/util/time_tricks.rs:52).  Sizes are bytes (Z; i64 overflow is not modelled).  Bit rates
    are exact non-negative rationals (Q): the source has f64, whose rounding is not modelled
    beyond the rounding to whole bytes and nanoseconds, and infinite or NaN rates are left out.
    A (mid, rid) pair is an opaque number.  Logging is left out. *)
From Verif Require Import Base.
From Coq Require Export QArith Qround.
Open Scope Z_scope.

(** f64::round, and Duration::from_secs_f64's rounding to nanoseconds (which takes ties to even;
    here ties go up). *)
Definition qround (q : Q) : Z := Qfloor (q + (1 # 2)).
(** bandwidth.rs:96-105 *)
Definition rate_mul (r : Q) (d : Z) : Z := qround (r * inject_Z d / inject_Z 8000000000).
(** bandwidth.rs:238-253 *)
Definition size_div (s : Z) (r : Q) : Z :=
  if Qeq_bool r 0 then 0 else qround (inject_Z (s * 8000000000) / r).
(** bandwidth.rs:221-236 *)
Definition size_per (s d : Z) : Q :=
  if d =? 0 then 0%Q else (inject_Z (s * 8000000000) / inject_Z d)%Q.
(** bandwidth.rs:199-201 *)
Definition sat_sub (a b : Z) : Z := Z.max (a - b) 0.
Definition qltb (a b : Q) : bool := negb (Qle_bool b a).

(** leaky.rs:15-18, 171 *)
Definition MAX_BITRATE : Q := inject_Z 10000000000.
Definition MAX_DEBT_IN_TIME : Z := 500000000.
Definition PADDING_BURST_INTERVAL : Z := 5000000.
Definition PACING : Z := 40000000.
Definition QUEUE_LIMIT : Z := 2000000000.
(** time_tricks.rs:5-9: about a hundred years from the start *)
Definition NOT_HAPPENING : Z := 3153600000 * 1000000000.

(** queue.rs:7-26, 72-77 (the two records in one); priority Media = 0, Padding = 1, Empty = 2 *)
Record qstate := mkQ {
  q_id : Z; q_unpaced : bool; q_use_pad : bool;
  q_created : Z; q_bytes : Z; q_count : Z; q_origin : Z;
  q_emitted : option Z; q_unsent : option Z; q_prio : Z }.

(** queue.rs:105-107; Instant subtraction saturates *)
Definition total_queue_time (q : qstate) (now : Z) : Z :=
  q_origin q + q_count q * Z.max 0 (now - q_created q).

(** cluster.rs:19-41 (the kind is not used here) *)
Record pconfig := mkPC { pc_cluster : Z; pc_rate : Q; pc_dur : Z; pc_min_packets : Z; pc_delta : Z }.
(** cluster.rs:134-155 (last_packet_at is not read) *)
Record probe := mkProbe { p_cfg : pconfig; p_bytes : Z; p_packets : Z; p_started : option Z; p_last_pad : Z }.
(** cluster.rs:159-168 *)
Definition probe_new (c : pconfig) : probe := mkProbe c 0 0 None 0.
(** cluster.rs:124-126 *)
Definition target_bytes (c : pconfig) : Z := rate_mul (pc_rate c) (pc_dur c).
(** cluster.rs:179-195 *)
Definition next_probe_time (p : probe) : Z :=
  match p_started p with
  | None => 0
  | Some st =>
      if Qeq_bool (pc_rate (p_cfg p)) 0 then NOT_HAPPENING
      else Z.max (st + size_div (p_bytes p) (pc_rate (p_cfg p))) (p_last_pad p + pc_delta (p_cfg p))
  end.
(** cluster.rs:207-218 *)
Definition is_complete (p : probe) : bool :=
  match p_started p with
  | None => false
  | Some _ => (target_bytes (p_cfg p) <=? p_bytes p) && (pc_min_packets (p_cfg p) <=? p_packets p)
  end.
(** cluster.rs:223-227 *)
Definition should_send_now (p : probe) (now : Z) : bool :=
  (next_probe_time p <=? now) && (p_last_pad p + pc_delta (p_cfg p) <=? now).
(** cluster.rs:244-292 *)
Definition next_packet (p : probe) (now : Z) : probe * option Z :=
  let p1 := mkProbe (p_cfg p) (p_bytes p) (p_packets p)
              (match p_started p with None => Some now | s => s end) (p_last_pad p) in
  if now <? p_last_pad p1 + pc_delta (p_cfg p1) then (p1, None)
  else if now <? next_probe_time p1 then (p1, None)
  else if now <=? p_last_pad p1 then (p1, None)
  else
    let p2 := mkProbe (p_cfg p1) (p_bytes p1) (p_packets p1) (p_started p1) now in
    let recommended := Z.max (rate_mul (pc_rate (p_cfg p2)) (pc_delta (p_cfg p2))) 240 in
    let remaining := sat_sub (target_bytes (p_cfg p2)) (p_bytes p2) in
    let request := Z.min remaining recommended in
    if request =? 0 then (p2, None) else (p2, Some request).
(** cluster.rs:301-312 *)
Definition record_packet (p : probe) (now size : Z) : probe :=
  mkProbe (p_cfg p) (p_bytes p + size) (p_packets p + 1)
    (match p_started p with None => Some now | s => s end) (p_last_pad p).

(** mod.rs:147-164 *)
Inductive reason := Handle | FirstEver | Unpaced | Probe1 | Probe2 | Paced | Padding | Immediate.

(** leaky.rs:21-52 (queue_limit is a constant) *)
Record pacer := mkPacer {
  pacing : Q; adjusted : Q; padding : Q;
  last_handle : option Z; last_emitted : option Z; next_time : option (Z * reason);
  debt : Z; pdebt : Z;
  queues : list qstate; next_queue : option Z;
  probes : list probe; completed : option Z; gate : bool; has_padq : bool }.

(** leaky.rs:170-190 *)
Definition new (rate : Q) : pacer :=
  mkPacer rate 0 0 None None None 0 0 [] None [] None true false.

(** leaky.rs:55-65 *)
Definition set_pacing (s : pacer) (r : Q) : pacer :=
  mkPacer r (adjusted s) (padding s) (last_handle s) (last_emitted s) (next_time s) (debt s) (pdebt s)
    (queues s) (next_queue s) (probes s) (completed s) (gate s) (has_padq s).
Definition set_padding (s : pacer) (r : Q) : pacer :=
  mkPacer (pacing s) (adjusted s) r (last_handle s) (last_emitted s) (next_time s) (debt s) (pdebt s)
    (queues s) (next_queue s) (probes s) (completed s) (gate s) (has_padq s).

(** src/util/mod.rs:20-35 applied at leaky.rs:67-76; the reason of a None is the default *)
Definition poll_timeout (s : pacer) : option Z * option reason :=
  match option_map (fun t => t + PACING) (last_handle s), next_time s with
  | Some a, Some (b, r) => if a <? b then (Some a, Some Handle) else (Some b, Some r)
  | None, None => (None, None)
  | None, Some (b, r) => (Some b, Some r)
  | Some a, None => (Some a, Some Handle)
  end.

(** Iterator::min_by_key (the first of the least) and max_by_key (the last of the greatest) *)
Fixpoint min_by {A} (lt : A -> A -> bool) (l : list A) : option A :=
  match l with
  | [] => None
  | x :: l' => match min_by lt l' with None => Some x | Some y => if lt y x then Some y else Some x end
  end.
Fixpoint max_by {A} (lt : A -> A -> bool) (l : list A) : option A :=
  match l with
  | [] => None
  | x :: l' => match max_by lt l' with None => Some x | Some y => if lt y x then Some x else Some y end
  end.
(** Option<Instant> ordering: None first *)
Definition olt (a b : option Z) : bool :=
  match a, b with
  | None, Some _ => true
  | Some x, Some y => x <? y
  | _, None => false
  end.
Definition key_lt (a b : qstate) : bool :=
  (q_prio a <? q_prio b) || ((q_prio a =? q_prio b) && olt (q_emitted a) (q_emitted b)).
Definition nonempty (q : qstate) : bool := 0 <? q_count q.

(** leaky.rs:230-241 (the elapsed time) *)
Definition elapsed (s : pacer) (now : Z) : Z :=
  match last_handle s with None => 0 | Some p => Z.max 0 (now - p) end.

(** leaky.rs:353-386: the rate for the current queues *)
Definition queue_time (qs : list qstate) (now : Z) : Z := fold_right (fun q a => total_queue_time q now + a) 0 qs.
Definition queue_count (qs : list qstate) : Z := fold_right (fun q a => q_count q + a) 0 qs.
Definition queue_bytes (qs : list qstate) : Z := fold_right (fun q a => q_bytes q + a) 0 qs.
Definition min_rate (qs : list qstate) (now : Z) : Q :=
  let avg := queue_time qs now / queue_count qs in
  size_per (queue_bytes qs) (Z.max 1000000 (Z.max 0 (QUEUE_LIMIT - avg))).
Definition base_rate (s : pacer) : Q :=
  match probes s with p :: _ => pc_rate (p_cfg p) | [] => pacing s end.
Definition adjust (base : Q) (qs : list qstate) (now : Z) : Q :=
  if queue_count qs =? 0 then base
  else if qltb base (min_rate qs now)
       then (if qltb MAX_BITRATE (min_rate qs now) then MAX_BITRATE
             else if qltb (min_rate qs now) 0 then 0%Q else min_rate qs now)
       else base.

(** leaky.rs:254-351 *)
Definition next_poll (s : pacer) (now : Z) : option ((Z * reason) * option qstate) :=
  match last_emitted s with
  | None => match filter nonempty (queues s) with q :: _ => Some ((now, FirstEver), Some q) | [] => None end
  | Some _ =>
      let unpaced := filter (fun q => q_unpaced q && (match q_unsent q with Some _ => true | None => false end)) (queues s) in
      match min_by (fun a b => olt (q_unsent a) (q_unsent b)) unpaced with
      | Some q => Some ((match q_unsent q with Some t => t | None => 0 end, Unpaced), Some q)
      | None =>
          let paced :=
            match min_by key_lt (filter nonempty (queues s)) with
            | Some q =>
                if qltb 0 (adjusted s)
                then
                  match probes s with
                  | p :: _ => Some ((next_probe_time p, Probe1), Some q)
                  | [] =>
                      let drain := size_div (debt s) (adjusted s) in
                      let off := if PACING <? drain then drain else 0 in
                      Some ((match last_handle s with Some h => h + off | None => now end, Paced), Some q)
                  end
                else None
            | None => None
            end in
          match paced with
          | Some r => Some r
          | None =>
              if qltb 0 (padding s) && existsb q_use_pad (queues s)
              then
                match probes s with
                | p :: _ => Some ((next_probe_time p, Probe2), None)
                | [] =>
                    let drain := Z.max (size_div (debt s) (adjusted s)) (size_div (pdebt s) (padding s)) in
                    let drain := if drain =? 0 then 1000 else drain in
                    Some ((match last_handle s with Some h => h + drain | None => now end, Padding), None)
                end
              else None
          end
      end
  end.

(** leaky.rs:400-466: has_padding_queue, the probes, and the request (midrid, bytes) *)
Definition padding_request (s : pacer) (now : Z) : pacer * option (Z * Z) :=
  if negb (forallb (fun q => q_count q =? 0) (queues s)) then (s, None)
  else
    let q := max_by (fun a b => olt (q_emitted a) (q_emitted b)) (filter q_use_pad (queues s)) in
    let has := match q with Some _ => true | None => false end in
    let upd ps := mkPacer (pacing s) (adjusted s) (padding s) (last_handle s) (last_emitted s) (next_time s) (debt s) (pdebt s)
                    (queues s) (next_queue s) ps (completed s) (gate s) has in
    match q with
    | None => (upd [], None)
    | Some q =>
        match probes s with
        | p :: ps =>
            if negb (should_send_now p now) then (upd (p :: ps), None)
            else match next_packet p now with
                 | (p', None) => (upd (p' :: ps), None)
                 | (p', Some n) => (upd (p' :: ps), Some (q_id q, n))
                 end
        | [] =>
            if negb (debt s =? 0) || negb (pdebt s =? 0) then (upd [], None)
            else if Qeq_bool (padding s) 0 then (upd [], None)
            else (upd [], Some (q_id q, rate_mul (padding s) PADDING_BURST_INTERVAL))
        end
    end.

Definition set_next (s : pacer) (t : option (Z * reason)) (q : option Z) : pacer :=
  mkPacer (pacing s) (adjusted s) (padding s) (last_handle s) (last_emitted s) t (debt s) (pdebt s)
    (queues s) q (probes s) (completed s) (gate s) (has_padq s).

(** leaky.rs:78-122 *)
Definition handle_timeout (s : pacer) (now : Z) (qs : list qstate) : pacer * option (Z * Z) :=
  let e := elapsed s now in
  let s1 := mkPacer (pacing s) (adjust (base_rate s) qs now) (padding s) (Some now) (last_emitted s) None
              (sat_sub (debt s) (rate_mul (adjusted s) e)) (sat_sub (pdebt s) (rate_mul (padding s) e))
              qs (next_queue s) (probes s) (completed s) false (has_padq s) in
  let (s2, req) := padding_request s1 now in
  match req with
  | Some (m, n) => (set_next s2 None (Some m), Some (m, n))
  | None =>
      match next_queue s2 with
      | Some _ => (s2, None)
      | None =>
          match next_poll s2 now with
          | None => (s2, None)
          | Some ((t, r), q) =>
              (set_next s2 (Some (t, r)) (if now <? t then None else option_map q_id q), None)
          end
      end
  end.

(** leaky.rs:124-140, 202-204, 468-481 *)
Definition active_cluster (s : pacer) : option Z :=
  match probes s with p :: _ => Some (pc_cluster (p_cfg p)) | [] => None end.
Definition poll_queue (s : pacer) : pacer * option (Z * option Z) :=
  if gate s then (s, None)
  else match next_queue s with
       | None => (s, None)
       | Some q =>
           (mkPacer (pacing s) (adjusted s) (padding s) (last_handle s) (last_emitted s)
              (match last_handle s with Some t => Some (t + 1000, Immediate) | None => None end)
              (debt s) (pdebt s) (queues s) None (probes s) (completed s) true (has_padq s),
            Some (q, active_cluster s))
       end.

(** leaky.rs:218-228 *)
Definition check_internal (ps : list probe) : list probe * option Z :=
  match ps with
  | p :: ps' => if is_complete p then (ps', Some (pc_cluster (p_cfg p))) else (ps, None)
  | [] => ([], None)
  end.

(** leaky.rs:142-162, 388-394 *)
Definition register_send (s : pacer) (now size : Z) : pacer :=
  let ps := match probes s with p :: ps => record_packet p now size :: ps | [] => [] end in
  let (ps', c) := check_internal ps in
  mkPacer (pacing s) (adjusted s) (padding s) (last_handle s) (Some now) (next_time s)
    (Z.min (debt s + size) (rate_mul (adjusted s) MAX_DEBT_IN_TIME))
    (Z.min (pdebt s + size) (rate_mul (padding s) MAX_DEBT_IN_TIME))
    (queues s) (next_queue s) ps' (match c with Some x => Some x | None => completed s end) (gate s) (has_padq s).

(** leaky.rs:196-199 *)
Definition start_probe (s : pacer) (c : pconfig) : pacer :=
  mkPacer (pacing s) (adjusted s) (padding s) (last_handle s) (last_emitted s) (next_time s) (debt s) (pdebt s)
    (queues s) (next_queue s) (probes s ++ [probe_new c]) (completed s) (gate s) (has_padq s).
(** leaky.rs:207-215 *)
Definition check_probe_complete (s : pacer) : pacer * option Z :=
  match completed s with
  | Some c =>
      (mkPacer (pacing s) (adjusted s) (padding s) (last_handle s) (last_emitted s) (next_time s) (debt s) (pdebt s)
         (queues s) (next_queue s) (probes s) None (gate s) (has_padq s), Some c)
  | None =>
      let (ps, c) := check_internal (probes s) in
      (mkPacer (pacing s) (adjusted s) (padding s) (last_handle s) (last_emitted s) (next_time s) (debt s) (pdebt s)
         (queues s) (next_queue s) ps None (gate s) (has_padq s), c)
  end.

(** ** How the session drives it.  One poll is poll_queue and, when the chosen stream had a packet
    of so many bytes, register_send (src/session.rs:988-1031). *)
Inductive event :=
| EHandle (now : Z) (qs : list qstate)     (* session.rs:374-387 *)
| EPoll (sent : option (Z * Z))            (* the time and payload size, if a packet was found *)
| EPacing (r : Q) | EPadding (r : Q)       (* session.rs:1185-1205 *)
| EProbe (c : pconfig) | ECheck.           (* session.rs:349-372 *)

Inductive output :=
| ORequest (r : option (Z * Z)) | OPolled (q : option (Z * option Z)) | ODone (c : option Z) | ONone.

Definition step (s : pacer) (e : event) : pacer * output :=
  match e with
  | EHandle now qs => let (s', r) := handle_timeout s now qs in (s', ORequest r)
  | EPoll sent =>
      match poll_queue s with
      | (s', None) => (s', OPolled None)
      | (s', Some q) =>
          (match sent with Some (t, n) => register_send s' t n | None => s' end, OPolled (Some q))
      end
  | EPacing r => (set_pacing s r, ONone)
  | EPadding r => (set_padding s r, ONone)
  | EProbe c => (start_probe s c, ONone)
  | ECheck => let (s', c) := check_probe_complete s in (s', ODone c)
  end.

Fixpoint run (s : pacer) (es : list event) : pacer * list output :=
  match es with
  | [] => (s, [])
  | e :: es' => let (s', o) := step s e in let (s'', os) := run s' es' in (s'', o :: os)
  end.

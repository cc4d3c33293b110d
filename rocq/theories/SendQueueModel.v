(** Model of src/streams/send_queue.rs (SendQueue, TotalQueue).
    Instant and Duration are [Z] in a fixed unit; the [not_happening()] sentinel stamp is [None].
    Duration arithmetic is unbounded (the code would panic past 2^64 seconds). *)
From Verif Require Import Base.

Section Q.
Context {B : Type}.
(** The part of an RtpPacket the queue looks at; [qbody] stands for everything else. *)
Record qpkt := mkQ { qlen : Z; qbody : B }.

(** send_queue.rs:149-161 *)
Record total := mkTot { unsent_count : Z; unsent_size : Z; queue_time : Z; tlast : option Z }.
(** send_queue.rs:10-14 *)
Record sendq := mkSendq { queue : list (qpkt * option Z); stotal : total; last_emitted : option Z }.

(** send_queue.rs:16-23, 149 (Default) *)
Definition tot0 : total := mkTot 0 0 0 None.
Definition sq_new : sendq := mkSendq [] tot0 None.

(** send_queue.rs:25-31 push *)
Definition sq_push (q : sendq) (p : qpkt) : sendq :=
  mkSendq (queue q ++ [(p, None)]) (stotal q) (last_emitted q).

(** send_queue.rs:164-175 move_time_forward; [now - last] on Instant saturates at zero. *)
Definition move_time_forward (t : total) (now : Z) : res total :=
  match tlast t with
  | Some l =>
      if 0 <? unsent_count t
      then Ok (mkTot (unsent_count t) (unsent_size t)
                     (queue_time t + Z.max 0 (now - l) * unsent_count t) (Some now))
      else Panic
  | None =>
      if (unsent_count t =? 0) && (unsent_size t =? 0) && (queue_time t =? 0) then Ok t else Panic
  end.

(** send_queue.rs:177-182 increase *)
Definition increase (t : total) (now size : Z) : res total :=
  do t1 <- move_time_forward t now;
  Ok (mkTot (unsent_count t1 + 1) (unsent_size t1 + size) (queue_time t1) (Some now)).

(** send_queue.rs:184-197 decrease; usize and Duration subtraction panic below zero. *)
Definition decrease (t : total) (now size qt : Z) : res total :=
  do t1 <- move_time_forward t now;
  if (unsent_count t1 <? 1) || (unsent_size t1 <? size) || (queue_time t1 <? qt) then Panic
  else if unsent_count t1 - 1 =? 0
       then if unsent_size t1 - size =? 0 then Ok (mkTot 0 0 0 None) else Panic
       else Ok (mkTot (unsent_count t1 - 1) (unsent_size t1 - size) (queue_time t1 - qt) (tlast t1)).

(** send_queue.rs:33-43 handle_timeout: the loop over the reversed queue *)
Fixpoint stamp_rev (rq : list (qpkt * option Z)) (t : total) (now : Z) : res (list (qpkt * option Z) * total) :=
  match rq with
  | [] => Ok ([], t)
  | (p, Some s) :: r => Ok (rq, t)
  | (p, None) :: r =>
      do t1 <- increase t now (qlen p);
      do rt <- stamp_rev r t1 now;
      Ok ((p, Some now) :: fst rt, snd rt)
  end.
Definition sq_timeout (q : sendq) (now : Z) : res sendq :=
  do rt <- stamp_rev (rev (queue q)) (stotal q) now;
  Ok (mkSendq (rev (fst rt)) (snd rt) (last_emitted q)).

(** send_queue.rs:45-52 need_timeout *)
Definition need_timeout (q : sendq) : bool :=
  match rev (queue q) with (_, None) :: _ => true | _ => false end.

(** send_queue.rs:54-61 peek *)
Definition sq_peek (q : sendq) : option qpkt :=
  match queue q with (p, Some _) :: _ => Some p | _ => None end.

(** send_queue.rs:63-79 pop *)
Definition sq_pop (q : sendq) (now : Z) : res (sendq * option qpkt) :=
  match queue q with
  | (p, Some ts) :: r =>
      do t <- decrease (stotal q) now (qlen p) (Z.max 0 (now - ts));
      Ok (mkSendq r t (Some now), Some p)
  | _ => Ok (q, None)
  end.

(** src/pacer/mod.rs QueueSnapshot; send_queue.rs:89-109 snapshot.  [priority] Media is [true]. *)
Record snapshot := mkSnap { created_at : Z; byte_size : Z; packet_count : Z; total_queue_time : Z;
  snap_last_emitted : option Z; first_unsent : option Z; is_media : bool }.
Fixpoint first_stamped (l : list (qpkt * option Z)) : option Z :=
  match l with [] => None | (_, Some t) :: _ => Some t | (_, None) :: l' => first_stamped l' end.
Definition sq_snapshot (q : sendq) (now : Z) : res (sendq * snapshot) :=
  do t <- move_time_forward (stotal q) now;
  Ok (mkSendq (queue q) t (last_emitted q),
      mkSnap now (unsent_size t) (unsent_count t mod U32) (queue_time t) (last_emitted q)
             (first_stamped (queue q)) (0 <? unsent_count t)).

(** send_queue.rs:111-115 clear *)
Definition sq_clear (q : sendq) : sendq := mkSendq [] tot0 None.

Inductive qop := QPush (p : qpkt) | QTimeout (now : Z) | QPop (now : Z) | QSnapshot (now : Z) | QClear.
Inductive qout := ONone | OPop (o : option qpkt) | OSnap (s : snapshot).
Definition qstep (q : sendq) (o : qop) : res (sendq * qout) :=
  match o with
  | QPush p => Ok (sq_push q p, ONone)
  | QTimeout now => do q' <- sq_timeout q now; Ok (q', ONone)
  | QPop now => do x <- sq_pop q now; Ok (fst x, OPop (snd x))
  | QSnapshot now => do x <- sq_snapshot q now; Ok (fst x, OSnap (snd x))
  | QClear => Ok (sq_clear q, ONone)
  end.
Fixpoint qrun (q : sendq) (ops : list qop) : res (sendq * list qout) :=
  match ops with
  | [] => Ok (q, [])
  | o :: os => do x <- qstep q o; do y <- qrun (fst x) os; Ok (fst y, snd x :: snd y)
  end.
End Q.
Arguments qpkt : clear implicits. Arguments sendq : clear implicits. Arguments qop : clear implicits. Arguments qout : clear implicits.

(** C10: what the send queue should do, in terms of the packets inside it only. *)
From Verif Require Import Base SendQueueModel.
Section Q.
Context {B : Type}.
Local Notation qpkt := (SendQueueModel.qpkt B). Local Notation sendq := (SendQueueModel.sendq B).
Local Notation qop := (SendQueueModel.qop B). Local Notation qout := (SendQueueModel.qout B).

(** A plain FIFO of packets with the time they became visible (or not yet), and the time of the
    last removal. *)
Definition fifo : Type := (list (qpkt * option Z) * option Z)%type.
Definition visible (l : list (qpkt * option Z)) : list (qpkt * Z) :=
  flat_map (fun x => match snd x with Some t => [(fst x, t)] | None => [] end) l.
Definition sumz (l : list Z) : Z := fold_right Z.add 0 l.
(** The snapshot of the visible packets. *)
Definition measure (f : fifo) (now : Z) : snapshot :=
  let v := visible (fst f) in
  mkSnap now (sumz (map (fun x => qlen (fst x)) v)) (zlen v) (sumz (map (fun x => now - snd x) v))
         (snd f) (match v with [] => None | x :: _ => Some (snd x) end)
         (match v with [] => false | _ => true end).
Definition fstep (f : fifo) (o : qop) : fifo * qout :=
  match o with
  | QPush p => ((fst f ++ [(p, None)], snd f), ONone)
  | QTimeout now => ((map (fun x => (fst x, match snd x with None => Some now | s => s end)) (fst f), snd f), ONone)
  | QPop now => match fst f with
                | (p, Some _) :: r => ((r, Some now), OPop (Some p))
                | _ => (f, OPop None)
                end
  | QSnapshot now => (f, OSnap (measure f now))
  | QClear => (([], None), ONone)
  end.
Fixpoint frun (f : fifo) (ops : list qop) : fifo * list qout :=
  match ops with
  | [] => (f, [])
  | o :: os => let x := fstep f o in let y := frun (fst x) os in (fst y, snd x :: snd y)
  end.

(** The clock does not run backwards; sizes are not negative. *)
Fixpoint clock (cur : Z) (ops : list qop) : Prop :=
  match ops with
  | [] => True
  | QPush p :: os => 0 <= qlen p /\ clock cur os
  | QClear :: os => clock cur os
  | (QTimeout t | QPop t | QSnapshot t) :: os => cur <= t /\ clock t os
  end.

(** Packets pushed and packets popped, in order. *)
Fixpoint pushed (ops : list qop) : list qpkt :=
  match ops with [] => [] | QPush p :: os => p :: pushed os | _ :: os => pushed os end.
Fixpoint popped (outs : list qout) : list qpkt :=
  match outs with [] => [] | OPop (Some p) :: os => p :: popped os | _ :: os => popped os end.

(** The queue never holds 2^32 packets at a snapshot *)
Fixpoint never_full (f : fifo) (ops : list qop) : Prop :=
  match ops with
  | [] => True
  | o :: os => (match o with QSnapshot _ => zlen (fst f) < U32 | _ => True end) /\ never_full (fst (fstep f o)) os
  end.
End Q.

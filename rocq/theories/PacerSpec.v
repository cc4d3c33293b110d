(** What the pacer theorems speak about: windows of a run. *)
From Verif Require Import Base PacerModel.
Open Scope Z_scope.

(** 40 ms worth of bytes at a rate (and a nanosecond) *)
Definition burst (hi : Q) : Q := (hi * inject_Z 40000001 / inject_Z 8000000000)%Q.

(** Ordinary events: no unpaced queue, no probe; the rates set lie between lo and hi; what is
    queued can be drained in time at the rate hi; packets have at most M bytes. *)
Definition ev_ok (lo hi : Q) (M : Z) (e : event) : Prop :=
  match e with
  | EHandle now qs => Forall (fun q => q_unpaced q = false) qs /\ (queue_count qs <> 0 -> (min_rate qs now <= hi)%Q)
  | EPoll (Some (_, n)) => 0 <= n <= M
  | EPoll None => True
  | EPacing r => (lo <= r /\ r <= hi)%Q
  | EPadding _ => True
  | EProbe _ => False
  | ECheck => True
  end.

(** the handle times of the window never go back *)
Fixpoint times_from (h : option Z) (es : list event) : Prop :=
  match es with
  | [] => True
  | EHandle now _ :: es' => (match h with Some p => p <= now | None => True end) /\ times_from (Some now) es'
  | _ :: es' => times_from h es'
  end.
Fixpoint span (h : option Z) (es : list event) : Z :=
  match es with
  | [] => 0
  | EHandle now _ :: es' => (match h with Some p => now - p | None => 0 end) + span (Some now) es'
  | _ :: es' => span h es'
  end.
Fixpoint handles (es : list event) : Z :=
  match es with [] => 0 | EHandle _ _ :: es' => 1 + handles es' | _ :: es' => handles es' end.
Fixpoint sent (es : list event) (os : list output) : Z :=
  match es, os with
  | EPoll (Some (_, n)) :: es', OPolled (Some _) :: os' => n + sent es' os'
  | _ :: es', _ :: os' => sent es' os'
  | _, _ => 0
  end.


(** the number of packets sent *)
Fixpoint sends (es : list event) (os : list output) : Z :=
  match es, os with
  | EPoll (Some _) :: es', OPolled (Some _) :: os' => 1 + sends es' os'
  | _ :: es', _ :: os' => sends es' os'
  | _, _ => 0
  end.
(** the number of polls that named a queue *)
Fixpoint polled (os : list output) : Z :=
  match os with
  | OPolled (Some _) :: os' => 1 + polled os'
  | _ :: os' => polled os'
  | [] => 0
  end.
Definition is_handle (e : event) : bool := match e with EHandle _ _ => true | _ => false end.

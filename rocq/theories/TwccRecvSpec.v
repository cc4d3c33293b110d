(** What TWCC feedback built by a receiver should say about the arrivals it
    registered.  Arrivals are (sequence number, time in nanoseconds). *)
From Verif Require Import Base TwccModel TwccSpec.
From Coq Require Import Sorting.Sorted.

(** The sequence numbers that a list of statuses, the first one for [n], calls
    received. *)
Fixpoint received_at (n : Z) (sts : list status) : list Z :=
  match sts with
  | [] => []
  | s :: r => (match s with SmallDelta | LargeDelta => [n] | _ => [] end) ++ received_at (n + 1) r
  end.

(** The value of a delta in nanoseconds. *)
Definition delta_ns (d : delta) : Z := 250000 * match d with Small v => v | Large v => v end.

(** Each delta gives the time from the arrival before to the next arrival, up
    to one tick of 250 us. *)
Fixpoint tracks (prev : Z) (arrivals : list (Z * Z)) (ds : list delta) : Prop :=
  match ds, arrivals with
  | [], _ => True
  | d :: ds', (_, t) :: l => Z.abs (t - prev - delta_ns d) < 250000 /\ tracks t l ds'
  | _, [] => False
  end.

(** Arrivals in increasing order of sequence number, without duplicates. *)
Definition sorted (q : list (Z * Z)) : Prop := StronglySorted (fun a b => fst a < fst b) q.

(** The bytes of a message on the wire. *)
Definition wire_size (t : twcc) : Z := 4 * twcc_words t.

(** What a TWCC feedback message means (draft-holmer-rmcat-transport-wide-cc-extensions-01). *)
From Verif Require Import Base TwccModel.

(** The packet statuses a chunk stands for, in sequence number order. *)
Definition chunk_statuses (c : chunk) : list status :=
  match c with
  | Run s n => rep (match s with Unknown => NotReceived | _ => s end) n
  | VSingle v _ => map (fun i => if Z.testbit v (13 - i) then SmallDelta else NotReceived) (zseq 0 14)
  | VDouble v _ => map (fun i => status_of (v / 4 ^ (6 - i) mod 4)) (zseq 0 7)
  end.
Definition statuses (cs : list chunk) : list status := flat_map chunk_statuses cs.

(** Which deltas (false: one byte, true: two bytes) a run of statuses calls for. *)
Definition need (s : status) : list bool :=
  match s with SmallDelta => [false] | LargeDelta => [true] | _ => [] end.
Definition needs (l : list status) : list bool := flat_map need l.
Definition kind (d : delta) : bool := match d with Small _ => false | Large _ => true end.

(** The meaning of statuses and deltas from a sequence number and a time
    (in microseconds) on: a received packet has an arrival time, 250 us ticks
    after the one before it. *)
Fixpoint results (seq time : Z) (sts : list status) (ds : list delta)
  : list (Z * status * option Z) :=
  match sts with
  | [] => []
  | s :: r =>
      match s, ds with
      | SmallDelta, Small v :: ds' | LargeDelta, Large v :: ds' =>
          (seq, s, Some (time + 250 * v)) :: results (seq + 1) (time + 250 * v) r ds'
      | _, _ => (seq, s, None) :: results (seq + 1) time r ds
      end
  end.

(** Values within their types. *)
Definition chunk_ok (c : chunk) : Prop :=
  match c with
  | Run _ n => 0 <= n <= 8191
  | VSingle v f => 0 <= v < 16384 /\ f = 14
  | VDouble v f => 0 <= v < 16384 /\ f = 7
  end.
Definition delta_ok (d : delta) : Prop :=
  match d with Small v => 0 <= v < 256 | Large v => -32768 <= v < 32768 end.
Definition size (cs : list chunk) : Z := fold_right (fun c n => chunk_max c + n) 0 cs.

(** A well-formed message: the chunks cover the announced count and none is
    superfluous, and the deltas are the ones the statuses call for. *)
Definition twcc_fields (t : twcc) : Prop :=
  0 <= t_sender t < U32 /\ 0 <= t_ssrc t < U32 /\ 0 <= t_base t < U16 /\ 0 <= t_count t < U16 /\
  0 <= t_ref t < 16777216 /\ 0 <= t_fb t < 256.
Definition twcc_ok (t : twcc) : Prop :=
  twcc_fields t /\ Forall chunk_ok (t_chunks t) /\ Forall delta_ok (t_deltas t) /\
  t_count t <= size (t_chunks t) /\
  (forall cs c, t_chunks t = cs ++ [c] -> size cs < t_count t) /\
  map kind (t_deltas t) = needs (statuses (t_chunks t)).

(** No run of two-byte deltas is followed by more deltas. *)
Definition large_runs_last (t : twcc) : Prop :=
  forall l n r, t_chunks t = l ++ Run LargeDelta n :: r -> 0 < n -> needs (statuses r) = [].
(** No run has length zero. *)
Definition no_empty_run (t : twcc) : Prop :=
  Forall (fun c => match c with Run _ n => 0 < n | _ => True end) (t_chunks t).

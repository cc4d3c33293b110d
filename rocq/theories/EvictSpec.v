(** Vocabulary of C07-C09, independent of how the cache is built. *)
From Verif Require Import Base EvictModel.

(** The last value pushed at [p] since the last clear, reading only the call history. *)
Fixpoint last_value {T} (p : Z) (acc : option T) (ops : list (eop T)) : option T :=
  match ops with
  | [] => acc
  | EPush q _ v :: os => last_value p (if q =? p then Some v else acc) os
  | EEvict _ :: os => last_value p acc os
  | EClear :: os => last_value p None os
  end.

(** The clock never runs backwards through the history. *)
Fixpoint clock_ok {T} (cur : Z) (ops : list (eop T)) : Prop :=
  match ops with
  | [] => True
  | EPush _ t _ :: os => cur <= t /\ clock_ok t os
  | EEvict t :: os => cur <= t /\ clock_ok t os
  | EClear :: os => clock_ok cur os
  end.

Section R.
Context {K : Type}.
Local Notation rpkt := (EvictModel.rpkt K). Local Notation rtxcache := (EvictModel.rtxcache K).
(** Packets handed to the cache one after the other, each with the time of sending. *)
Fixpoint cache_all (c : rtxcache) (l : list (rpkt * Z)) : res rtxcache :=
  match l with
  | [] => Ok c
  | (pk, t) :: l' => do c' <- cache_sent c pk t; cache_all c' l'
  end.
(** The packets carry consecutive sequence numbers from [q0]. *)
Definition numbered_from (q0 : Z) (l : list (rpkt * Z)) : Prop :=
  forall i pk t, nth_error l i = Some (pk, t) -> pseq pk = q0 + Z.of_nat i.
(** Sent at or after [t0], at times that never decrease. *)
Definition in_order (t0 : Z) (l : list (rpkt * Z)) : Prop :=
  (forall i pk t, nth_error l i = Some (pk, t) -> t0 <= t) /\
  (forall i j x t y u, nth_error l i = Some (x, t) -> nth_error l j = Some (y, u) -> (i <= j)%nat -> t <= u).
End R.

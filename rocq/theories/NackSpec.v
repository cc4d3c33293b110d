(** Vocabulary of the NACK properties, over histories only. *)
From Verif Require Import Base NackModel.

(** All numbers fed to the register, oldest first; [o] is the initial number
    handed to the constructor, which counts as received. *)
Definition fed (o : option Z) (ops : list nop) : list Z :=
  (match o with Some q => [q] | None => [] end) ++
  flat_map (fun op => match op with Recv q => [q] | Report => [] end) ops.

(** Sequence numbers are unsigned. *)
Definition unsigned (o : option Z) (ops : list nop) : Prop := Forall (fun q => 0 <= q) (fed o ops).

(** How many times the register said "new" for [q]. *)
Definition accepted_count (q : Z) (outs : list nout) : nat :=
  length (filter (fun x => match x with OAccepted q' true => q' =? q | _ => false end) outs).

(** Number [p] (extended) is asked for by a report made when the highest received number was
    [top]: it is one of the 100 numbers before [top] and the wire entries name it. *)
Definition asks_for (x : nout) (p : Z) : bool :=
  match x with
  | ONack (Some top) l =>
      (top - 100 <=? p) && (p <? top) &&
      existsb (fun w => w =? p mod U16) (flat_map entry_seqs16 l)
  | _ => false
  end.
Definition asked_count (p : Z) (outs : list nout) : nat :=
  length (filter (fun x => asks_for x p) outs).

(** Highest number fed. *)
Definition top_of (first : Z) (l : list Z) : Z := fold_left Z.max l first.

(** No number jumps more than 101 past the highest seen before it. *)
Fixpoint small_jumps (top : Z) (l : list Z) : Prop :=
  match l with
  | [] => True
  | q :: l' => q <= top + 101 /\ small_jumps (Z.max top q) l'
  end.

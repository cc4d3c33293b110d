(** C12: what the sender does, and what the receiver's decision should be.

    The sender makes pictures 0, 1, 2, ...; [layer k] is the temporal layer of picture [k].  Picture
    [k] carries the picture number [p0 + k], and the number [t0 + bases k] of base pictures
    (layer 0) up to it. *)
From Verif Require Import Base ContigModel.

Section Sender.
Variable layer : nat -> Z.
Definition base (k : nat) : bool := layer k =? 0.
(** the number of base pictures among 0..k *)
Fixpoint bases (k : nat) : Z := match k with O => b2z (base O) | S k' => bases k' + b2z (base k) end.
Variables p0 t0 : Z.
Definition on_wire (k : nat) : wire :=
  mkW ((p0 + Z.of_nat k) mod 2 ^ 15) ((t0 + bases k) mod 2 ^ 8) (layer k).

(** The last picture handed over, given pictures and decisions so far. *)
Fixpoint last_emitted (l : list (nat * (bool * bool))) (acc : option nat) : option nat :=
  match l with
  | [] => acc
  | (k, (emit, _)) :: l' => last_emitted l' (if emit then Some k else acc)
  end.

(** The right decision on picture [k], after [last]: a base picture is always handed over, another
    one only if it is the next picture; and it is marked contiguous exactly if no base picture
    was missed in between (nothing at all was, for an upper layer). *)
Definition right (last : option nat) (k : nat) (d : bool * bool) : Prop :=
  match last with
  | None => d = (true, true)
  | Some i =>
      (fst d = true <-> layer k = 0 \/ k = S i) /\
      (fst d = true -> (snd d = true <-> forall j, (i < j < k)%nat -> layer j <> 0))
  end.
Definition all_right (ks : list nat) (ds : list (bool * bool)) : Prop :=
  length ds = length ks /\
  forall a k d b, combine ks ds = a ++ (k, d) :: b -> right (last_emitted a None) k d.
End Sender.

(** Received pictures: in order, any loss, but not so long that the wire numbers are ambiguous. *)
Inductive received (layer : nat -> Z) : list nat -> Prop :=
| r_nil : received layer []
| r_one k : received layer [k]
| r_cons i k ks : (i < k)%nat -> Z.of_nat (k - i) < 2 ^ 14 -> bases layer k - bases layer i < 2 ^ 7 ->
    received layer (k :: ks) -> received layer (i :: k :: ks).

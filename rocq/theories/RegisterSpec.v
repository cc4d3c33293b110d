(** Vocabulary for the receiver report properties: functions of the history only. *)
From Verif Require Import Base NackModel RegisterModel.

Definition recvs (ops : list rop) : list Z :=
  flat_map (fun o => match o with RRecv q => [q] | _ => [] end) ops.
(** the packets reported as new, in order *)
Definition news (outs : list rout) : list Z :=
  flat_map (fun o => match o with RNew q true => [q] | _ => [] end) outs.
Definition mem (p : Z) (l : list Z) : bool := existsb (Z.eqb p) l.
(** number of sequence numbers in [f, top] that never arrived (as new packets) *)
Definition missing (f top : Z) (l : list Z) : Z :=
  zlen (filter (fun p => negb (mem p l)) (zseq f (Z.to_nat (top - f + 1)))).
Definition highest (l : list Z) : Z := match l with [] => 0 | f :: l' => fold_left Z.max l' f end.
Definition lowest_first (l : list Z) : Z := hd 0 l.
(** packets one expects to have seen after receiving [l]: from the first to the highest *)
Definition expect (l : list Z) : Z :=
  match l with [] => 0 | f :: _ => highest l - f + 1 end.

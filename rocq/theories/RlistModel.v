(** Model of [ReportList] (/repo/src/rtp/rtcp/list.rs 1-208): an array of 31
    [Option]s.  An array is a [list (option A)]; the theorems only speak of
    arrays of length 31, the only ones the Rust type has. *)
From Verif Require Import Base.

Section ReportList.
Context {A : Type}.
Definition arr := list (option A).

(** list.rs:120-129 [default] / 9-11 [new] *)
Definition rl_new : arr := repeat None 31.

(** list.rs:14-16 [len]: position of the first [None], or 31 *)
Fixpoint rl_position (a : arr) : option nat :=
  match a with
  | [] => None
  | None :: _ => Some O
  | Some _ :: a' => option_map S (rl_position a')
  end.
Definition rl_len (a : arr) : Z :=
  match rl_position a with Some n => Z.of_nat n | None => 31 end.

(** array store and load: out of bounds panics *)
Definition aset (a : arr) (i : Z) (o : option A) : res arr :=
  if (0 <=? i) && (i <? zlen a) then Ok (lset a (Z.to_nat i) o) else Panic.

(** list.rs:18-21 [push] *)
Definition rl_push (a : arr) (v : A) : res arr := aset a (rl_len a) (Some v).

(** list.rs:24-26 [get] *)
Definition rl_get (a : arr) (i : Z) : res (option A) := idx a i.

(** list.rs:112-118 [Index]: also panics when the slot is empty *)
Definition rl_index (a : arr) (i : Z) : res A :=
  do o <- idx a i ; match o with Some v => Ok v | None => Panic end.

(** list.rs:149-168 / 170-184 [Iter], [IterOwned]: from a position on, stops at
    the first [None] or after index 30 *)
Fixpoint rl_iter_from (a : arr) (fuel : nat) (p : Z) : res (list A) :=
  match fuel with
  | O => Panic
  | S f =>
      if 30 <? p then Ok []
      else do o <- idx a p ;
           match o with
           | None => Ok []
           | Some v => do r <- rl_iter_from a f (p + 1) ; Ok (v :: r)
           end
  end.
Definition rl_iter (a : arr) : res (list A) := rl_iter_from a 32 0.

(** list.rs:34-36, 58-60 *)
Definition rl_is_empty (a : arr) : bool := rl_len a =? 0.
Definition rl_is_full (a : arr) : bool := rl_len a =? 31.

(** list.rs:38-56 [lists_from_iter]; [i] is the enumeration counter *)
Fixpoint rl_chunk (items : list A) (i : Z) (current : arr) (result : list arr) : res (list arr) :=
  match items with
  | [] => Ok (if rl_is_empty current then result else result ++ [current])
  | x :: xs =>
      let brk := (i mod 31 =? 0) && negb (i =? 0) in
      let result' := if brk then result ++ [current] else result in
      let current' := if brk then rl_new else current in
      do c <- rl_push current' x ;
      rl_chunk xs (i + 1) c result'
  end.
Definition rl_lists_from_iter (items : list A) : res (list arr) := rl_chunk items 0 rl_new [].

(** list.rs:64-103 [append_all_possible]; [wsz] is [word_size] *)
Variable wsz : A -> Z.

(** list.rs:73-94: the moving loop; [i] items moved so far *)
Fixpoint rl_move (fuel : nat) (self other : arr) (pos max i left : Z) : res (arr * arr * Z) :=
  match fuel with
  | O => Panic
  | S f =>
      if i =? max then Ok (self, other, i)
      else
        do o <- idx other i ;
        match o with
        | None => Panic (* unwrap *)
        | Some v =>
            if left <? wsz v then Ok (self, other, i)
            else
              do s' <- aset self (pos + i) (Some v) ;
              do o' <- aset other i None ;
              rl_move f s' o' pos max (i + 1) (left - wsz v)
        end
  end.

(** list.rs:97-99: shift the rest down; [j] from [i] to 30 *)
Fixpoint rl_shift (n : nat) (j i : Z) (other : arr) : res arr :=
  match n with
  | O => Ok other
  | S n' =>
      do o <- idx other j ;
      do o1 <- aset other j None ;
      do o2 <- aset o1 (j - i) o ;
      rl_shift n' (j + 1) i o2
  end.

Definition rl_append (self other : arr) (left : Z) : res (arr * arr * Z) :=
  let pos := rl_len self in
  let max := Z.min (31 - pos) (rl_len other) in
  do (s, o, i) <- rl_move 32 self other pos max 0 left ;
  do o' <- rl_shift (Z.to_nat (31 - i)) i i o ;
  Ok (s, o', i).
End ReportList.
Arguments arr : clear implicits.

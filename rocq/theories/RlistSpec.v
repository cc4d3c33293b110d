(** What a [ReportList] should be: a list of at most 31 items. *)
From Verif Require Import Base.

Section S.
Context {A : Type}.
(** The array that holds exactly the items of [l], in order, from index 0. *)
Definition holds (l : list A) : list (option A) := map Some l ++ repeat None (31 - length l).
Definition bounded (l : list A) : Prop := (length l <= 31)%nat.

(** Total size of some items. *)
Definition total (wsz : A -> Z) (l : list A) : Z := fold_right (fun a n => wsz a + n) 0 l.

(** [n] items of [b] can be appended to [a] within [w] words: there is room for
    them in a list of 31, and their sizes add up to at most [w]. *)
Definition can_take (wsz : A -> Z) (a b : list A) (w : Z) (n : nat) : Prop :=
  (n <= length b)%nat /\ (length a + n <= 31)%nat /\ (n = O \/ total wsz (firstn n b) <= w).
End S.

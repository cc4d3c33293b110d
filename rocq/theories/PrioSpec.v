(** What RFC 8445 says about priorities, written without the code. *)
From Verif Require Import Base.

(** RFC 8445 5.1.2.1 *)
Definition rfc_candidate_priority (type_pref local_pref component : Z) : Z :=
  2 ^ 24 * type_pref + 2 ^ 8 * local_pref + (256 - component).

(** RFC 8445 6.1.2.3; G is the controlling agent's candidate priority, D the
    controlled one's. *)
Definition rfc_pair_priority (G D : Z) : Z :=
  2 ^ 32 * Z.min G D + 2 * Z.max G D + (if G >? D then 1 else 0).

(** Lexicographic order on lists of integers of the same length. *)
Fixpoint lex_lt (a b : list Z) : Prop :=
  match a, b with
  | x :: a', y :: b' => x < y \/ (x = y /\ lex_lt a' b')
  | _, _ => False
  end.

(** A u32 value. *)
Definition is_u32 (z : Z) : Prop := 0 <= z < 2 ^ 32.
(** The range RFC 8445 requires of a priority. *)
Definition rfc_range (z : Z) : Prop := 1 <= z <= 2 ^ 31 - 1.

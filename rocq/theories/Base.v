(** Common vocabulary of all models.

    Conventions (see DESIGN.md): every Rust integer is a [Z]; range guards and
    wraps are written out where the code has them.  A byte string is a
    [list Z] whose elements are in [0,255] ([bytes_ok]).  A Rust call that can
    return an error or panic returns a [res]. *)
From Coq Require Export List ZArith Lia Bool.
From Coq Require Export ZifyBool ZifyNat ZifyN.
Export ListNotations.
Open Scope Z_scope.
(** [lia] with division and modulo unfolded to their defining equations. *)
Ltac dlia := zify; Z.div_mod_to_equations; lia.

(** Result of a Rust call: [Ok v], a returned error / [None] ([Err]), or a panic. *)
Inductive res (A : Type) : Type :=
| Ok (a : A)
| Err
| Panic.
Arguments Ok {A} a.
Arguments Err {A}.
Arguments Panic {A}.

Definition bind {A B} (r : res A) (f : A -> res B) : res B :=
  match r with Ok a => f a | Err => Err | Panic => Panic end.
Notation "'do' x <- r ; k" := (bind r (fun x => k))
  (at level 200, x pattern, r at level 100, k at level 200, only parsing).

(** Byte predicates. *)
Definition byte_ok (b : Z) : Prop := 0 <= b < 256.
Definition bytes_ok (l : list Z) : Prop := Forall byte_ok l.
Definition byteb (b : Z) : bool := (0 <=? b) && (b <? 256).

(** [buf[i]] in Rust: panics when out of bounds. *)
Definition idx {A} (l : list A) (i : Z) : res A :=
  if i <? 0 then Panic
  else match nth_error l (Z.to_nat i) with Some b => Ok b | None => Panic end.

Definition zlen {A} (l : list A) : Z := Z.of_nat (length l).

(** [&buf[n..]]: panics when n > len. *)
Definition from {A} (l : list A) (n : Z) : res (list A) :=
  if (n <? 0) || (zlen l <? n) then Panic else Ok (skipn (Z.to_nat n) l).
(** [&buf[..n]]: panics when n > len. *)
Definition upto {A} (l : list A) (n : Z) : res (list A) :=
  if (n <? 0) || (zlen l <? n) then Panic else Ok (firstn (Z.to_nat n) l).
(** [&buf[a..b]]: panics when a > b or b > len. *)
Definition slice {A} (l : list A) (a b : Z) : res (list A) :=
  if (a <? 0) || (b <? a) || (zlen l <? b) then Panic
  else Ok (firstn (Z.to_nat (b - a)) (skipn (Z.to_nat a) l)).

(** Big-endian encodings ([to_be_bytes]) and decodings ([from_be_bytes]). *)
Definition be16 (x : Z) : list Z := [x / 256 mod 256; x mod 256].
Definition be24 (x : Z) : list Z := [x / 65536 mod 256; x / 256 mod 256; x mod 256].
Definition be32 (x : Z) : list Z :=
  [x / 16777216 mod 256; x / 65536 mod 256; x / 256 mod 256; x mod 256].
Definition be64 (x : Z) : list Z := be32 (x / 4294967296) ++ be32 x.
Definition rd16 (a b : Z) : Z := a * 256 + b.
Definition rd24 (a b c : Z) : Z := a * 65536 + b * 256 + c.
Definition rd32 (a b c d : Z) : Z := a * 16777216 + b * 65536 + c * 256 + d.

Definition b2z (b : bool) : Z := if b then 1 else 0.

Definition U8 : Z := 256.
Definition U16 : Z := 65536.
Definition U32 : Z := 4294967296.
Definition U64 : Z := 18446744073709551616.

(** [n] copies of [x]. *)
Definition rep {A} (x : A) (n : Z) : list A := repeat x (Z.to_nat n).

(** [a, a+1, ..., a+n-1] *)
Fixpoint zseq (a : Z) (n : nat) : list Z :=
  match n with O => [] | S n' => a :: zseq (a + 1) n' end.

(** [l[i] = x] *)
Fixpoint lset {A} (l : list A) (i : nat) (x : A) : list A :=
  match l, i with
  | [], _ => []
  | _ :: l', O => x :: l'
  | y :: l', S i' => y :: lset l' i' x
  end.

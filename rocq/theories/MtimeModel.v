(** Model of src/rtp/mtime.rs (MediaTime).  A MediaTime is a pair (numerator u64, frequency u32 > 0). *)
From Verif Require Import Base.

(** mtime.rs:168-169 *)
Record mtime := mkT { numer : Z; denom : Z }.

(** mtime.rs:263-270 rebase.  The product of a u64 and a u32 fits i128; [as u64] keeps the low 64 bits. *)
Definition rebase (t : mtime) (d : Z) : mtime :=
  if d =? denom t then t else mkT ((numer t * d / denom t) mod U64) d.

(** mtime.rs:273-276 same_base *)
Definition same_base (a b : mtime) : mtime * mtime :=
  let m := Z.max (denom a) (denom b) in (rebase a m, rebase b m).

(** mtime.rs:333-339 eq *)
Definition teq (a b : mtime) : bool := let (x, y) := same_base a b in numer x =? numer y.

(** mtime.rs:352-364 cmp (which calls [==] on the rebased pair) *)
Definition tcmp (a b : mtime) : comparison :=
  let (x, y) := same_base a b in
  if teq x y then Eq else if numer x <? numer y then Lt else Gt.

(** mtime.rs:297-304 checked_sub; 325-330 saturating_sub *)
Definition checked_sub (a b : mtime) : option mtime :=
  let (x, y) := same_base a b in
  if numer x <? numer y then None else Some (mkT (numer x - numer y) (denom x)).
Definition saturating_sub (a b : mtime) : mtime :=
  match checked_sub a b with Some v => v | None => mkT 0 1 end.

(** mtime.rs:366-374 add; u64 addition panics on overflow in debug builds, modelled as Panic. *)
Definition tadd (a b : mtime) : res mtime :=
  let (x, y) := same_base a b in
  if numer x + numer y <? U64 then Ok (mkT (numer x + numer y) (denom x)) else Panic.

(** mtime.rs:376-383 sub (panics when negative) *)
Definition tsub (a b : mtime) : res mtime :=
  match checked_sub a b with Some v => Ok v | None => Panic end.

(** mtime.rs:248-250, 425-435 as_micros and Duration conversions (a Duration as whole nanoseconds) *)
Definition as_micros (t : mtime) : Z := numer (rebase t 1000000).
Definition to_duration (t : mtime) : Z := as_micros t * 1000.
Definition from_duration (ns : Z) : mtime := mkT ((ns / 1000) mod U64) 1000000.

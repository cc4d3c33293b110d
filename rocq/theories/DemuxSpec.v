(** C17: RFC 7983 section 7 and RFC 5761 section 4, as one table. *)
From Verif Require Import Base DemuxModel.

(** A datagram with first byte [b0], second byte [b1] (0 if absent) and length [n] is of kind [k]. *)
Definition rfc (b0 b1 n : Z) (k : kind) : Prop :=
  match k with
  | KStun => 0 <= b0 <= 1 /\ 20 <= n
  | KDtls => 20 <= b0 <= 63
  | KRtp => 128 <= b0 <= 191 /\ 3 <= n /\ ~ (192 <= b1 <= 223 \/ 64 <= b1 <= 95)
  | KRtcp => 128 <= b0 <= 191 /\ 3 <= n /\ (192 <= b1 <= 223 \/ 64 <= b1 <= 95)
  end.
Definition byte_at (l : list Z) (i : nat) : Z := nth i l 0.

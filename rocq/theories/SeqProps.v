(** C01: extended sequence numbers.  Statements only. *)
From Verif Require Import Base SeqModel SeqProofs.

(** Any wire value extends to a 64-bit value congruent to it, at modular distance
    at most half the wire range from the previous value; on an exact tie the
    rollover count is kept. *)
Theorem C01_extend_congruent_nearest : forall b prev seq,
  width b -> 0 <= prev < 2 ^ 64 ->
  let r := extend b (Some prev) seq in
  0 <= r < 2 ^ 64 /\ r mod 2 ^ b = seq mod 2 ^ b /\
  exists d, - (2 ^ b / 2) <= d <= 2 ^ b / 2 /\ r = (prev + d) mod 2 ^ 64 /\
    (Z.abs d = 2 ^ b / 2 -> r / 2 ^ b = prev / 2 ^ b).
Proof. exact extend_spec. Qed.
Print Assumptions C01_extend_congruent_nearest.

(** Truncating a full 64-bit number [x] to [b] bits and extending it again gives
    [x] back, whenever [x] is less than half the wire range away from the
    previously known number - in either direction, across rollovers. *)
Theorem C01_extend_recovers : forall b prev x,
  width b -> 0 <= prev < 2 ^ 64 -> 0 <= x < 2 ^ 64 ->
  Z.abs (x - prev) < 2 ^ b / 2 ->
  extend b (Some prev) (x mod 2 ^ b) = x.
Proof. exact extend_exact. Qed.
Print Assumptions C01_extend_recovers.

Theorem C01_extend_first : forall b seq, width b -> extend b None seq = seq mod 2 ^ b.
Proof. exact extend_none. Qed.
Print Assumptions C01_extend_first.

(** Every counter the receive path extends (RTP sequence number, timestamp, picture id, tl0 index) is
    recovered, each with its own width. *)
Theorem C01_every_counter_recovers : forall prev x, 0 <= prev < 2 ^ 64 -> 0 <= x < 2 ^ 64 ->
  (Z.abs (x - prev) < 32768 -> extend_u16 (Some prev) (x mod 65536) = x) /\
  (Z.abs (x - prev) < 2147483648 -> extend_u32 (Some prev) (x mod 4294967296) = x) /\
  (Z.abs (x - prev) < 16384 -> extend_u15 (Some prev) (x mod 32768) = x) /\
  (Z.abs (x - prev) < 128 -> extend_u8 (Some prev) (x mod 256) = x) /\
  (Z.abs (x - prev) < 64 -> extend_u7 (Some prev) (x mod 128) = x).
Proof.
  intros prev x P X. pose proof (fun b W => extend_exact b prev x W P X) as E. unfold width in E.
  split; [|split; [|split; [|split]]]; intro D; apply E; auto.
Qed.
Print Assumptions C01_every_counter_recovers.

(** Non-vacuity: forward and backward across a rollover. *)
Example C01_ex1 : width 16 /\ Z.abs (65540 - 65530) < 2 ^ 16 / 2 /\
  extend 16 (Some 65530) (65540 mod 2 ^ 16) = 65540 /\
  extend 16 (Some 65540) (65530 mod 2 ^ 16) = 65530 /\ extend 7 (Some 130) 127 = 127.
Proof. unfold width; repeat split; try reflexivity; auto. Qed.

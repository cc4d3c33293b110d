(** Model of src/streams/register.rs (ReceiverRegister): loss accounting.
    Not modelled: the interarrival jitter (f32 arithmetic, lines 40-65, 140-211, 237-243). *)
From Verif Require Import Base NackModel.

(** register.rs:7-31 *)
Record rreg := mkRreg {
  rnack : nreg; first : option Z; count : Z; expected_prior : Z; received_prior : Z }.

(** register.rs:68-78 new; 130-138 clear builds the same state. *)
Definition rnew (max_seq_no : option Z) : rreg := mkRreg (new_reg max_seq_no) None 0 0 0.

(** register.rs:80-82 accepts *)
Definition raccepts (r : rreg) (seq : Z) : bool := accepts (rnack r) seq.

(** register.rs:84-98 update (without update_time) *)
Definition rupdate (r : rreg) (seq : Z) : rreg * bool :=
  let f := match first r with None => Some seq | x => x end in
  let (nk, new) := update (rnack r) seq in
  (mkRreg nk f (if new then count r + 1 else count r) (expected_prior r) (received_prior r), new).

(** register.rs:126-128 max_seq *)
Definition rmax_seq (r : rreg) : option Z := max_seq (rnack r).

(** two's complement i64 *)
Definition wrap_i64 (x : Z) : Z := (x + 2 ^ 63) mod 2 ^ 64 - 2 ^ 63.

(** register.rs:261-264 expected: [(last - first) as i64] (u64 subtraction panics on underflow),
    saturating_add 1. *)
Definition expected (f l : Z) : res Z :=
  if l <? f then Panic
  else let delta := wrap_i64 (l - f) in Ok (Z.min (delta + 1) (2 ^ 63 - 1)).

(** register.rs:247-259 packets_lost; the [as u32] cast of a negative number wraps. *)
Definition packets_lost (expected received : Z) : Z :=
  let lost_t := expected - received in
  if 8388607 (* 0x7fffff *) <? lost_t then 8388607
  else if lost_t <? -8388607 then 134217728 (* 0x8000000 *)
  else lost_t mod U32.

(** register.rs:217-235 fraction_lost: (new expected_prior, new received_prior, u8).
    [<< 8] drops high bits of the i64, [/] truncates towards zero, [as u8] wraps. *)
Definition fraction_lost (expected_prior received_prior expected received : Z) : Z :=
  let expected_interval := expected - expected_prior in
  let received_interval := received - received_prior in
  let lost_interval := expected_interval - received_interval in
  if (expected_interval =? 0) || (lost_interval =? 0) then 0
  else (Z.quot (wrap_i64 (lost_interval * 256)) expected_interval) mod 256.

(** register.rs:109-124: the loss-related fields of ReceptionReport (jitter, last_sr_* omitted). *)
Record report := mkReport { fraction : Z; lost : Z; rep_max_seq : Z }.

(** register.rs:109-124 reception_report; [Err] is [None]. *)
Definition reception_report (r : rreg) : rreg * res report :=
  match first r, rmax_seq r with
  | Some f, Some l =>
      match expected f l with
      | Ok ex =>
          (mkRreg (rnack r) (first r) (count r) ex (count r),
           Ok (mkReport (fraction_lost (expected_prior r) (received_prior r) ex (count r))
                        (packets_lost ex (count r)) (l mod U32)))
      | Err => (r, Err)
      | Panic => (r, Panic)
      end
  | _, _ => (r, Err)
  end.

(** src/rtp/rtcp/rr.rs:62-72 ReceptionReport::write_to: bytes 4..8 are
    [packets_lost] as 32 bits with byte 4 then overwritten by [fraction_lost]. *)
Definition report_bytes_4_8 (r : report) : list Z :=
  [fraction r; lost r / 65536 mod 256; lost r / 256 mod 256; lost r mod 256].
(** rr.rs:116-117: the receiving side. *)
Definition read_bytes_4_8 (l : list Z) : option (Z * Z) :=
  match l with [a; b; c; d] => Some (a, rd32 0 b c d) | _ => None end.

Inductive rop := RRecv (seq : Z) | RNack | RReport.
Inductive rout := RNew (seq : Z) (b : bool) | RNacked | RRep (r : res report).
Definition rstep (r : rreg) (o : rop) : rreg * rout :=
  match o with
  | RRecv q => let (r', b) := rupdate r q in (r', RNew q b)
  | RNack => let (n, _) := nack_reports (rnack r) in
             (mkRreg n (first r) (count r) (expected_prior r) (received_prior r), RNacked)
  | RReport => let (r', x) := reception_report r in (r', RRep x)
  end.
Fixpoint rrun (r : rreg) (ops : list rop) : rreg * list rout :=
  match ops with
  | [] => (r, [])
  | o :: os => let (r1, x) := rstep r o in let (r2, xs) := rrun r1 os in (r2, x :: xs)
  end.

(** What RTCP packets carry, when they can be carried exactly, and what the
    packer owes its callers. *)
From Verif Require Import Base TwccModel TwccSpec RtcpModel.

Definition u8 (x : Z) : Prop := 0 <= x < 256.
Definition u16 (x : Z) : Prop := 0 <= x < U16.
Definition u32 (x : Z) : Prop := 0 <= x < U32.
Definition u64 (x : Z) : Prop := 0 <= x < U64.
(** at most 31 items, the capacity of a report list *)
Definition upto31 {A} (l : list A) : Prop := (length l <= 31)%nat.

(** ** Values a packet can carry *)
Definition rr_ok (r : rr) : Prop :=
  u32 (r_ssrc r) /\ u8 (r_frac r) /\ 0 <= r_lost r < 16777216 /\ u32 (r_max r) /\ u32 (r_jit r) /\
  u32 (r_lsr r) /\ u32 (r_dlsr r).
Definition sinfo_ok (s : sinfo) : Prop :=
  u32 (s_ssrc s) /\ u64 (s_ntp s) /\ u32 (s_rtp s) /\ u32 (s_pkts s) /\ u32 (s_octs s).
Definition dlrr_ok (d : dlrr) : Prop := u32 (d_ssrc d) /\ u32 (d_last d) /\ u32 (d_delay d).
Definition xblock_ok (b : xblock) : Prop :=
  match b with
  | Rrtr t => u64 t
  | Dlrr items => Forall dlrr_ok items /\ zlen items * 3 < U16
  end.
(** a known, non-END description type and a UTF-8 string of at most 255 bytes *)
Definition sdes_val_ok (v : Z * list Z) : Prop :=
  (1 <= fst v <= 8 \/ fst v = 12 \/ fst v = 13) /\ bytes_ok (snd v) /\ utf8 (snd v) = true /\
  zlen (snd v) <= 255.
Definition sdes_ok (s : sdes) : Prop :=
  u32 (sd_ssrc s) /\ upto31 (sd_vals s) /\ Forall sdes_val_ok (sd_vals s).
Definition nentry_ok (e : nentry) : Prop := u16 (ne_pid e) /\ u16 (ne_blp e).
Definition fentry_ok (e : fentry) : Prop := u32 (fe_ssrc e) /\ u8 (fe_seq e).

Definition looks_like_remb (media : Z) (payload : list Z) : Prop :=
  media = 0 /\ exists r, payload = 82 :: 69 :: 77 :: 66 :: r.

(** A packet whose every field survives the wire. *)
Definition carried (p : rtcp) : Prop :=
  words p <= U16 /\
  match p with
  | Sr i r => sinfo_ok i /\ upto31 r /\ Forall rr_ok r
  | Rr s r => u32 s /\ upto31 r /\ Forall rr_ok r
  | Xr s b => u32 s /\ Forall xblock_ok b
  | Sdes r => upto31 r /\ Forall sdes_ok r
  | Bye r => r <> [] /\ upto31 r /\ Forall u32 r
  | Nack a s r => u32 a /\ u32 s /\ r <> [] /\ upto31 r /\ Forall nentry_ok r
  | Pli a s => u32 a /\ u32 s
  | Fir a r => u32 a /\ r <> [] /\ upto31 r /\ Forall fentry_ok r
  | Tw t => twcc_ok t /\ large_runs_last t
  | Remb a b s => u32 a /\ 1 <= b <= REMB_MAX /\ Forall u32 s /\ zlen s <= 255
  | App a m pl => u32 a /\ u32 m /\ bytes_ok pl /\ ~ looks_like_remb m pl
  end.

(** The bitrate REMB can express: the 18 leading bits, the rest cut off. *)
Definition remb_rate (b : Z) : Z :=
  let e := Z.max 0 (Z.log2 b - 17) in b / 2 ^ e * 2 ^ e.

(** What the other side reads: an opaque payload is zero-padded to words, the
    REMB bitrate is rounded down to 18 significant bits; everything else is
    exact. *)
Definition as_read (p : rtcp) : rtcp :=
  match p with
  | Remb a b s => Remb a (remb_rate b) s
  | App a m pl => App a m (pl ++ rep 0 ((- zlen pl) mod 4))
  | _ => p
  end.

(** ** The individual pieces of feedback in a packet *)
Inductive item :=
| ISender (i : sinfo) | IReport (r : rr) | IRrtr (ssrc ntp : Z) | IDlrr (d : dlrr)
| ISdes (s : sdes) | IBye (ssrc : Z) | INack (ssrc : Z) (e : nentry) | IPli (ssrc : Z)
| IFir (e : fentry) | ITwcc (t : twcc) | IRemb (sender rate : Z) (ssrcs : list Z)
| IApp (sender media : Z) (payload : list Z).
Definition block_items (ssrc : Z) (b : xblock) : list item :=
  match b with Rrtr t => [IRrtr ssrc t] | Dlrr l => map IDlrr l end.
Definition items (p : rtcp) : list item :=
  match p with
  | Sr i r => ISender i :: map IReport r
  | Rr _ r => map IReport r
  | Xr s b => flat_map (block_items s) b
  | Sdes r => map ISdes r
  | Bye r => map IBye r
  | Nack _ s r => map (INack s) r
  | Pli _ s => [IPli s]
  | Fir _ r => map IFir r
  | Tw t => [ITwcc t]
  | Remb a b s => [IRemb a b s]
  | App a m pl => [IApp a m pl]
  end.

(** Report lists hold at most 31 items (a type invariant, see C22). *)
Definition lists_ok (p : rtcp) : Prop :=
  match p with
  | Sr _ r => upto31 r | Rr _ r => upto31 r | Sdes r => upto31 r | Bye r => upto31 r
  | Nack _ _ r => upto31 r | Fir _ r => upto31 r
  | Tw t => Forall (fun c => match c with
      | Run _ n => n <= 8192 | VSingle v f => f = 14 /\ v <= 16384 | VDouble v f => f = 7 /\ v <= 16384 end)
      (t_chunks t)
  | _ => True
  end.

(** sender/receiver reports first, goodbye last *)
Definition rank (p : rtcp) : Z :=
  match p with
  | Sr _ _ => 0 | Rr _ _ => 1 | Bye _ => 11 | Xr _ _ => 10 | Sdes _ => 2 | Nack _ _ _ => 3
  | Pli _ _ => 4 | Fir _ _ => 5 | Tw _ => 6 | Remb _ _ _ => 7 | App _ _ _ => 8
  end.
Fixpoint ascending (l : list Z) : Prop :=
  match l with a :: ((b :: _) as r) => a <= b /\ ascending r | _ => True end.

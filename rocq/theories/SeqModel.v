(** Model of sequence number extension, src/rtp/header.rs:252-311 (mk_extend!). *)
From Verif Require Import Base.

(** src/rtp/header.rs:253-302, the body of [mk_extend!] for [$bits] = [bits].
    [seq] is the raw value of the carrier type, masked as in line 276.
    u64/i64 arithmetic is exact here: [roc] < 2^57 because [bits] >= 7, so no
    operation can overflow; the product wraps nowhere since v <= ROC_MASK. *)
Definition extend (bits : Z) (prev_ext_seq : option Z) (seq : Z) : Z :=
  let MAX := 2 ^ bits in
  let HALF := MAX / 2 in
  let VAL_MASK := Z.shiftl 1 bits - 1 in
  let ROC_MASK := Z.shiftr (U64 - 1) bits in
  let seq := Z.land seq VAL_MASK in
  match prev_ext_seq with
  | None => seq
  | Some prev_index =>
      let roc := Z.shiftr prev_index bits in
      let prev_seq := Z.land prev_index (MAX - 1) in
      let v :=
        if prev_seq <? HALF then
          if HALF + prev_seq <? seq then Z.land (roc - 1) ROC_MASK else roc
        else if seq + HALF <? prev_seq then Z.land (roc + 1) ROC_MASK
        else roc in
      if v <? 0 then 0 else v * MAX + seq
  end.

(** src/rtp/header.rs:305-311 *)
Definition extend_u8 := extend 8.
Definition extend_u16 := extend 16.
Definition extend_u32 := extend 32.
Definition extend_u7 := extend 7.
Definition extend_u15 := extend 15.

(** The widths instantiated in the source, src/rtp/header.rs:305-311. *)
Definition width (b : Z) : Prop := b = 7 \/ b = 8 \/ b = 15 \/ b = 16 \/ b = 32.

(** src/rtp/header.rs:246-249 RtpHeader::sequence_number *)
Definition sequence_number (raw16 : Z) (previous : option Z) : Z := extend_u16 previous raw16.

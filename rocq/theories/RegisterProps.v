(** C06: receiver report loss statistics.  Statements only. *)
From Verif Require Import Base SeqModel NackModel RegisterModel RegisterSpec RegisterProofs.

(** After any history of receptions, NACKs and earlier reports (register started without a known
    number, numbers below 2^54), a report succeeds without panic; it carries the low 32 bits of the
    highest number, and the number of sequence numbers between the first and the highest that
    never arrived, clamped to 0x7fffff; the fraction is a byte. *)
Theorem C06_report_counts_the_missing : forall ops,
  small (recvs ops) -> recvs ops <> [] ->
  let '(r, outs) := rrun (rnew None) ops in
  exists fr, snd (reception_report r) =
    Ok (mkReport fr (Z.min (missing (lowest_first (recvs ops)) (highest (recvs ops)) (news outs)) 8388607)
          (highest (recvs ops) mod U32)) /\ 0 <= fr <= 255 /\
    fr = fraction_lost (expected_prior r) (received_prior r) (expect (recvs ops)) (zlen (news outs)).
Proof. exact report_gen. Qed.
Print Assumptions C06_report_counts_the_missing.

(** The clamped loss count survives the 24-bit wire field. *)
Theorem C06_loss_fits_the_wire : forall fr m s, 0 <= m ->
  read_bytes_4_8 (report_bytes_4_8 (mkReport fr (Z.min m 8388607) s)) = Some (fr, Z.min m 8388607).
Proof.
  intros fr m s H. unfold report_bytes_4_8, read_bytes_4_8, rd32. cbn [fraction lost].
  f_equal. f_equal. assert (0 <= Z.min m 8388607 <= 8388607) by lia. generalize dependent (Z.min m 8388607).
  clear. intros. dlia.
Qed.
Print Assumptions C06_loss_fits_the_wire.

(** Between two consecutive reports the fraction is floor(256 * lost / expected) of the interval
    (0 when nothing was expected).  Partial: only when not more packets arrived in the interval than
    were expected in it (no recovered late packets); refuted otherwise, below. *)
Theorem C06_fraction_of_interval_partial : forall ops1 ops2,
  small (recvs (ops1 ++ RReport :: ops2)) ->
  recvs ops1 <> [] -> ~ In RReport ops2 ->
  let '(r1, outs1) := rrun (rnew None) ops1 in
  let '(r, outs) := rrun (rnew None) (ops1 ++ RReport :: ops2) in
  let dE := expect (recvs (ops1 ++ RReport :: ops2)) - expect (recvs ops1) in
  let dR := zlen (news outs) - zlen (news outs1) in
  dR <= dE ->
  exists rep, snd (reception_report r) = Ok rep /\
    fraction rep = if dE =? 0 then 0 else 256 * (dE - dR) / dE.
Proof. exact fraction_since_last. Qed.
Print Assumptions C06_fraction_of_interval_partial.

(** Refuted in general: RFC 3550 A.3 says the fraction is 0 when the interval's loss is negative.
    1 and 3 received, report, then the late 2 plus 4 and 5: nothing at all is missing, the cumulative
    loss is 0, yet the fraction is 128 (50%). *)
Definition C06_late : list rop := [RRecv 1; RRecv 3; RReport; RRecv 2; RRecv 4; RRecv 5].
Theorem C06_fraction_refuted : exists ops rep,
  snd (reception_report (fst (rrun (rnew None) ops))) = Ok rep /\
  missing (lowest_first (recvs ops)) (highest (recvs ops)) (news (snd (rrun (rnew None) ops))) = 0 /\
  lost rep = 0 /\ fraction rep = 128.
Proof. exists C06_late. eexists. vm_compute. repeat split; reflexivity. Qed.
Print Assumptions C06_fraction_refuted.

(** The clamp for negative loss is one hex digit too long (0x8000000 for 0x800000): on the wire the
    24-bit value is 0 instead of the most negative one. *)
Theorem C06_negative_clamp_refuted : exists ex rc, ex - rc < - 8388608 /\
  read_bytes_4_8 (report_bytes_4_8 (mkReport 0 (packets_lost ex rc) 0)) = Some (0, 0).
Proof. exists 0, 8388700. split; reflexivity. Qed.
Print Assumptions C06_negative_clamp_refuted.

(** Non-vacuity. *)
Example C06_ex :
  small (recvs [RRecv 65530; RRecv 65534; RReport; RNack; RRecv 65540]) /\
  map (fun o => match o with RRep (Ok r) => (fraction r, lost r, rep_max_seq r) | _ => (0, 0, 0) end)
      (snd (rrun (rnew None) [RRecv 65530; RRecv 65534; RReport; RNack; RRecv 65540; RReport]))
  = [(0,0,0); (0,0,0); (153, 3, 65534); (0,0,0); (0,0,0); (213, 8, 65540)].
Proof. split; [|vm_compute; reflexivity].
  unfold small. cbn [recvs flat_map app]. repeat (apply Forall_cons; [lia|]). constructor. Qed.

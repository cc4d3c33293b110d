(** C02-C05: statements only. *)
From Verif Require Import Base SeqModel NackModel NackSpec NackProofs3.

(** C02. Along any history a number is reported as new at most once, and never if it was the
    constructor's starting number. *)
Theorem C02_accepted_at_most_once : forall o ops q, unsigned o ops ->
  let '(_, outs) := nrun (new_reg o) ops in
  (accepted_count q outs <= 1)%nat /\ (o = Some q -> accepted_count q outs = 0%nat).
Proof. exact accepted_once. Qed.
Print Assumptions C02_accepted_at_most_once.

(** C02. The query [accepts] predicts the update's answer, and is never true for a number fed before. *)
Theorem C02_accepts_predicts_update : forall n q, snd (update n q) = accepts n q.
Proof. exact update_accepts. Qed.
Print Assumptions C02_accepts_predicts_update.

Theorem C02_never_accepts_a_seen_number : forall o ops q, unsigned o ops ->
  accepts (fst (nrun (new_reg o) ops)) q = true -> ~ In q (fed o ops).
Proof. exact run_accepts_sound. Qed.
Print Assumptions C02_never_accepts_a_seen_number.

(** C02. Nothing more than 100 behind the highest number is accepted. *)
Theorem C02_window_bounded : forall o ops p, unsigned o ops ->
  let '(n, _) := nrun (new_reg o) ops in
  forall top, max_seq n = Some top -> accepts n p = true -> top - 100 <= p.
Proof. exact window_size. Qed.
Print Assumptions C02_window_bounded.

(** The highest number reported is the highest fed. *)
Theorem C02_max_seq_is_maximum : forall o ops f l, unsigned o ops -> fed o ops = f :: l ->
  max_seq (fst (nrun (new_reg o) ops)) = Some (top_of f l).
Proof. exact run_max_seq. Qed.
Print Assumptions C02_max_seq_is_maximum.

(** C03. No number is ever asked for more than five times, over any history. *)
Theorem C03_asked_at_most_five_times : forall o ops p, unsigned o ops ->
  (asked_count p (snd (nrun (new_reg o) ops)) <= 5)%nat.
Proof. exact asked_bound. Qed.
Print Assumptions C03_asked_at_most_five_times.

(** C03. A report names, in increasing order and each once, exactly those of the 100 numbers before
    the highest that the register still accepts (so: that were never received) and that were asked
    for fewer than five times. *)
Theorem C03_report_names_exactly_the_missing : forall o ops, unsigned o ops ->
  forall n outs, nrun (new_reg o) ops = (n, outs) ->
  forall top, max_seq n = Some top ->
  flat_map entry_seqs16 (snd (nack_reports n)) =
  map (fun p => p mod U16)
    (filter (fun p => accepts n p && (Z.of_nat (asked_count p outs) <? 5)) (zseq (top - 100) 100)).
Proof. exact report_exact. Qed.
Print Assumptions C03_report_names_exactly_the_missing.

(** C04 (partial: holds when no packet jumps more than 101 past the highest seen; without
    that hypothesis it is refuted below). Every never-received number among the last 100, not before
    the first one, is still accepted - hence, by C03, asked for. *)
Theorem C04_nothing_missing_is_forgotten_partial : forall o ops f l,
  unsigned o ops -> fed o ops = f :: l -> small_jumps f l ->
  forall q, accepts (fst (nrun (new_reg o) ops)) q = true <->
    ~ In q (fed o ops) /\ f <= q /\ top_of f l - 100 <= q.
Proof. exact accepts_complete. Qed.
Print Assumptions C04_nothing_missing_is_forgotten_partial.

(** C04 refuted in general: after 9,11..60 and then 230, number 140 was never received, is within
    the last 100, yet is rejected and never asked for. *)
Definition C04_history : list nop :=
  map (fun i => Recv (Z.of_nat i)) (9%nat :: seq 11 50) ++ [Recv 230].
Theorem C04_completeness_refuted : exists ops q,
  unsigned None ops /\ ~ In q (fed None ops) /\
  (exists f l, fed None ops = f :: l /\ f <= q /\ top_of f l - 100 <= q < top_of f l) /\
  accepts (fst (nrun (new_reg None) ops)) q = false /\
  ~ In (q mod U16) (flat_map entry_seqs16 (snd (nack_reports (fst (nrun (new_reg None) ops))))).
Proof.
  exists C04_history, 140.
  split; [unfold unsigned; vm_compute; repeat constructor; discriminate|].
  split; [vm_compute; intuition discriminate|].
  split; [eexists; eexists; split; [vm_compute; reflexivity|]; vm_compute; intuition discriminate|].
  split; [vm_compute; reflexivity|].
  vm_compute. intuition discriminate.
Qed.
Print Assumptions C04_completeness_refuted.

(** C05. What an entry names: [pid], and [pid+i+1] for each set bit [i]. *)
Theorem C05_entry_meaning : forall en x, (In x (entry_seqs16 en) <->
  x = pid en \/ exists i, 0 <= i < 16 /\ Z.testbit (blp en) i = true /\ x = (pid en + i + 1) mod 65536).
Proof. exact entry_named. Qed.
Print Assumptions C05_entry_meaning.

(** C05. End to end: a sender whose current extended number [sent] is near reads from the report
    exactly the extended numbers the receiver is missing. *)
Theorem C05_sender_reads_the_missing_numbers : forall o ops, unsigned o ops ->
  forall n outs, nrun (new_reg o) ops = (n, outs) ->
  forall top, max_seq n = Some top ->
  forall sent, 100 <= top < 2 ^ 64 -> 0 <= sent < 2 ^ 64 ->
    top <= sent + 100 -> sent < top - 100 + 32768 ->
  flat_map (fun en => entry_into_iter en sent) (snd (nack_reports n)) =
  filter (fun p => accepts n p && (Z.of_nat (asked_count p outs) <? 5)) (zseq (top - 100) 100).
Proof. exact report_received. Qed.
Print Assumptions C05_sender_reads_the_missing_numbers.

(** Non-vacuity: a history with loss, reordering, duplicates, a wrap of the ring and reports. *)
Definition C02_history : list nop :=
  [Recv 65500; Recv 65503; Report; Recv 65502; Recv 65502; Report; Recv 65560; Recv 65590; Report; Report;
   Report; Report; Recv 65580].
Definition C02_run := nrun (new_reg None) C02_history.
Example C02_ex : unsigned None C02_history /\
  (exists f l, fed None C02_history = f :: l /\ small_jumps f l) /\
  max_seq (fst C02_run) = Some 65590 /\
  accepts (fst C02_run) 65581 = true /\ accepts (fst C02_run) 65580 = false /\
  map (fun p => asked_count p (snd C02_run)) [65501; 65502; 65581] = [5; 1; 4]%nat /\
  accepted_count 65502 (snd C02_run) = 1%nat /\
  map pid (snd (nack_reports (fst C02_run))) = [65504; 65521; 2; 19; 36; 53] /\
  firstn 2 (flat_map (fun en => entry_into_iter en 65600) (snd (nack_reports (fst C02_run)))) = [65504; 65505].
Proof.
  split; [unfold unsigned; vm_compute; repeat constructor; discriminate|].
  split; [eexists; eexists; split; [reflexivity|]; cbn; lia|].
  vm_compute. repeat split; reflexivity.
Qed.

(** Model of src/streams/register_nack.rs (NackRegister) and of the NACK entry
    expansion in src/rtp/rtcp/nack.rs:95-128. *)
From Verif Require Import Base SeqModel.

(** register_nack.rs:6-12 *)
Definition MAX_MISORDER : Z := 100.
Definition MAX_NACKS : Z := 5.
Definition BUFFER_SIZE : Z := MAX_MISORDER + 1.

(** register_nack.rs:23-27 PacketStatus *)
Record slot := mkSlot { received : bool; nack_count : Z }.

(** register_nack.rs:14-21 NackRegister.  The [Vec] of BUFFER_SIZE slots is a total
    function on indices: the code only ever indexes with [seq % len] (195-207).
    [active] is the pair (start, end). *)
Definition ring := Z -> slot.
Record nreg := mkNreg { packets : ring; active : option (Z * Z) }.

(** register_nack.rs:195-207 as_index, packet, packet_mut *)
Definition packet (r : ring) (seq : Z) : slot := r (seq mod BUFFER_SIZE).
Definition set_packet (r : ring) (seq : Z) (s : slot) : ring :=
  fun i => if i =? seq mod BUFFER_SIZE then s else r i.

(** register_nack.rs:29-44 *)
Definition default_slot : slot := mkSlot false 0.
Definition needs_nack (p : slot) : bool := negb (received p) && (nack_count p <? MAX_NACKS).
Definition mark_received (p : slot) : slot := mkSlot true (nack_count p).
Definition inc_nack (p : slot) : slot := mkSlot (received p) (nack_count p + 1).

(** register_nack.rs:162-165 init_with_seq *)
Definition init_with_seq (r : ring) (seq : Z) : nreg :=
  mkNreg (set_packet r seq (mark_received (packet r seq))) (Some (seq, seq)).

(** register_nack.rs:84-95 new *)
Definition new_reg (max_seq_no : option Z) : nreg :=
  let r := fun _ => default_slot in
  match max_seq_no with
  | Some seq => init_with_seq r seq
  | None => mkNreg r None
  end.

(** register_nack.rs:97-109 accepts *)
Definition accepts (n : nreg) (seq : Z) : bool :=
  match active n with
  | None => true
  | Some (s, e) =>
      if seq <? s then false
      else negb (received (packet (packets n) seq)) || (e <? seq)
  end.

(** register_nack.rs:130-135, the [while start < end] loop; [n] is [end - start],
    so the recursion ends exactly when [start = end]. *)
Fixpoint scan (r : ring) (seq start : Z) (n : nat) : Z :=
  match n with
  | O => start
  | S n' =>
      if negb (received (packet r start)) && negb (start =? seq) then start
      else scan r seq (start + 1) n'
  end.

(** register_nack.rs:140-151, the reset loop over [active.start..start].  The
    enumeration index [i] leaves the loop after the iteration with i = 102
    (i > packets.len() = 101), so at most 103 iterations run. *)
Fixpoint reset_loop (r : ring) (s : Z) (n : nat) : ring :=
  match n with
  | O => r
  | S n' => reset_loop (set_packet r s default_slot) (s + 1) n'
  end.

(** register_nack.rs:111-160 update *)
Definition update (n : nreg) (seq : Z) : nreg * bool :=
  match active n with
  | None => (init_with_seq (packets n) seq, true)
  | Some (s, e) =>
      if seq <? s then (n, false)
      else
        let new := negb (received (packet (packets n) seq)) || (e <? seq) in
        let end' := Z.max e seq in
        let min := Z.max 0 (end' - MAX_MISORDER) in
        let start0 := Z.max s min in
        let start := scan (packets n) seq start0 (Z.to_nat (end' - start0)) in
        let r1 := reset_loop (packets n) s (Z.to_nat (Z.min (start - s) (BUFFER_SIZE + 2))) in
        let r2 := if (start <=? seq) && (seq <=? end')
                  then set_packet r1 seq (mark_received (packet r1 seq)) else r1 in
        (mkNreg r2 (Some (start, end')), new)
  end.

(** register_nack.rs:167-169 max_seq *)
Definition max_seq (n : nreg) : option Z :=
  match active n with Some (_, e) => Some e | None => None end.

(** src/rtp/rtcp/nack.rs:18-24 NackEntry *)
Record nack_entry := mkEntry { pid : Z; blp : Z }.

(** register_nack.rs:57 / 176: [(next..=end).find(needs_nack)]; [n] = end + 1 - next. *)
Fixpoint find_needs (r : ring) (next : Z) (n : nat) : option Z :=
  match n with
  | O => None
  | S n' => if needs_nack (packet r next) then Some next else find_needs r (next + 1) n'
  end.

(** register_nack.rs:67-74: the blp loop; [i] the bit index, [n] the remaining
    iterations of [(next..end).take(16)]. *)
Fixpoint blp_loop (r : ring) (next : Z) (i blp : Z) (n : nat) : ring * Z :=
  match n with
  | O => (r, blp)
  | S n' =>
      if needs_nack (packet r next) then
        blp_loop (set_packet r next (inc_nack (packet r next))) (next + 1) (i + 1)
                 (Z.lor blp (Z.shiftl 1 i)) n'
      else blp_loop r (next + 1) (i + 1) blp n'
  end.

(** register_nack.rs:52-78 NackIterator::next; returns the ring, the new [next] and the entry. *)
Definition nack_next (r : ring) (next e : Z) : option (ring * Z * nack_entry) :=
  match find_needs r next (Z.to_nat (e + 1 - next)) with
  | None => None
  | Some p =>
      let r1 := set_packet r p (inc_nack (packet r p)) in
      let n := Z.min (Z.max 0 (e - (p + 1))) 16 in
      let (r2, b) := blp_loop r1 (p + 1) 0 0 (Z.to_nat n) in
      Some (r2, p + 1 + n, mkEntry (p mod U16) b)
  end.

(** The iterator drained by [ReportList::lists_from_iter] (register_nack.rs:178-183);
    [fuel] bounds the number of entries (each consumes at least one position). *)
Fixpoint nack_iter (fuel : nat) (r : ring) (next e : Z) : ring * list nack_entry :=
  match fuel with
  | O => (r, [])
  | S f =>
      match nack_next r next e with
      | None => (r, [])
      | Some (r', next', en) =>
          let (r'', l) := nack_iter f r' next' e in (r'', en :: l)
      end
  end.

(** register_nack.rs:174-193 nack_reports.  The result is the concatenation of the
    entries of the produced [Nack] packets (each holds up to 31, list.rs:38-56;
    see ReportListModel.v); an absent report is the empty list. *)
Definition nack_reports (n : nreg) : nreg * list nack_entry :=
  match active n with
  | None => (n, [])
  | Some (s, e) =>
      match find_needs (packets n) s (Z.to_nat (e + 1 - s)) with
      | None => (n, [])
      | Some s' =>
          let (r, l) := nack_iter (Z.to_nat (e + 1 - s')) (packets n) s' e in
          (mkNreg r (active n), l)
      end
  end.

(** src/rtp/rtcp/nack.rs:104-128 NackEntryIterator: the raw 16-bit numbers, in order
    ([wrapping_add] at line 121). *)
Definition entry_seqs16 (en : nack_entry) : list Z :=
  pid en ::
  map (fun i => (pid en + Z.of_nat i + 1) mod U16)
      (filter (fun i => 0 <? Z.land (Z.shiftl 1 (Z.of_nat i)) (blp en)) (seq 0 16)).

(** nack.rs:99-101, 125: the numbers extended against [seq_no]. *)
Definition entry_into_iter (en : nack_entry) (seq_no : Z) : list Z :=
  map (fun s => extend_u16 (Some seq_no) s) (entry_seqs16 en).

(** Operations a receive stream performs on the register
    (src/streams/receive.rs: a packet arrives / a NACK is created). *)
Inductive nop := Recv (seq : Z) | Report.
Inductive nout := OAccepted (seq : Z) (new : bool) | ONack (top : option Z) (l : list nack_entry).

Definition nstep (n : nreg) (o : nop) : nreg * nout :=
  match o with
  | Recv q => let (n', b) := update n q in (n', OAccepted q b)
  | Report => let (n', l) := nack_reports n in (n', ONack (max_seq n) l)
  end.

Fixpoint nrun (n : nreg) (ops : list nop) : nreg * list nout :=
  match ops with
  | [] => (n, [])
  | o :: os => let (n1, x) := nstep n o in let (n2, xs) := nrun n1 os in (n2, x :: xs)
  end.

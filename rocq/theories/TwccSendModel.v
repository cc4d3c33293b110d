(** Model of the TWCC sender register that matches feedback with sent packets
    (/repo/src/rtp/rtcp/twcc.rs 1003-1016, 1069-1084, 1147-1311, 1357-1378).
    Times are microseconds; probe clusters are left out (they are only carried
    along), and so are the logs. *)
From Verif Require Import Base SeqModel TwccModel.

(** twcc.rs:1147-1156 [TwccRecvReport] *)
Record rreport := RRep { rr_local : Z; rr_remote : option Z; rr_counter : Z }.
(** twcc.rs:1069-1084 [TwccSendRecord] *)
Record srec := SRec { sr_seq : Z; sr_sent : Z; sr_size : Z; sr_rep : option rreport }.
(** twcc.rs:1003-1019 [TwccSendRegister] *)
Record sreg := SReg { sg_keep : nat; sg_q : list srec; sg_zero : option Z; sg_counter : Z; sg_last : Z }.
(** twcc.rs:1159-1168 *)
Definition sreg_new (keep : nat) : sreg := SReg keep [] None 0 0.
(** twcc.rs:1171-1185 [register_seq]: [size as u16], then the front is dropped
    while more than [keep] are held *)
Definition register_seq (g : sreg) (seq now size : Z) : sreg :=
  let q := sg_q g ++ [SRec seq now (size mod U16) None] in
  SReg (sg_keep g) (skipn (length q - sg_keep g) q) (sg_zero g) (sg_counter g) seq.

(** [skip_while] *)
Fixpoint skip_while {A} (f : A -> bool) (l : list A) : list A :=
  match l with [] => [] | x :: l' => if f x then skip_while f l' else l end.
Fixpoint take_while {A} (f : A -> bool) (l : list A) : list A :=
  match l with [] => [] | x :: l' => if f x then x :: take_while f l' else [] end.

(** twcc.rs:1118-1120 *)
Definition sr_remote (r : srec) : option Z := match sr_rep r with Some rr => rr_remote rr | None => None end.
(** twcc.rs:1218-1251 [update] (called with the record's own number, see 1223) *)
Definition update_rec (now : Z) (r : srec) (remote : option Z) (counter : Z) : srec :=
  let c := match sr_rep r with
           | Some rr => match rr_remote rr with Some _ => rr_counter rr | None => counter end
           | None => counter
           end in
  SRec (sr_seq r) (sr_sent r) (sr_size r)
    (Some (RRep now (match sr_remote r with Some x => Some x | None => remote end) c)).

(** twcc.rs:1270-1291: the zipped results and records.  A mismatch is
    remembered and panics after the loop. *)
Fixpoint zip_update (now zero counter : Z) (rs : list (Z * status * option Z)) (q : list srec) : res (list srec) :=
  match rs, q with
  | (s, _, inst) :: rs', r :: q' =>
      if negb (sr_seq r =? s) then Panic
      else do l <- zip_update now zero counter rs' q' ;
           Ok (update_rec now r (option_map (fun x => zero + x) inst) counter :: l)
  | _, _ => Ok q
  end.
(** twcc.rs:1270-1281: the last number that was zipped *)
Definition last_zipped (first : Z) (rs : list (Z * status * option Z)) (q : list srec) : Z :=
  last (map (fun x => fst (fst x)) (firstn (length q) rs)) first.

(** twcc.rs:1365-1377 [TwccSendRecordsIter::next], run to its end: [n] records
    from the front of [q], numbered from [cur] on *)
Fixpoint records (n : nat) (cur : Z) (q : list srec) : res (list srec) :=
  match n with
  | O => Ok []
  | S n' =>
      match q with
      | [] => Panic (* index out of bounds *)
      | r :: q' => if negb (sr_seq r =? cur) then Panic (* assert 1372 *)
                   else do l <- records n' (cur + 1) q' ; Ok (r :: l)
      end
  end.

(** twcc.rs:1191-1311 [apply_report].  The iterator over the feedback is
    evaluated to its end here, while the code stops as soon as the records end,
    so the model panics at least when the code does.  Overflow of the extended
    numbers (twcc.rs:49) is a debug panic. *)
Definition apply_report (g : sreg) (t : twcc) (now : Z) : res (option (list srec) * sreg) :=
  let zero := match sg_zero g with Some z => z | None => now end in
  let counter := sg_counter g + 1 in
  let g1 := SReg (sg_keep g) (sg_q g) (Some zero) counter (sg_last g) in
  match sg_q g with
  | [] => Ok (None, g1)
  | head :: _ =>
      let it := twcc_iter t (sg_last g) in
      if U64 <=? i_last it then Panic
      else
        do rs <- titer_run (S (Z.to_nat (t_count t))) it ;
        match skip_while (fun x => fst (fst x) <? sr_seq head) rs with
        | [] => Ok (None, g1)
        | (first, st, inst) :: rest =>
            let before := take_while (fun r => sr_seq r <? first) (sg_q g) in
            match skip_while (fun r => sr_seq r <? first) (sg_q g) with
            | [] => Ok (None, g1)
            | r0 :: q2 =>
                if negb (sr_seq r0 =? first) then Ok (None, g1)
                else
                  do upd <- zip_update now zero counter ((first, st, inst) :: rest) (r0 :: q2) ;
                  let last := last_zipped first rest q2 in
                  do out <- records (Z.to_nat (last - first + 1)) first upd ;
                  Ok (Some (filter (fun r => match sr_rep r with Some rr => rr_counter rr =? counter | None => false end) out),
                      SReg (sg_keep g) (before ++ upd) (Some zero) counter (sg_last g))
            end
        end
  end.

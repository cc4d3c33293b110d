(** Model of bandwidth probing: /repo/src/bwe/probe/control.rs (ProbeControl), probe/estimator.rs
    (ProbeEstimator), the parts of bwe/mod.rs that drive them (SendSideBandwidthEstimator) and session.rs:348-372.

    Simplifications.  Bitrates are an abstract type with the operations the code uses on them (in /repo an f64:
    /repo/crates/proto/src/bandwidth.rs), so that the theorems hold for every arithmetic with the stated laws.
    Times and durations are nanoseconds from already_happened() (0); FAR is not_happening().  The delay and
    loss controllers and the ALR detector are not here: the estimate, the cause that limits it and the start of the
    application-limited region that they give at each call are arguments of the call. *)
From Verif Require Import Base.
From Coq Require Import QArith.
Open Scope Z_scope.

(** control.rs:47-53 *)
Inductive cause := LossIncreasing | LossLimited | DelayLimited | DelayIncreased.
(** cluster.rs:46-53 *)
Inductive kind := KInitial | KExponential | KIncreaseAlr | KPeriodicAlr | KLargeDrop | KStagnant.
(** cluster.rs:55-59 *)
Definition is_alr (k : kind) : bool := match k with KPeriodicAlr | KIncreaseAlr => true | _ => false end.

Definition SEC : Z := 1000000000.
(** control.rs:22-44; the cap after kMaxProbeBitrateFactor, and config 656-675, are rationals *)
Definition WAIT_RESULT : Z := SEC.
Definition DROP_TIMEOUT : Z := 5 * SEC.
Definition ALR_ENDED : Z := 3 * SEC.
Definition ALR_GAP : Z := 5 * SEC.
Definition STAG_GAP : Z := 15 * SEC.

(** A record of a packet sent, as far as the estimator reads it (twcc.rs TwccSendRecord). *)
Record srec := mkR { r_cluster : option Z; r_recv : option Z; r_send : Z; r_size : Z }.

(** bandwidth.rs: the operations of Bitrate (comparisons, min, times an f64) and its constants;
    bandwidth.rs:184-199 DataSize / Duration; estimator.rs:378-379 ratio > 2.0; 314-316 80 % of the target bytes *)
Record arith (B : Type) := mkArith {
  lt : B -> B -> bool; le : B -> B -> bool; eqb : B -> B -> bool; bmin : B -> B -> B; mul : B -> Q -> B;
  ZERO : B; KB5 : B; INF : B;
  per : Z -> Z -> B; ratio_gt2 : B -> B -> bool; min_bytes : B -> Z }.
Arguments mkArith {B}. Arguments lt {B}. Arguments le {B}. Arguments eqb {B}. Arguments bmin {B}. Arguments mul {B}.
Arguments ZERO {B}. Arguments KB5 {B}. Arguments INF {B}. Arguments per {B}. Arguments ratio_gt2 {B}.
Arguments min_bytes {B}.

Section Probe.
Variables (B : Type) (A : arith B) (FAR : Z).
Local Notation lt := (lt A). Local Notation le := (le A). Local Notation eqb := (eqb A).
Local Notation bmin := (bmin A). Local Notation mul := (mul A). Local Notation ZERO := (ZERO A).
Local Notation KB5 := (KB5 A). Local Notation INF := (INF A). Local Notation per := (per A).
Local Notation ratio_gt2 := (ratio_gt2 A). Local Notation min_bytes := (min_bytes A).

(** cluster.rs:19-41: what is not constant *)
Record cfg := mkC { c_id : Z; c_rate : B; c_kind : kind }.
(** control.rs:86-92 *)
Record lastp := mkL { l_when : Z; l_kind : kind; l_further : B; l_was : option B }.

(** control.rs:55-84; the setters are plain assignments *)
Record pctl := mkP {
  p_en : bool; p_next : Z; p_des : option B; p_pdes : option B; p_est : option B; p_chg : option Z; p_cs : cause; p_pest : option B; p_alr0 : option Z; p_alr1 : option Z; p_last : option lastp; p_drop : option (Z * B); p_stag : option Z; p_nid : Z; p_pend : list cfg; p_sexp : option Z; p_salr : option Z; p_sstag : option Z }.
Definition set_en (s : pctl) (v : bool) : pctl := mkP v (p_next s) (p_des s) (p_pdes s) (p_est s) (p_chg s) (p_cs s) (p_pest s) (p_alr0 s) (p_alr1 s) (p_last s) (p_drop s) (p_stag s) (p_nid s) (p_pend s) (p_sexp s) (p_salr s) (p_sstag s).
Definition set_next (s : pctl) (v : Z) : pctl := mkP (p_en s) v (p_des s) (p_pdes s) (p_est s) (p_chg s) (p_cs s) (p_pest s) (p_alr0 s) (p_alr1 s) (p_last s) (p_drop s) (p_stag s) (p_nid s) (p_pend s) (p_sexp s) (p_salr s) (p_sstag s).
Definition set_des (s : pctl) (v : option B) : pctl := mkP (p_en s) (p_next s) v (p_pdes s) (p_est s) (p_chg s) (p_cs s) (p_pest s) (p_alr0 s) (p_alr1 s) (p_last s) (p_drop s) (p_stag s) (p_nid s) (p_pend s) (p_sexp s) (p_salr s) (p_sstag s).
Definition set_pdes (s : pctl) (v : option B) : pctl := mkP (p_en s) (p_next s) (p_des s) v (p_est s) (p_chg s) (p_cs s) (p_pest s) (p_alr0 s) (p_alr1 s) (p_last s) (p_drop s) (p_stag s) (p_nid s) (p_pend s) (p_sexp s) (p_salr s) (p_sstag s).
Definition set_est (s : pctl) (v : option B) : pctl := mkP (p_en s) (p_next s) (p_des s) (p_pdes s) v (p_chg s) (p_cs s) (p_pest s) (p_alr0 s) (p_alr1 s) (p_last s) (p_drop s) (p_stag s) (p_nid s) (p_pend s) (p_sexp s) (p_salr s) (p_sstag s).
Definition set_chg (s : pctl) (v : option Z) : pctl := mkP (p_en s) (p_next s) (p_des s) (p_pdes s) (p_est s) v (p_cs s) (p_pest s) (p_alr0 s) (p_alr1 s) (p_last s) (p_drop s) (p_stag s) (p_nid s) (p_pend s) (p_sexp s) (p_salr s) (p_sstag s).
Definition set_cs (s : pctl) (v : cause) : pctl := mkP (p_en s) (p_next s) (p_des s) (p_pdes s) (p_est s) (p_chg s) v (p_pest s) (p_alr0 s) (p_alr1 s) (p_last s) (p_drop s) (p_stag s) (p_nid s) (p_pend s) (p_sexp s) (p_salr s) (p_sstag s).
Definition set_pest (s : pctl) (v : option B) : pctl := mkP (p_en s) (p_next s) (p_des s) (p_pdes s) (p_est s) (p_chg s) (p_cs s) v (p_alr0 s) (p_alr1 s) (p_last s) (p_drop s) (p_stag s) (p_nid s) (p_pend s) (p_sexp s) (p_salr s) (p_sstag s).
Definition set_alr0 (s : pctl) (v : option Z) : pctl := mkP (p_en s) (p_next s) (p_des s) (p_pdes s) (p_est s) (p_chg s) (p_cs s) (p_pest s) v (p_alr1 s) (p_last s) (p_drop s) (p_stag s) (p_nid s) (p_pend s) (p_sexp s) (p_salr s) (p_sstag s).
Definition set_alr1 (s : pctl) (v : option Z) : pctl := mkP (p_en s) (p_next s) (p_des s) (p_pdes s) (p_est s) (p_chg s) (p_cs s) (p_pest s) (p_alr0 s) v (p_last s) (p_drop s) (p_stag s) (p_nid s) (p_pend s) (p_sexp s) (p_salr s) (p_sstag s).
Definition set_last (s : pctl) (v : option lastp) : pctl := mkP (p_en s) (p_next s) (p_des s) (p_pdes s) (p_est s) (p_chg s) (p_cs s) (p_pest s) (p_alr0 s) (p_alr1 s) v (p_drop s) (p_stag s) (p_nid s) (p_pend s) (p_sexp s) (p_salr s) (p_sstag s).
Definition set_drop (s : pctl) (v : option (Z * B)) : pctl := mkP (p_en s) (p_next s) (p_des s) (p_pdes s) (p_est s) (p_chg s) (p_cs s) (p_pest s) (p_alr0 s) (p_alr1 s) (p_last s) v (p_stag s) (p_nid s) (p_pend s) (p_sexp s) (p_salr s) (p_sstag s).
Definition set_stag (s : pctl) (v : option Z) : pctl := mkP (p_en s) (p_next s) (p_des s) (p_pdes s) (p_est s) (p_chg s) (p_cs s) (p_pest s) (p_alr0 s) (p_alr1 s) (p_last s) (p_drop s) v (p_nid s) (p_pend s) (p_sexp s) (p_salr s) (p_sstag s).
Definition set_nid (s : pctl) (v : Z) : pctl := mkP (p_en s) (p_next s) (p_des s) (p_pdes s) (p_est s) (p_chg s) (p_cs s) (p_pest s) (p_alr0 s) (p_alr1 s) (p_last s) (p_drop s) (p_stag s) v (p_pend s) (p_sexp s) (p_salr s) (p_sstag s).
Definition set_pend (s : pctl) (v : list cfg) : pctl := mkP (p_en s) (p_next s) (p_des s) (p_pdes s) (p_est s) (p_chg s) (p_cs s) (p_pest s) (p_alr0 s) (p_alr1 s) (p_last s) (p_drop s) (p_stag s) (p_nid s) v (p_sexp s) (p_salr s) (p_sstag s).
Definition set_sexp (s : pctl) (v : option Z) : pctl := mkP (p_en s) (p_next s) (p_des s) (p_pdes s) (p_est s) (p_chg s) (p_cs s) (p_pest s) (p_alr0 s) (p_alr1 s) (p_last s) (p_drop s) (p_stag s) (p_nid s) (p_pend s) v (p_salr s) (p_sstag s).
Definition set_salr (s : pctl) (v : option Z) : pctl := mkP (p_en s) (p_next s) (p_des s) (p_pdes s) (p_est s) (p_chg s) (p_cs s) (p_pest s) (p_alr0 s) (p_alr1 s) (p_last s) (p_drop s) (p_stag s) (p_nid s) (p_pend s) (p_sexp s) v (p_sstag s).
Definition set_sstag (s : pctl) (v : option Z) : pctl := mkP (p_en s) (p_next s) (p_des s) (p_pdes s) (p_est s) (p_chg s) (p_cs s) (p_pest s) (p_alr0 s) (p_alr1 s) (p_last s) (p_drop s) (p_stag s) (p_nid s) (p_pend s) (p_sexp s) (p_salr s) v.


(** control.rs:99-123 *)
Definition pc_new : pctl :=
  mkP false FAR None None None None DelayLimited None None None None None None 0 [] None None None.

(** control.rs:199-204 *)
Definition immediate (s : pctl) : pctl := set_sstag (set_salr (set_sexp (set_next s 0) None) None) None.
(** control.rs:130-148 *)
Definition enable (s : pctl) (v : bool) : pctl :=
  if negb (p_en s) && v then immediate (set_en s true)
  else if p_en s && negb v then
    mkP false FAR None (p_pdes s) None None (p_cs s) None (p_alr0 s) (p_alr1 s) None (p_drop s) None (p_nid s) []
        None None None
  else s.
(** control.rs:150-157 *)
Definition set_desired (s : pctl) (v : B) : pctl :=
  match p_des s with
  | None => if eqb v ZERO then s else immediate (set_des s (Some v))
  | Some _ => immediate (set_des s (Some v))
  end.
Definition cause_eqb (a b : cause) : bool :=
  match a, b with
  | LossIncreasing, LossIncreasing | LossLimited, LossLimited | DelayLimited, DelayLimited
  | DelayIncreased, DelayIncreased => true
  | _, _ => false
  end.
(** control.rs:159-179 *)
Definition set_estimated (s : pctl) (v : B) (c : cause) : pctl :=
  let put := immediate (set_cs (set_est s (Some v)) c) in
  match p_est s with
  | None => if eqb v ZERO then s else put
  | Some l =>
      if le v (mul l (105 # 100)) && le (mul l (95 # 100)) v && cause_eqb (p_cs s) c then s else put
  end.
(** control.rs:181-188 *)
Definition alr_started (s : pctl) (t : Z) : pctl :=
  match p_alr0 s with Some _ => s | None => immediate (set_alr1 (set_alr0 s (Some t)) None) end.
(** control.rs:190-197 *)
Definition alr_stopped (s : pctl) (t : Z) : pctl :=
  match p_alr0 s, p_alr1 s with
  | Some _, None => immediate (set_alr1 (set_alr0 s None) (Some t))
  | _, _ => s
  end.

(** Instant::saturating_duration_since *)
Definition since (now t : Z) : Z := Z.max 0 (now - t).
(** control.rs:604-606 *)
Definition in_alr (s : pctl) : bool :=
  match p_alr0 s, p_alr1 s with Some _, None => true | _, _ => false end.
(** control.rs:608-612 *)
Definition alr_ended_recently (s : pctl) (now : Z) : bool :=
  match p_alr1 s with Some t => since now t <? ALR_ENDED | None => false end.
(** control.rs:622-630; Duration::MAX is None *)
Definition since_last_lt (s : pctl) (now d : Z) : bool :=
  match p_last s with Some l => since now (l_when l) <? d | None => false end.
Definition is_ini (k : kind) : bool := match k with KInitial | KExponential => true | _ => false end.
(** control.rs:614-620 *)
Definition during_initial (s : pctl) (now : Z) : bool :=
  match p_last s with
  | Some l => is_ini (l_kind l) && (since now (l_when l) <=? WAIT_RESULT)
  | None => false
  end.
(** control.rs:589-602 *)
Definition can_probe (s : pctl) (e : B) : bool :=
  if eqb e INF then false
  else match p_cs s with LossIncreasing | DelayLimited => true | _ => false end.

(** control.rs:529-556 *)
Definition queue_probe (s : pctl) (rate : B) (k : kind) (desired : B) (now : Z) : pctl :=
  let r := bmin rate (mul desired 2) in
  if lt r KB5 then s
  else
    let s1 := set_nid s ((p_nid s + 1) mod 2 ^ 64) in
    let s2 := set_pend s1 (p_pend s ++ [mkC (p_nid s) r k]) in
    set_last s2 (Some (mkL now k (mul r (7 # 10)) (p_est s))).

(** control.rs:278-291 *)
Definition maybe_initial (s : pctl) (now : Z) (d e : B) : pctl * bool :=
  match p_last s with
  | Some _ => (s, false)
  | None => (queue_probe (queue_probe s (mul e 3) KInitial d now) (mul e 6) KInitial d now, true)
  end.
Definition beq_opt (a b : option B) : bool :=
  match a, b with Some x, Some y => eqb x y | None, None => true | _, _ => false end.
(** control.rs:682-690 *)
Definition probe_scale (c : cause) : Q := match c with LossIncreasing => (3 # 2) * (105 # 100) | _ => 2 end.
(** control.rs:293-329 *)
Definition maybe_exponential (s : pctl) (now : Z) (d e : B) : pctl * bool :=
  match p_pend s, p_last s with
  | [], Some l =>
      if lt e (l_further l) then (s, false)
      else if beq_opt (Some e) (l_was l) && since_last_lt s now WAIT_RESULT then (s, false)
      else
        let target := mul e (probe_scale (p_cs s)) in
        let mx := mul d 2 in
        if le mx target && le (mul mx (7 # 10)) (l_further l) then (s, false)
        else (queue_probe s target KExponential d now, true)
  | _, _ => (s, false)
  end.
(** control.rs:331-372 *)
Definition maybe_increase (s : pctl) (now : Z) (d e : B) : pctl * bool :=
  if during_initial s now then (s, false)
  else if negb (in_alr s) then (s, false)
  else
    let s1 := set_pdes s (Some d) in
    match p_pdes s with
    | None => (s1, false)
    | Some prev =>
        if le d prev then (s1, false)
        else if le d e then (s1, false)
        else
          let lim := mul e 2 in
          let p1 := bmin (mul d 1) lim in
          let s2 := queue_probe s1 p1 KIncreaseAlr d now in
          let p2 := mul d 2 in
          (if le p2 lim && lt p1 p2 then queue_probe s2 p2 KIncreaseAlr d now else s2, true)
    end.
(** control.rs:482-527 *)
Definition maybe_drop (s : pctl) (now : Z) (d e : B) : pctl * bool :=
  if during_initial s now then (s, false)
  else
    let s1 :=
      match p_drop s, p_pest s with
      | None, Some prev => if lt e (mul prev (66 # 100)) then set_drop s (Some (now, prev)) else s
      | _, _ => s
      end in
    match p_drop s1 with
    | None => (s1, false)
    | Some (t, before) =>
        if DROP_TIMEOUT <? since now t then (set_drop s1 None, false)
        else if negb (in_alr s1) && negb (alr_ended_recently s1 now) then (s1, false)
        else if since_last_lt s1 now ALR_GAP then (s1, false)
        else (set_drop (queue_probe s1 (mul before (85 # 100)) KLargeDrop d now) None, true)
    end.
(** control.rs:374-396 *)
Definition maybe_periodic (s : pctl) (now : Z) (d : B) : pctl * bool :=
  if during_initial s now then (s, false)
  else if negb (in_alr s) then (s, false)
  else if since_last_lt s now ALR_GAP then (s, false)
  else (queue_probe s (mul d 2) KPeriodicAlr d now, true).
(** control.rs:443-480 *)
Definition maybe_stagnant (s : pctl) (now : Z) (d e : B) : pctl * bool :=
  if during_initial s now then (s, false)
  else if in_alr s then (s, false)
  else
    match p_chg s with
    | None => (s, false)
    | Some t =>
        if since now t <? STAG_GAP then (s, false)
        else if le d e then (s, false)
        else if match p_stag s with Some u => since now u <? STAG_GAP | None => false end then (s, false)
        else (set_stag (queue_probe s (mul e 2) KStagnant d now) (Some now), true)
    end.
(** control.rs:264-276 *)
Definition update_change (s : pctl) (now : Z) (e : B) : pctl :=
  let s1 := match p_pest s with
            | Some prev => if eqb e prev then s else set_chg s (Some now)
            | None => s end in
  match p_chg s1 with None => set_chg s1 (Some now) | Some _ => s1 end.
(** control.rs:558-587 *)
Definition next_timeout (s : pctl) (now : Z) : pctl * Z :=
  if match p_last s with Some l => is_ini (l_kind l) | None => false end then
    match p_sexp s with
    | Some t => (s, t)
    | None => (set_sexp s (Some (now + WAIT_RESULT)), now + WAIT_RESULT)
    end
  else if in_alr s then
    match p_salr s with
    | Some t => (s, t)
    | None => (set_salr s (Some (now + ALR_GAP)), now + ALR_GAP)
    end
  else
    match p_sstag s with
    | Some t => (s, t)
    | None => (set_sstag s (Some (now + STAG_GAP)), now + STAG_GAP)
    end.
(** control.rs:241-247: the first that fires *)
Definition decide (s : pctl) (now : Z) (d e : B) : pctl :=
  let (s1, b1) := maybe_initial s now d e in
  if b1 then s1 else
  let (s2, b2) := maybe_exponential s1 now d e in
  if b2 then s2 else
  let (s3, b3) := maybe_increase s2 now d e in
  if b3 then s3 else
  let (s4, b4) := maybe_drop s3 now d e in
  if b4 then s4 else
  let (s5, b5) := maybe_periodic s4 now d in
  if b5 then s5 else fst (maybe_stagnant s5 now d e).
(** control.rs:210-262 *)
Definition pc_timeout (s : pctl) (now : Z) : pctl * option cfg :=
  if now <? p_next s then (s, None)
  else
    let s0 := set_next s FAR in
    if negb (p_en s0) then (s0, None)
    else
      match p_des s0, p_est s0 with
      | Some d, Some e =>
          match p_pend s0 with
          | c :: r => (immediate (set_pend s0 r), Some c)
          | [] =>
              if negb (can_probe s0 e) then (s0, None)
              else
                let s1 := decide s0 now d e in
                let s2 := set_pest (update_change s1 now e) (Some e) in
                let (s3, t) := next_timeout s2 now in
                let s4 := set_next s3 t in
                match p_pend s4 with
                | c :: r => (set_pend (immediate s4) r, Some c)
                | [] => (s4, None)
                end
          end
      | _, _ => (s0, None)
      end.

(** estimator.rs:58-87 (size_last_send and size_first_receive beside their times) *)
Record est := mkE {
  e_cfg : cfg; e_created : Z; e_final : Z;
  e_fsend : option Z; e_lsend : option Z; e_slast : Z;
  e_frecv : option Z; e_lrecv : option Z; e_sfirst : Z;
  e_total : Z; e_count : Z }.
(** estimator.rs:235-249 *)
Definition est_new (c : cfg) (now : Z) : est := mkE c now FAR None None 0 None None 0 0 0.
(** estimator.rs:102-135 *)
Definition probe_start (l : list est) (c : cfg) (now : Z) : list est * bool :=
  if 20 <=? zlen l then
    let l1 := filter (fun s => since now (e_created s) <? 5 * SEC) l in
    if 20 <=? zlen l1 then (l1, false) else (l1 ++ [est_new c now], true)
  else (l ++ [est_new c now], true).
(** estimator.rs:251-284 *)
Definition est_update (s : est) (r : srec) : est * bool :=
  match r_recv r with
  | None => (s, false)
  | Some rt =>
      let st := r_send r in
      let fs := match e_fsend s with Some f => Z.min f st | None => st end in
      let ls0 := match e_lsend s with Some l => l | None => st end in
      let '(ls, sl) := if ls0 <=? st then (st, r_size r) else (ls0, e_slast s) in
      let fr0 := match e_frecv s with Some f => f | None => rt end in
      let '(fr, sf) := if rt <=? fr0 then (rt, r_size r) else (fr0, e_sfirst s) in
      let lr := match e_lrecv s with Some l => Z.max l rt | None => rt end in
      (mkE (e_cfg s) (e_created s) (e_final s) (Some fs) (Some ls) sl (Some fr) (Some lr) sf
           (e_total s + r_size r) (e_count s + 1), true)
  end.
(** estimator.rs:301-396; None: no estimate (the reason is only logged); 5 packets asked, 80 % of them is 4 *)
Definition est_rate (s : est) : option B :=
  if e_count s <? 4 then None
  else if e_count s <? 5 * 80 / 100 then None
  else if e_total s <? min_bytes (c_rate (e_cfg s)) then None
  else
    match e_fsend s, e_lsend s, e_frecv s, e_lrecv s with
    | Some fs, Some ls, Some fr, Some lr =>
        let si := since ls fs in
        let ri := since lr fr in
        if si =? 0 then None
        else if SEC <? si then None
        else if (ri =? 0) || (SEC <? ri) then None
        else
          let ss := Z.max 0 (e_total s - e_slast s) in
          let rs := Z.max 0 (e_total s - e_sfirst s) in
          if (ss <=? 0) || (rs <=? 0) then None
          else
            let rr := per rs ri in
            let sr := per ss si in
            if ratio_gt2 rr sr then None
            else if lt rr (mul sr (9 # 10)) then Some (mul rr (95 # 100)) else Some (bmin sr rr)
    | _, _, _, _ => None
    end.
(** The first cluster with this id (Iterator::find) *)
Fixpoint find_est (l : list est) (id : Z) : option est :=
  match l with [] => None | s :: r => if c_id (e_cfg s) =? id then Some s else find_est r id end.
Fixpoint put_est (l : list est) (id : Z) (f : est -> est) : list est :=
  match l with [] => [] | s :: r => if c_id (e_cfg s) =? id then f s :: r else s :: put_est r id f end.
(** estimator.rs:148-172 *)
Fixpoint est_records (l : list est) (did : list Z) (rs : list srec) : list est * list Z :=
  match rs with
  | [] => (l, did)
  | r :: rest =>
      match r_cluster r with
      | None => est_records l did rest
      | Some id =>
          match find_est l id with
          | None => est_records l did rest
          | Some s =>
              let l1 := put_est l id (fun s => fst (est_update s r)) in
              est_records l1 (if snd (est_update s r) then filter (fun x => negb (x =? id)) did ++ [id] else did) rest
          end
      end
  end.
(** estimator.rs:141-178 *)
Definition est_feedback (l : list est) (rs : list srec) : list est * list (cfg * B) :=
  let (l1, did) := est_records l [] rs in
  (l1, flat_map (fun id => match find_est l1 id with
                           | Some s => match est_rate s with Some b => [(e_cfg s, b)] | None => [] end
                           | None => [] end) did).
(** estimator.rs:185-196, 398-400 *)
Definition end_probe (l : list est) (now id : Z) : list est :=
  put_est l id (fun s => mkE (e_cfg s) (e_created s) (now + SEC) (e_fsend s) (e_lsend s) (e_slast s)
                             (e_frecv s) (e_lrecv s) (e_sfirst s) (e_total s) (e_count s)).
(** estimator.rs:207-224 *)
Definition est_timeout (l : list est) (now : Z) : list est := filter (fun s => now <? e_final s) l.

(** bwe/mod.rs:56-60, 128-138: the desired bitrate, and the parts modelled here *)
Record bwe := mkB { b_desired : B; b_pc : pctl; b_est : list est; b_upd : option B }.
(** bwe/mod.rs:63-70, 141-162 *)
Definition bwe_new : bwe := mkB ZERO pc_new [] None.
(** bwe/mod.rs:331-348 *)
Definition propagate (s : bwe) (e : option B) (c : cause) : bwe :=
  match e with
  | None => s
  | Some v =>
      if beq_opt (b_upd s) (Some v) then s
      else mkB (b_desired s) (set_estimated (b_pc s) v c) (b_est s) (Some v)
  end.

Inductive bop :=
| BDesired (v : B)                                      (* bwe/mod.rs:123-125, session.rs:1154-1159 *)
| BTimeout (now : Z) (probe : bool) (alr : option Z) (e : option B) (c : cause)
| BUpdate (rs : list srec) (prop : bool) (e : option B) (c : cause) (* prop: 233-248 do not return *)
| BEnd (now id : Z)                                     (* session.rs:369-371 *)
| BReset.                                               (* bwe/mod.rs:88-90, 404-406 *)
Inductive bout :=
| OProbe (c : option cfg) (started : bool)
| OResults (l : list (cfg * B))
| OUnit.

(** bwe/mod.rs:72-78, 287-329 and session.rs:357-359 *)
Definition bwe_timeout (s : bwe) (now : Z) (probe : bool) (alr : option Z) (e : option B) (c : cause) : bwe * bout :=
  let p1 := set_desired (b_pc s) (b_desired s) in
  let p2 := match alr with Some t => alr_started p1 t | None => alr_stopped p1 now end in
  let s1 := propagate (mkB (b_desired s) p2 (est_timeout (b_est s) now) (b_upd s)) e c in
  let l := if probe then b_est s1 else [] in
  let (p3, o) := pc_timeout (enable (b_pc s1) probe) now in
  match o with
  | None => (mkB (b_desired s1) p3 l (b_upd s1), OProbe None false)
  | Some g => let (l', ok) := probe_start l g now in (mkB (b_desired s1) p3 l' (b_upd s1), OProbe (Some g) ok)
  end.
Definition bwe_step (s : bwe) (o : bop) : bwe * bout :=
  match o with
  | BDesired v => (mkB v (b_pc s) (b_est s) (b_upd s), OUnit)
  | BTimeout now probe alr e c => bwe_timeout s now probe alr e c
  | BUpdate rs prop e c =>
      let (l, res) := est_feedback (b_est s) rs in
      let s1 := mkB (b_desired s) (b_pc s) l (b_upd s) in
      (if prop then propagate s1 e c else s1, OResults res)
  | BEnd now id => (mkB (b_desired s) (b_pc s) (end_probe (b_est s) now id) (b_upd s), OUnit)
  | BReset => (mkB (b_desired s) pc_new [] None, OUnit)
  end.
(** bwe/mod.rs:277-284, without the delay controller *)
Definition bwe_poll (s : bwe) : Z := fold_right Z.min (p_next (b_pc s)) (map e_final (b_est s)).
Fixpoint bwe_run (s : bwe) (ops : list bop) : bwe * list (bop * bout) :=
  match ops with
  | [] => (s, [])
  | o :: r => let (s1, y) := bwe_step s o in let (s2, h) := bwe_run s1 r in (s2, (o, y) :: h)
  end.
End Probe.
Arguments c_id {B}.
Arguments c_rate {B}.
Arguments c_kind {B}.
Arguments l_when {B}.
Arguments l_kind {B}.
Arguments l_further {B}.
Arguments l_was {B}.
Arguments p_en {B}.
Arguments p_next {B}.
Arguments p_des {B}.
Arguments p_pdes {B}.
Arguments p_est {B}.
Arguments p_chg {B}.
Arguments p_cs {B}.
Arguments p_pest {B}.
Arguments p_alr0 {B}.
Arguments p_alr1 {B}.
Arguments p_last {B}.
Arguments p_drop {B}.
Arguments p_stag {B}.
Arguments p_nid {B}.
Arguments p_pend {B}.
Arguments p_sexp {B}.
Arguments p_salr {B}.
Arguments p_sstag {B}.
Arguments e_cfg {B}.
Arguments e_created {B}.
Arguments e_final {B}.
Arguments e_fsend {B}.
Arguments e_lsend {B}.
Arguments e_slast {B}.
Arguments e_frecv {B}.
Arguments e_lrecv {B}.
Arguments e_sfirst {B}.
Arguments e_total {B}.
Arguments e_count {B}.
Arguments b_desired {B}.
Arguments b_pc {B}.
Arguments b_est {B}.
Arguments b_upd {B}.
Arguments BDesired {B}.
Arguments BTimeout {B}.
Arguments BUpdate {B}.
Arguments BEnd {B}.
Arguments BReset {B}.
Arguments OProbe {B}.
Arguments OResults {B}.
Arguments OUnit {B}.
Arguments mkC {B}.
Arguments mkL {B}.
Arguments mkP {B}.
Arguments mkE {B}.
Arguments mkB {B}.
Arguments set_en {B}.
Arguments set_next {B}.
Arguments set_des {B}.
Arguments set_pdes {B}.
Arguments set_est {B}.
Arguments set_chg {B}.
Arguments set_cs {B}.
Arguments set_pest {B}.
Arguments set_alr0 {B}.
Arguments set_alr1 {B}.
Arguments set_last {B}.
Arguments set_drop {B}.
Arguments set_stag {B}.
Arguments set_nid {B}.
Arguments set_pend {B}.
Arguments set_sexp {B}.
Arguments set_salr {B}.
Arguments set_sstag {B}.
Arguments pc_new {B}.
Arguments immediate {B}.
Arguments enable {B}.
Arguments set_desired {B}.
Arguments set_estimated {B}.
Arguments alr_started {B}.
Arguments alr_stopped {B}.
Arguments in_alr {B}.
Arguments alr_ended_recently {B}.
Arguments since_last_lt {B}.
Arguments during_initial {B}.
Arguments can_probe {B}.
Arguments queue_probe {B}.
Arguments maybe_initial {B}.
Arguments beq_opt {B}.
Arguments maybe_exponential {B}.
Arguments maybe_increase {B}.
Arguments maybe_drop {B}.
Arguments maybe_periodic {B}.
Arguments maybe_stagnant {B}.
Arguments update_change {B}.
Arguments next_timeout {B}.
Arguments decide {B}.
Arguments pc_timeout {B}.
Arguments est_new {B}.
Arguments probe_start {B}.
Arguments est_update {B}.
Arguments est_rate {B}.
Arguments find_est {B}.
Arguments put_est {B}.
Arguments est_records {B}.
Arguments est_feedback {B}.
Arguments end_probe {B}.
Arguments est_timeout {B}.
Arguments bwe_new {B}.
Arguments propagate {B}.
Arguments bwe_timeout {B}.
Arguments bwe_step {B}.
Arguments bwe_poll {B}.
Arguments bwe_run {B}.

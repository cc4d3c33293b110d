(** The ICE agent: candidates, pairs, checks, nomination, connection state.

    Models crates/is/src/agent.rs and crates/is/src/pair.rs.  Instants and
    durations are nanoseconds ([Z]); [Instant - Instant] saturates at zero, as
    in std.  Socket addresses are an IP version and an opaque identifier.
    Ufrags are opaque integers.  Random pair ids and STUN transaction ids are
    taken from a counter [a_fresh] (assumption: two random ids never collide).
    The STUN bytes of requests and replies are C26's subject; here a datagram is
    what it says ([xmit]).  [a_log] is a ghost: every event ever emitted. *)
From Verif Require Import Base PrioModel.

(** std::net::SocketAddr *)
Definition addr := (bool * Z)%type.
Definition is_v6 (a : addr) : bool := fst a.
Definition addr_eqb (a b : addr) : bool := Bool.eqb (fst a) (fst b) && (snd a =? snd b).
Definition oaddr_eqb (a b : option addr) : bool :=
  match a, b with Some x, Some y => addr_eqb x y | None, None => true | _, _ => false end.

(** candidate.rs:14-80 struct Candidate.  [i_temp]: the foundation is
    "tmp_prflx"; no other use of the foundation is made here. *)
Record icand := mkIC {
  i_temp : bool; i_comp : Z; i_proto : cproto; i_prio : option Z; i_addr : addr;
  i_base : option addr; i_kind : ckind; i_raddr : option addr; i_ufrag : option Z;
  i_local6 : bool; i_lpref : option Z; i_disc : bool }.

(** candidate.rs:518-520 base *)
Definition base (c : icand) : addr := match c.(i_base) with Some b => b | None => c.(i_addr) end.
(** candidate.rs:434-486: the part PrioModel works on *)
Definition pc (c : icand) : cand :=
  mkCand c.(i_prio) c.(i_kind) c.(i_proto) c.(i_lpref) c.(i_comp) (is_v6 c.(i_addr)) c.(i_local6).
Definition iprio (c : icand) : res Z := prio (pc c).

Definition set_disc (c : icand) (d : bool) : icand :=
  mkIC c.(i_temp) c.(i_comp) c.(i_proto) c.(i_prio) c.(i_addr) c.(i_base) c.(i_kind)
       c.(i_raddr) c.(i_ufrag) c.(i_local6) c.(i_lpref) d.
Definition set_ufrag (c : icand) (u : option Z) : icand :=
  mkIC c.(i_temp) c.(i_comp) c.(i_proto) c.(i_prio) c.(i_addr) c.(i_base) c.(i_kind)
       c.(i_raddr) u c.(i_local6) c.(i_lpref) c.(i_disc).
Definition set_lpref (c : icand) (p : Z) : icand :=
  mkIC c.(i_temp) c.(i_comp) c.(i_proto) c.(i_prio) c.(i_addr) c.(i_base) c.(i_kind)
       c.(i_raddr) c.(i_ufrag) c.(i_local6) (Some p) c.(i_disc).

(** candidate.rs:332-354 peer_reflexive *)
Definition peer_reflexive (p : cproto) (a b : addr) (pr : Z) (temp : bool) (u : Z) : icand :=
  mkIC temp 1 p (Some pr) a (Some b) PeerReflexive None (Some u) (is_v6 b) None false.

(** pair.rs:64-84 CheckState, 86-100 NominationState *)
Inductive check_state := Waiting | InProgress | Succeeded.
Inductive nom_state := NNone | Nominated | Attempt | Success.

(** pair.rs:102-127 BindingAttempt *)
Record attempt := mkAtt { t_id : Z; t_sent : Z; t_resp : option Z; t_nom : bool; t_ctrl : bool }.

(** pair.rs:15-63 CandidatePair.  The kinds (logging only), valid_idx (never
    read), the count of remote binding requests and the sum of round trip times
    (statistics) are left out. *)
Record pair := mkPair {
  p_id : Z; p_local : nat; p_remote : nat; p_prio : Z; p_state : check_state;
  p_att : list attempt; p_cached : option Z; p_rbr : option Z; p_nom : nom_state; p_resp : Z }.

(** stun.rs:15-68 StunTiming and the other timing settings of the agent. *)
Record cfg := mkCfg {
  k_init_rto : Z; k_max_retr : nat; k_max_rto : Z; k_ta : Z; k_max_pairs : nat }.

(** The defaults: stun.rs:62-70, agent.rs:342, 919. *)
Definition ms (n : Z) : Z := n * 1000000.
Definition default_cfg : cfg := mkCfg (ms 250) 9 (ms 3000) (ms 50) 100.

(** stun.rs:38-50 stun_resend_delay; [as_millis] truncates to milliseconds *)
Definition resend_delay (k : cfg) (send_count : nat) : Z :=
  match send_count with
  | O => 0
  | S n =>
      let retrans := Nat.min n k.(k_max_retr) in
      let rto := Z.shiftl (k.(k_init_rto) / 1000000) (Z.of_nat retrans) in
      ms (Z.min rto (k.(k_max_rto) / 1000000))
  end.
(** stun.rs:23-29 timeout *)
Definition stun_timeout (k : cfg) : Z :=
  fold_left Z.add (map (resend_delay k) (seq 2 (k.(k_max_retr) - 1))) 0 + resend_delay k k.(k_max_retr).

(** [Instant - Instant] *)
Definition since (now t : Z) : Z := Z.max 0 (now - t).
(** pair.rs:12 RECENT_BINDING_REQUEST *)
Definition recent : Z := ms 15000.

(** pair.rs:141-167 new *)
Definition new_pair (id : Z) (l r : nat) (pr : Z) : pair :=
  mkPair id l r pr Waiting [] None None NNone 0.

Definition set_nom (p : pair) (n : nom_state) : pair :=
  mkPair p.(p_id) p.(p_local) p.(p_remote) p.(p_prio) p.(p_state) p.(p_att) p.(p_cached) p.(p_rbr) n p.(p_resp).
Definition set_cached (p : pair) (c : option Z) : pair :=
  mkPair p.(p_id) p.(p_local) p.(p_remote) p.(p_prio) p.(p_state) p.(p_att) c p.(p_rbr) p.(p_nom) p.(p_resp).
Definition set_prio (p : pair) (pr : Z) : pair :=
  mkPair p.(p_id) p.(p_local) p.(p_remote) pr p.(p_state) p.(p_att) p.(p_cached) p.(p_rbr) p.(p_nom) p.(p_resp).
(** pair.rs:218-222 increase_remote_binding_requests, 481-484 copy_remote_binding_requests *)
Definition set_rbr (p : pair) (t : option Z) : pair :=
  mkPair p.(p_id) p.(p_local) p.(p_remote) p.(p_prio) p.(p_state) p.(p_att) p.(p_cached) t p.(p_nom) p.(p_resp).

(** pair.rs:228-233 is_ice_lite_alive *)
Definition lite_alive (p : pair) (now : Z) : bool :=
  match p.(p_rbr) with None => true | Some t => since now t <? recent end.
(** pair.rs:235-237 is_nominated *)
Definition is_nominated (p : pair) : bool := match p.(p_nom) with NNone => false | _ => true end.
(** pair.rs:239-248 nominate *)
Definition nominate (p : pair) (force : bool) : res pair :=
  match p.(p_nom) with
  | NNone => Ok (set_nom p (if force then Success else Nominated))
  | _ => Panic
  end.
(** pair.rs:250-266 copy_nominated_and_success_state *)
Definition copy_nom (p other : pair) : pair :=
  match other.(p_nom) with
  | Nominated => set_nom p Nominated
  | Success => set_nom p Success
  | NNone => p
  | Attempt => set_nom p Nominated
  end.

(** pair.rs:271-318 new_attempt; [max_retransmits] of zero empties the list and
    [back().unwrap()] panics. *)
Definition new_attempt (k : cfg) (p : pair) (now tid : Z) (ctrl : bool) : res pair :=
  let nom := match p.(p_nom) with Nominated => Attempt | n => n end in
  let att := p.(p_att) ++ [mkAtt tid now None (match nom with NNone => false | _ => true end) ctrl] in
  let att := skipn (length att - k.(k_max_retr)) att in
  match att with
  | [] => Panic
  | _ => Ok (mkPair p.(p_id) p.(p_local) p.(p_remote) p.(p_prio)
               (match p.(p_state) with Waiting => InProgress | s => s end)
               att None p.(p_rbr) nom p.(p_resp))
  end.

(** pair.rs:322-326 binding_attempt *)
Definition binding_attempt (p : pair) (tid : Z) : option attempt :=
  find (fun b => b.(t_id) =? tid) p.(p_att).

(** pair.rs:333-366 record_binding_response *)
Fixpoint answer (l : list attempt) (tid now : Z) : option (list attempt * attempt) :=
  match l with
  | [] => None
  | b :: t => if b.(t_id) =? tid
              then Some (mkAtt b.(t_id) b.(t_sent) (Some now) b.(t_nom) b.(t_ctrl) :: t, b)
              else match answer t tid now with Some (t', a) => Some (b :: t', a) | None => None end
  end.
Definition record_response (p : pair) (now tid : Z) : res pair :=
  match answer p.(p_att) tid now with
  | None => Panic
  | Some (att, a) =>
      Ok (mkPair p.(p_id) p.(p_local) p.(p_remote) p.(p_prio)
            (match p.(p_state) with InProgress => Succeeded | s => s end)
            att None p.(p_rbr)
            (match a.(t_nom), p.(p_nom) with true, Attempt => Success | _, n => n end)
            (p.(p_resp) + 1))
  end.

(** pair.rs:371-373 last_attempt_time *)
Definition last_attempt_time (p : pair) : option Z :=
  match rev p.(p_att) with [] => None | b :: _ => Some b.(t_sent) end.

(** pair.rs:400-408 unanswered: the number of newest attempts without an
    answer and the time of the oldest of them. *)
Fixpoint take_unanswered (l : list attempt) : list attempt :=
  match l with
  | b :: t => match b.(t_resp) with None => b :: take_unanswered t | Some _ => [] end
  | [] => []
  end.
Definition unanswered (p : pair) : option (nat * Z) :=
  let u := take_unanswered (rev p.(p_att)) in
  match rev u with [] => None | b :: _ => Some (length u, b.(t_sent)) end.

(** pair.rs:411-447 next_binding_attempt, without the cache.  When the clock is
    younger than 60 s the code uses [now] instead of [now - 60 s]; both are due. *)
Definition compute_next (k : cfg) (p : pair) (now : Z) : Z :=
  let next :=
    match p.(p_nom) with
    | Nominated => now - ms 60000
    | _ =>
        match last_attempt_time p with
        | Some last =>
            let cnt := match unanswered p with
                       | Some (n, t) => if k.(k_max_rto) / 2 <? since now t then Some n else None
                       | None => None
                       end in
            last + resend_delay k (match cnt with Some n => n | None => length p.(p_att) end)
        | None => now
        end
    end in
  Z.min next (now + k.(k_max_rto)).
Definition next_attempt (k : cfg) (p : pair) (now : Z) : pair * Z :=
  match p.(p_cached) with
  | Some c => (p, c)
  | None => let t := compute_next k p now in (set_cached p (Some t), t)
  end.

(** pair.rs:452-479 is_still_possible *)
Definition still_possible (k : cfg) (p : pair) (now : Z) : bool :=
  if match p.(p_rbr) with Some t => since now t <? recent | None => false end then true
  else
    let attempts := length p.(p_att) in
    let un := match unanswered p with Some (n, _) => n | None => O end in
    if (attempts <? k.(k_max_retr))%nat || (un <? k.(k_max_retr))%nat then true
    else match last_attempt_time p with
         | Some last => now <? last + resend_delay k k.(k_max_retr)
         | None => false (* unwrap; only with max_retransmits = 0 *)
         end.

(** agent.rs:191-240 IceConnectionState *)
Inductive conn := New | Checking | Connected | Completed | Disconnected.
Definition conn_eqb (a b : conn) : bool :=
  match a, b with
  | New, New | Checking, Checking | Connected, Connected
  | Completed, Completed | Disconnected, Disconnected => true
  | _, _ => false
  end.
Definition is_connected (c : conn) : bool :=
  match c with Connected | Completed => true | _ => false end.

(** agent.rs:263-300 IceAgentEvent *)
Inductive event :=
| EvRestart (ufrag : Z)
| EvState (c : conn)
| EvDiscovered (p : cproto) (src : addr)
| EvNominated (p : cproto) (src dst : addr).

(** agent.rs:146-158 StunRequest *)
Record request := mkReq {
  q_now : Z; q_proto : cproto; q_src : addr; q_dst : addr; q_tid : Z; q_prio : Z;
  q_use : bool; q_rufrag : Z; q_controlling : option Z; q_controlled : option Z }.

(** A datagram the agent sends: a binding request, a success reply, a 487. *)
Inductive xmit :=
| XRequest (p : cproto) (src dst : addr) (tid : Z) (controlling : bool) (tie : Z) (pr : Z) (use : bool)
| XReply (p : cproto) (src dst : addr) (tid : Z) (mapped : addr)
| XConflict (p : cproto) (src dst : addr) (tid : Z).

(** agent.rs:31-113 struct IceAgent.  Passwords, MTU, statistics and the
    warning flag are left out. *)
Record agent := mkA {
  a_cfg : cfg; a_lite : bool; a_tie : Z; a_ctrl : bool; a_state : conn;
  a_last_now : option Z; a_lufrag : Z; a_rufrag : option Z;
  a_locals : list icand; a_remotes : list icand; a_pairs : list pair;
  a_transmit : list xmit; a_events : list event; a_queue : list request;
  a_disc : list (cproto * addr); a_nsend : option Z; a_fresh : Z; a_log : list event }.

(** agent.rs:318-352 with_hmac; lite, role and timing set before use *)
Definition init (k : cfg) (lite ctrl : bool) (tie ufrag : Z) : agent :=
  mkA k lite tie ctrl New None ufrag None [] [] [] [] [] [] [] None 0 [].

Definition set_locals a v := mkA a.(a_cfg) a.(a_lite) a.(a_tie) a.(a_ctrl) a.(a_state) a.(a_last_now) a.(a_lufrag) a.(a_rufrag) v a.(a_remotes) a.(a_pairs) a.(a_transmit) a.(a_events) a.(a_queue) a.(a_disc) a.(a_nsend) a.(a_fresh) a.(a_log).
Definition set_remotes a v := mkA a.(a_cfg) a.(a_lite) a.(a_tie) a.(a_ctrl) a.(a_state) a.(a_last_now) a.(a_lufrag) a.(a_rufrag) a.(a_locals) v a.(a_pairs) a.(a_transmit) a.(a_events) a.(a_queue) a.(a_disc) a.(a_nsend) a.(a_fresh) a.(a_log).
Definition set_pairs a v := mkA a.(a_cfg) a.(a_lite) a.(a_tie) a.(a_ctrl) a.(a_state) a.(a_last_now) a.(a_lufrag) a.(a_rufrag) a.(a_locals) a.(a_remotes) v a.(a_transmit) a.(a_events) a.(a_queue) a.(a_disc) a.(a_nsend) a.(a_fresh) a.(a_log).
Definition set_fresh a v := mkA a.(a_cfg) a.(a_lite) a.(a_tie) a.(a_ctrl) a.(a_state) a.(a_last_now) a.(a_lufrag) a.(a_rufrag) a.(a_locals) a.(a_remotes) a.(a_pairs) a.(a_transmit) a.(a_events) a.(a_queue) a.(a_disc) a.(a_nsend) v a.(a_log).
Definition set_ctrl a v := mkA a.(a_cfg) a.(a_lite) a.(a_tie) v a.(a_state) a.(a_last_now) a.(a_lufrag) a.(a_rufrag) a.(a_locals) a.(a_remotes) a.(a_pairs) a.(a_transmit) a.(a_events) a.(a_queue) a.(a_disc) a.(a_nsend) a.(a_fresh) a.(a_log).
Definition set_queue a v := mkA a.(a_cfg) a.(a_lite) a.(a_tie) a.(a_ctrl) a.(a_state) a.(a_last_now) a.(a_lufrag) a.(a_rufrag) a.(a_locals) a.(a_remotes) a.(a_pairs) a.(a_transmit) a.(a_events) v a.(a_disc) a.(a_nsend) a.(a_fresh) a.(a_log).
Definition set_nsend a v := mkA a.(a_cfg) a.(a_lite) a.(a_tie) a.(a_ctrl) a.(a_state) a.(a_last_now) a.(a_lufrag) a.(a_rufrag) a.(a_locals) a.(a_remotes) a.(a_pairs) a.(a_transmit) a.(a_events) a.(a_queue) a.(a_disc) v a.(a_fresh) a.(a_log).
Definition set_last_now a v := mkA a.(a_cfg) a.(a_lite) a.(a_tie) a.(a_ctrl) a.(a_state) v a.(a_lufrag) a.(a_rufrag) a.(a_locals) a.(a_remotes) a.(a_pairs) a.(a_transmit) a.(a_events) a.(a_queue) a.(a_disc) a.(a_nsend) a.(a_fresh) a.(a_log).
Definition set_state a v := mkA a.(a_cfg) a.(a_lite) a.(a_tie) a.(a_ctrl) v a.(a_last_now) a.(a_lufrag) a.(a_rufrag) a.(a_locals) a.(a_remotes) a.(a_pairs) a.(a_transmit) a.(a_events) a.(a_queue) a.(a_disc) a.(a_nsend) a.(a_fresh) a.(a_log).
Definition set_transmit a v := mkA a.(a_cfg) a.(a_lite) a.(a_tie) a.(a_ctrl) a.(a_state) a.(a_last_now) a.(a_lufrag) a.(a_rufrag) a.(a_locals) a.(a_remotes) a.(a_pairs) v a.(a_events) a.(a_queue) a.(a_disc) a.(a_nsend) a.(a_fresh) a.(a_log).
Definition set_events a v := mkA a.(a_cfg) a.(a_lite) a.(a_tie) a.(a_ctrl) a.(a_state) a.(a_last_now) a.(a_lufrag) a.(a_rufrag) a.(a_locals) a.(a_remotes) a.(a_pairs) a.(a_transmit) v a.(a_queue) a.(a_disc) a.(a_nsend) a.(a_fresh) a.(a_log).
Definition set_disc_recv a v := mkA a.(a_cfg) a.(a_lite) a.(a_tie) a.(a_ctrl) a.(a_state) a.(a_last_now) a.(a_lufrag) a.(a_rufrag) a.(a_locals) a.(a_remotes) a.(a_pairs) a.(a_transmit) a.(a_events) a.(a_queue) v a.(a_nsend) a.(a_fresh) a.(a_log).
Definition set_creds a lu ru := mkA a.(a_cfg) a.(a_lite) a.(a_tie) a.(a_ctrl) a.(a_state) a.(a_last_now) lu ru a.(a_locals) a.(a_remotes) a.(a_pairs) a.(a_transmit) a.(a_events) a.(a_queue) a.(a_disc) a.(a_nsend) a.(a_fresh) a.(a_log).

(** agent.rs:1341-1355 emit_event *)
Definition push_event (a : agent) (e : event) : agent :=
  mkA a.(a_cfg) a.(a_lite) a.(a_tie) a.(a_ctrl) a.(a_state) a.(a_last_now) a.(a_lufrag) a.(a_rufrag) a.(a_locals) a.(a_remotes) a.(a_pairs) a.(a_transmit) (a.(a_events) ++ [e]) a.(a_queue) a.(a_disc) a.(a_nsend) a.(a_fresh) (a.(a_log) ++ [e]).
Definition disc_mem (p : cproto) (s : addr) (l : list (cproto * addr)) : bool :=
  existsb (fun x => cproto_eqb p (fst x) && addr_eqb s (snd x)) l.
Definition emit_event (a : agent) (e : event) : agent :=
  match e with
  | EvDiscovered p s =>
      if disc_mem p s a.(a_disc) then a
      else push_event (set_disc_recv a ((p, s) :: a.(a_disc))) e
  | _ => push_event a e
  end.

(** agent.rs:2002-2008 set_connection_state *)
Definition set_conn (a : agent) (c : conn) : agent :=
  if conn_eqb a.(a_state) c then a else emit_event (set_state a c) (EvState c).

(** agent.rs:2010-2075 evaluate_state *)
Definition any_nominated (ps : list pair) : bool := existsb is_nominated ps.
Definition any_possible (a : agent) (now : Z) : bool :=
  existsb (fun p => negb (is_nominated p) && still_possible a.(a_cfg) p now) a.(a_pairs)
  || match a.(a_remotes) with [] => true | _ => false end
  || match a.(a_locals) with [] => true | _ => false end.
Definition evaluate_state (a : agent) (now : Z) : agent :=
  let nom := any_nominated a.(a_pairs) in
  let pos := any_possible a now in
  match a.(a_state) with
  | New => set_conn a Checking
  | Checking | Disconnected =>
      if nom then
        if a.(a_lite) then set_conn a Completed
        else if pos then set_conn a Connected else set_conn a Completed
      else if negb pos then set_conn a Disconnected else set_conn a Checking
  | Connected =>
      if nom then (if negb pos then set_conn a Completed else a)
      else if pos then set_conn a Checking else set_conn a Disconnected
  | Completed =>
      if nom then (if pos && negb a.(a_lite) then set_conn a Connected else a)
      else if pos then set_conn a Checking else set_conn a Disconnected
  end.

(** [candidate_pairs.sort()]: stable, highest priority first (pair.rs:516-521) *)
Fixpoint insert_pair (p : pair) (l : list pair) : list pair :=
  match l with
  | [] => [p]
  | q :: t => if q.(p_prio) <=? p.(p_prio) then p :: q :: t else q :: insert_pair p t
  end.
Fixpoint sort_pairs (l : list pair) : list pair :=
  match l with [] => [] | p :: t => insert_pair p (sort_pairs t) end.

(** [Iterator::max_by_key] keeps the last of equal maxima; the position is
    returned. *)
Fixpoint best_from (f : pair -> bool) (l : list pair) (i : nat) (cur : option (nat * Z)) : option (nat * Z) :=
  match l with
  | [] => cur
  | p :: t =>
      best_from f t (S i)
        (if f p then
           match cur with
           | Some (_, pr) => if pr <=? p.(p_prio) then Some (i, p.(p_prio)) else cur
           | None => Some (i, p.(p_prio))
           end
         else cur)
  end.
Definition best (f : pair -> bool) (l : list pair) : option nat := option_map fst (best_from f l O None).

Fixpoint upd {A} (n : nat) (v : A) (l : list A) : list A :=
  match l, n with
  | [], _ => []
  | _ :: t, O => v :: t
  | x :: t, S m => x :: upd m v t
  end.
Definition get {A} (l : list A) (n : nat) : res A :=
  match nth_error l n with Some x => Ok x | None => Panic end.

(** agent.rs:1946-1952 nominated_pair_priority *)
Definition nominated_prio (a : agent) : option Z :=
  match a.(a_nsend) with
  | None => None
  | Some id => option_map p_prio (find (fun p => p.(p_id) =? id) a.(a_pairs))
  end.

(** agent.rs:1899-1944 evaluate_nomination *)
Definition eligible (ctrl : bool) (p : pair) : bool :=
  if ctrl then match p.(p_state) with Succeeded => true | _ => false end else is_nominated p.
Definition evaluate_nomination (a : agent) : res agent :=
  match best (eligible a.(a_ctrl)) a.(a_pairs) with
  | None => Ok a
  | Some i =>
      do b <- get a.(a_pairs) i;
      if match nominated_prio a with Some pr => pr =? b.(p_prio) | None => false end then Ok a
      else
        do b' <- (if negb (is_nominated b) && (a.(a_ctrl) || a.(a_lite))
                  then nominate b a.(a_lite) else Ok b);
        do l <- get a.(a_locals) b'.(p_local);
        do r <- get a.(a_remotes) b'.(p_remote);
        Ok (emit_event (set_nsend (set_pairs a (upd i b' a.(a_pairs))) (Some b'.(p_id)))
                       (EvNominated l.(i_proto) (base l) r.(i_addr)))
  end.

(** agent.rs:828-908 the loops of form_pairs: one (local, remote) combination *)
Definition redundant (a : agent) (l r : icand) (check : pair) : res bool :=
  do cl <- get a.(a_locals) check.(p_local);
  do cr <- get a.(a_remotes) check.(p_remote);
  Ok (addr_eqb (base l) (base cl) && addr_eqb r.(i_addr) cr.(i_addr)
      && cproto_eqb l.(i_proto) cl.(i_proto) && cproto_eqb r.(i_proto) cr.(i_proto)).
Fixpoint find_redundant (a : agent) (l r : icand) (ps : list pair) (i : nat) : res (option (nat * pair)) :=
  match ps with
  | [] => Ok None
  | c :: t => do b <- redundant a l r c;
              if b then Ok (Some (i, c)) else find_redundant a l r t (S i)
  end.
Definition form_pair (a : agent) (li ri : nat) : res agent :=
  do l <- get a.(a_locals) li;
  do r <- get a.(a_remotes) ri;
  if negb (cproto_eqb l.(i_proto) r.(i_proto)) then Ok a
  else
    do rp <- iprio r;
    do lp <- iprio l;
    do pr <- calculate_prio a.(a_ctrl) rp lp;
    let p := new_pair a.(a_fresh) li ri pr in
    let a := set_fresh a (a.(a_fresh) + 1) in
    do f <- find_redundant a l r a.(a_pairs) O;
    match f with
    | Some (i, check) =>
        if pr <=? check.(p_prio) then Ok a
        else
          let p := copy_nom p check in
          let p := if a.(a_lite) then set_rbr p check.(p_rbr) else p in
          Ok (set_pairs a (upd i p a.(a_pairs)))
    | None => Ok (set_pairs a (a.(a_pairs) ++ [p]))
    end.
Fixpoint form_all (a : agent) (lr : list (nat * nat)) : res agent :=
  match lr with
  | [] => Ok a
  | (l, r) :: t => do a' <- form_pair a l r; form_all a' t
  end.
(** agent.rs:830-832 update_kinds looks both candidates of every pair up *)
Fixpoint update_kinds (a : agent) (ps : list pair) : res unit :=
  match ps with
  | [] => Ok tt
  | p :: t => do _ <- get a.(a_locals) p.(p_local);
              do _ <- get a.(a_remotes) p.(p_remote);
              update_kinds a t
  end.
(** agent.rs:828-930 form_pairs *)
Definition form_pairs (a : agent) (ls rs : list nat) : res agent :=
  do _ <- update_kinds a a.(a_pairs);
  do a1 <- form_all a (flat_map (fun l => map (fun r => (l, r)) rs) ls);
  Ok (set_pairs a1 (firstn a1.(a_cfg).(k_max_pairs) (sort_pairs a1.(a_pairs)))).

(** positions of the elements that satisfy [f] *)
Definition positions {A} (f : A -> bool) (l : list A) : list nat :=
  map fst (filter (fun x => f (snd x)) (combine (seq 0 (length l)) l)).
Fixpoint position {A} (f : A -> bool) (l : list A) : option nat :=
  match l with
  | [] => None
  | x :: t => if f x then Some O else option_map S (position f t)
  end.

(** agent.rs:1044-1053 discard_candidate_pairs_by_local / by_remote *)
Definition discard_local (a : agent) (i : nat) : agent :=
  set_pairs a (filter (fun p => negb (p.(p_local) =? i)%nat) a.(a_pairs)).
Definition discard_remote (a : agent) (i : nat) : agent :=
  set_pairs a (filter (fun p => negb (p.(p_remote) =? i)%nat) a.(a_pairs)).

(** agent.rs:633-639 *)
Definition same_kind (a : agent) (c : icand) : Z := same_kind_count (map pc a.(a_locals)) (pc c).

(** agent.rs:655-690: where the candidate ends up, or [None] when rejected *)
Definition place_local (a : agent) (c : icand) : res (option (agent * nat)) :=
  let push a := Ok (Some (set_locals a (a.(a_locals) ++ [c]), length a.(a_locals))) in
  match position (fun v => addr_eqb v.(i_addr) c.(i_addr) && addr_eqb (base v) (base c)
                           && cproto_eqb v.(i_proto) c.(i_proto)) a.(a_locals) with
  | Some i =>
      do other <- get a.(a_locals) i;
      if other.(i_disc) && ckind_eqb c.(i_kind) other.(i_kind) && oaddr_eqb c.(i_raddr) other.(i_raddr)
      then Ok (Some (set_locals a (upd i (set_disc other false) a.(a_locals)), i))
      else
        do cp <- iprio c;
        do op <- iprio other;
        if cp <? op then Ok None
        else push (discard_local (set_locals a (upd i (set_disc other true) a.(a_locals))) i)
  | None => push a
  end.

(** agent.rs:620-722 add_local_candidate *)
Definition add_local (a : agent) (c : icand) : res agent :=
  if a.(a_lite) && negb (ckind_eqb c.(i_kind) Host) then Ok a
  else
    do p <- default_local_preference (pc c) (same_kind a c);
    let c := set_ufrag (set_lpref c p) (Some a.(a_lufrag)) in
    do pl <- place_local a c;
    match pl with
    | None => Ok a
    | Some (a', i) =>
        form_pairs a' [i] (positions (fun v => negb v.(i_disc) && Bool.eqb (is_v6 v.(i_addr)) (is_v6 c.(i_addr)))
                                     a'.(a_remotes))
    end.

(** agent.rs:565-578 find_pair_for_equivalent_remote_candidate *)
Fixpoint find_equivalent (a : agent) (c : icand) (ps : list pair) : res (option nat) :=
  match ps with
  | [] => Ok None
  | p :: t =>
      do o <- get a.(a_remotes) p.(p_remote);
      if addr_eqb c.(i_addr) o.(i_addr) && addr_eqb (base c) (base o) && cproto_eqb c.(i_proto) o.(i_proto)
         && ckind_eqb c.(i_kind) o.(i_kind) && oaddr_eqb c.(i_raddr) o.(i_raddr)
      then Ok (Some p.(p_remote)) else find_equivalent a c t
  end.

(** agent.rs:729-825 add_remote_candidate *)
Definition place_remote (a : agent) (c : icand) (existing : option nat) : res (agent * nat) :=
  match position (fun v => v.(i_temp) && ckind_eqb v.(i_kind) PeerReflexive && addr_eqb v.(i_addr) c.(i_addr))
                 a.(a_remotes) with
  | Some i => Ok (set_remotes a (upd i c a.(a_remotes)), i)
  | None =>
      let push := Ok (set_remotes a (a.(a_remotes) ++ [c]), length a.(a_remotes)) in
      match existing with
      | Some i => do o <- get a.(a_remotes) i;
                  if o.(i_disc) then Ok (set_remotes a (upd i (set_disc o false) a.(a_remotes)), i) else push
      | None => push
      end
  end.
Definition add_remote (a : agent) (c : icand) : res agent :=
  if negb (c.(i_comp) =? 1) then Ok a
  else if match a.(a_rufrag), c.(i_ufrag) with Some r, Some u => negb (u =? r) | _, _ => false end then Ok a
  else
    let c := set_ufrag c None in
    do ex <- find_equivalent a c a.(a_pairs);
    do ex <- match ex with
             | None => Ok (Some None)
             | Some i => do o <- get a.(a_remotes) i; Ok (if o.(i_disc) then Some (Some i) else None)
             end;
    match ex with
    | None => Ok a
    | Some existing =>
        do (a', i) <- place_remote a c existing;
        form_pairs a' (positions (fun v => negb v.(i_disc) && Bool.eqb (is_v6 v.(i_addr)) (is_v6 c.(i_addr)))
                                 a'.(a_locals)) [i]
    end.

(** agent.rs:941-985 invalidate_candidate *)
Definition same_cand (c v : icand) : bool :=
  addr_eqb v.(i_addr) c.(i_addr) && addr_eqb (base v) (base c) && oaddr_eqb v.(i_raddr) c.(i_raddr)
  && ckind_eqb v.(i_kind) c.(i_kind).
Definition invalidate_remote (a : agent) (c : icand) : res (agent * bool) :=
  match position (same_cand c) a.(a_remotes) with
  | Some i =>
      do o <- get a.(a_remotes) i;
      if negb o.(i_disc)
      then Ok (discard_remote (set_remotes a (upd i (set_disc o true) a.(a_remotes))) i, true)
      else Ok (a, false)
  | None => Ok (a, false)
  end.
Definition invalidate (a : agent) (c : icand) : res (agent * bool) :=
  match position (same_cand c) a.(a_locals) with
  | Some i =>
      do o <- get a.(a_locals) i;
      if negb o.(i_disc)
      then Ok (discard_local (set_locals a (upd i (set_disc o true) a.(a_locals))) i, true)
      else invalidate_remote a c
  | None => invalidate_remote a c
  end.

(** agent.rs:993-1017 ice_restart *)
Definition ice_restart (a : agent) (ufrag : Z) (keep : bool) : agent :=
  let a := set_creds a ufrag None in
  let a := set_disc_recv (set_events (set_transmit (set_pairs (set_remotes a []) []) []) []) [] in
  let a := set_locals a (if keep then map (fun c => set_ufrag c (Some ufrag)) a.(a_locals) else []) in
  set_conn (emit_event a (EvRestart ufrag)) Checking.

(** agent.rs:1022-1042 recreate_candidate_pairs *)
Definition recreate (a : agent) : res agent :=
  let a := set_pairs a [] in
  let live l := positions (fun c => negb c.(i_disc)) l in
  do a1 <- form_pairs a (live a.(a_locals)) (live a.(a_remotes));
  Ok (set_conn a1 Checking).

(** agent.rs:1676-1702 switch_role *)
Fixpoint reprio (a : agent) (ps : list pair) : res (list pair) :=
  match ps with
  | [] => Ok []
  | p :: t =>
      do l <- get a.(a_locals) p.(p_local);
      do r <- get a.(a_remotes) p.(p_remote);
      do lp <- iprio l;
      do rp <- iprio r;
      do pr <- calculate_prio a.(a_ctrl) rp lp;
      do t' <- reprio a t;
      Ok (set_prio p pr :: t')
  end.
Definition switch_role (a : agent) (ctrl : bool) : res agent :=
  if Bool.eqb a.(a_ctrl) ctrl then Ok a
  else
    let a := set_ctrl a ctrl in
    do ps <- reprio a a.(a_pairs);
    Ok (set_pairs a (sort_pairs ps)).

(** [max_by_key(|c| c.prio())] over the remote candidates: last maximum *)
Fixpoint best_remote (f : icand -> bool) (l : list icand) (i : nat) (cur : option (nat * Z)) : res (option (nat * Z)) :=
  match l with
  | [] => Ok cur
  | c :: t =>
      if f c then
        do pr <- iprio c;
        best_remote f t (S i)
          (match cur with Some (_, q) => if q <=? pr then Some (i, pr) else cur | None => Some (i, pr) end)
      else best_remote f t (S i) cur
  end.

Definition of_pair (li ri : nat) (p : pair) : bool := (p.(p_local) =? li)%nat && (p.(p_remote) =? ri)%nat.

(** agent.rs:1502-1552: the remote candidate of a request: index, or [None]
    when the request is ignored *)
Definition request_remote (a : agent) (q : request) : res (option (agent * nat)) :=
  let at_src c := cproto_eqb c.(i_proto) q.(q_proto) && addr_eqb c.(i_addr) q.(q_src) in
  do f <- best_remote (fun c => negb c.(i_disc) && at_src c) a.(a_remotes) O None;
  match f with
  | Some (i, _) => Ok (Some (a, i))
  | None =>
      if existsb (fun c => c.(i_disc) && at_src c) a.(a_remotes) then Ok None
      else
        let c := peer_reflexive q.(q_proto) q.(q_src) q.(q_src) q.(q_prio) true a.(a_lufrag) in
        Ok (Some (set_remotes a (a.(a_remotes) ++ [c]), length a.(a_remotes)))
  end.

(** agent.rs:1554-1592: the pair of the request is found or made *)
Definition request_pair (a : agent) (li ri : nat) : res (option agent) :=
  match position (of_pair li ri) a.(a_pairs) with
  | Some _ => Ok (Some a)
  | None =>
      do l <- get a.(a_locals) li;
      do r <- get a.(a_remotes) ri;
      if l.(i_disc) then Ok None
      else
        do rp <- iprio r;
        do lp <- iprio l;
        do pr <- calculate_prio a.(a_ctrl) rp lp;
        Ok (Some (set_fresh (set_pairs a (sort_pairs (a.(a_pairs) ++ [new_pair a.(a_fresh) li ri pr])))
                            (a.(a_fresh) + 1)))
  end.

(** agent.rs:1594-1640: bookkeeping on the pair, nomination, reply *)
Definition request_finish (a : agent) (q : request) (li ri : nat) : res agent :=
  match position (of_pair li ri) a.(a_pairs) with
  | None => Panic (* unwrap *)
  | Some i =>
      do p <- get a.(a_pairs) i;
      do l <- get a.(a_locals) p.(p_local);
      do r <- get a.(a_remotes) p.(p_remote);
      let p := set_rbr p (Some q.(q_now)) in
      do p <- (if negb a.(a_ctrl) && negb (is_nominated p) && q.(q_use) then nominate p a.(a_lite) else Ok p);
      let a := set_pairs a (upd i p a.(a_pairs)) in
      do a <- (if a.(a_ctrl) && match p.(p_state) with Succeeded => true | _ => false end
               then evaluate_nomination a else Ok a);
      Ok (set_transmit a (a.(a_transmit) ++ [XReply l.(i_proto) (base l) r.(i_addr) q.(q_tid) q.(q_src)]))
  end.

(** agent.rs:160-168 role_conflict_tiebreaker *)
Definition conflict (q : request) (ctrl : bool) : option Z := if ctrl then q.(q_controlling) else q.(q_controlled).

Definition is_iface (c : icand) : bool := match c.(i_kind) with Host | Relayed => true | _ => false end.

(** agent.rs:1430-1640 stun_server_handle_request *)
Definition handle_request_at (a : agent) (q : request) (li : nat) : res agent :=
  if q.(q_use) && a.(a_ctrl) then Ok a
  else
    do rr <- request_remote a q;
    match rr with
    | None => Ok a
    | Some (a, ri) =>
        do rp <- request_pair a li ri;
        match rp with
        | None => Ok a
        | Some a => request_finish a q li ri
        end
    end.
Definition handle_request (a : agent) (q : request) : res agent :=
  match a.(a_rufrag) with
  | None => Panic (* expect *)
  | Some ru =>
      if negb (q.(q_rufrag) =? ru) then Ok a
      else
        match position (fun v => is_iface v && addr_eqb v.(i_addr) q.(q_dst) && cproto_eqb v.(i_proto) q.(q_proto))
                       a.(a_locals) with
        | None => Ok a
        | Some li =>
            match conflict q a.(a_ctrl) with
            | Some peer =>
                if peer <=? a.(a_tie)
                then Ok (set_transmit a (a.(a_transmit) ++ [XConflict q.(q_proto) q.(q_dst) q.(q_src) q.(q_tid)]))
                else do a' <- switch_role a (negb a.(a_ctrl)); handle_request_at a' q li
            | None => handle_request_at a q li
            end
        end
  end.

(** agent.rs:1365-1428 stun_server_handle_message *)
Definition lastn {A} (n : nat) (l : list A) : list A := skipn (length l - n) l.
Definition server_message (a : agent) (q : request) : res agent :=
  match a.(a_rufrag) with
  | Some _ => handle_request a q
  | None => Ok (set_queue a (lastn 100 (a.(a_queue) ++ [q])))
  end.

(** agent.rs:1704-1752 stun_client_binding_request *)
Definition binding_request (a : agent) (now : Z) (i : nat) : res agent :=
  match a.(a_rufrag) with
  | None => Panic (* expect *)
  | Some _ =>
      do p <- get a.(a_pairs) i;
      do l <- get a.(a_locals) p.(p_local);
      do r <- get a.(a_remotes) p.(p_remote);
      do pr <- prio_prflx (pc l);
      let use := a.(a_ctrl) && is_nominated p in
      let tid := a.(a_fresh) in
      do p' <- new_attempt a.(a_cfg) p now tid a.(a_ctrl);
      let a := set_fresh (set_pairs a (upd i p' a.(a_pairs))) (tid + 1) in
      Ok (set_transmit a (a.(a_transmit) ++
            [XRequest l.(i_proto) (base l) r.(i_addr) tid a.(a_ctrl) a.(a_tie) pr use]))
  end.

(** agent.rs:1760-1800 stun_client_handle_error *)
Fixpoint find_attempt (ps : list pair) (tid : Z) : option attempt :=
  match ps with
  | [] => None
  | p :: t => match binding_attempt p tid with Some b => Some b | None => find_attempt t tid end
  end.
Definition handle_error (a : agent) (tid : Z) (code : option Z) : res agent :=
  match code with
  | None => Ok a
  | Some c =>
      if negb (c =? 487) then Ok a
      else match find_attempt a.(a_pairs) tid with
           | None => Ok a
           | Some b => if negb (Bool.eqb b.(t_ctrl) a.(a_ctrl)) then Ok a
                       else switch_role a (negb a.(a_ctrl))
           end
  end.

Definition owns (tid : Z) (p : pair) : bool := match binding_attempt p tid with Some _ => true | None => false end.

(** agent.rs:1802-1897 stun_client_handle_response *)
Definition handle_response (a : agent) (now tid : Z) (mapped : addr) : res agent :=
  match position (owns tid) a.(a_pairs) with
  | None => Ok a
  | Some i =>
      do p <- get a.(a_pairs) i;
      do a1 <- (match position (fun c => addr_eqb c.(i_addr) mapped) a.(a_locals) with
                | Some _ => Ok a
                | None =>
                    do l <- get a.(a_locals) p.(p_local);
                    do pr <- prio_prflx (pc l);
                    Ok (set_locals a (a.(a_locals) ++
                          [peer_reflexive l.(i_proto) mapped (base l) pr false a.(a_lufrag)]))
                end);
      do p' <- record_response p now tid;
      let a2 := set_pairs a1 (upd i p' a1.(a_pairs)) in
      do a3 <- (if a2.(a_ctrl) then evaluate_nomination a2 else Ok a2);
      Ok (evaluate_state a3 now)
  end.

(** A parsed STUN message.  [m_ok]: the result of the integrity check with the
    password the agent uses for it. *)
Inductive stun :=
| MRequest (local_ufrag : Z) (q : request) (m_ok : bool)
| MSuccess (tid : Z) (mapped : addr) (m_ok : bool)
| MFailure (tid : Z) (code : option Z) (m_ok : bool)
| MOther.

(** agent.rs:1061-1152 accepts_message; for responses [stun_credentials(false)]
    panics when there are no remote credentials. *)
Definition accepts (a : agent) (m : stun) : res bool :=
  match m with
  | MOther => Ok false
  | MRequest lu q ok =>
      if negb (lu =? a.(a_lufrag)) then Ok false
      else if match a.(a_rufrag) with Some r => negb (q.(q_rufrag) =? r) | None => false end then Ok false
      else Ok ok
  | MSuccess tid _ ok | MFailure tid _ ok =>
      if negb (existsb (owns tid) a.(a_pairs)) then Ok false
      else match a.(a_rufrag) with Some _ => Ok ok | None => Panic end
  end.

(** agent.rs:1157-1185 handle_packet; [proto], [src]: of the datagram *)
Definition handle_packet (a : agent) (now : Z) (proto : cproto) (src : addr) (m : stun) : res agent :=
  do ok <- accepts a m;
  if negb ok then Ok a
  else
    do a' <- match m with
             | MRequest _ q _ => server_message a q
             | MSuccess tid mapped _ => handle_response a now tid mapped
             | MFailure tid code _ => handle_error a tid code
             | MOther => Ok a
             end;
    Ok (emit_event a' (EvDiscovered proto src)).

(** agent.rs:1204-1212: old queued requests are dropped *)
Fixpoint drop_old (k : cfg) (now : Z) (l : list request) : list request :=
  match l with
  | q :: t => if stun_timeout k <=? since now q.(q_now) then drop_old k now t else l
  | [] => []
  end.

(** agent.rs:1266-1273: deadlines of all pairs; the first smallest *)
Definition deadlines (k : cfg) (now : Z) (ps : list pair) : list pair * list Z :=
  (map (fun p => fst (next_attempt k p now)) ps, map (fun p => snd (next_attempt k p now)) ps).
Fixpoint min_from (l : list Z) (i : nat) (cur : option (nat * Z)) : option (nat * Z) :=
  match l with
  | [] => cur
  | t :: r => min_from r (S i) (match cur with Some (_, c) => if t <? c then Some (i, t) else cur | None => Some (i, t) end)
  end.

(** agent.rs:1222-1240: pairs that stay *)
Definition keep (a : agent) (now : Z) (p : pair) : bool :=
  if a.(a_lite) then lite_alive p now else still_possible a.(a_cfg) p now.

(** agent.rs:1191-1286 handle_timeout after the queue was looked at *)
Definition timeout_checks (a : agent) (now : Z) : res agent :=
  let a := set_last_now a (Some now) in
  do a <- evaluate_nomination a;
  let kept := filter (keep a now) a.(a_pairs) in
  let pruned := negb (length kept =? length a.(a_pairs))%nat in
  let a := set_pairs a kept in
  do a <- (if pruned then do a <- evaluate_nomination a; Ok (evaluate_state a now) else Ok a);
  match a.(a_rufrag) with
  | None => Ok a
  | Some _ =>
      if a.(a_lite)
      then Ok (set_pairs a (map (fun p => match p.(p_rbr) with None => set_rbr p (Some now) | Some _ => p end) a.(a_pairs)))
      else
        let '(ps, ds) := deadlines a.(a_cfg) now a.(a_pairs) in
        let a := set_pairs a ps in
        match min_from ds O None with
        | Some (i, d) => if d <=? now then binding_request a now i else Ok a
        | None => Ok a
        end
  end.
Definition handle_timeout (a : agent) (now : Z) : res agent :=
  let a := if conn_eqb a.(a_state) New then emit_event a (EvRestart a.(a_lufrag)) else a in
  let a := evaluate_state a now in
  match a.(a_rufrag) with
  | Some _ =>
      match drop_old a.(a_cfg) now a.(a_queue) with
      | q :: t => handle_request (set_queue a t) q
      | [] => timeout_checks (set_queue a []) now
      end
  | None => timeout_checks a now
  end.

(** agent.rs:1306-1339 poll_timeout *)
Definition poll_timeout (a : agent) : agent * option Z :=
  match a.(a_last_now) with
  | None => (a, None)
  | Some ln =>
      match a.(a_queue), a.(a_transmit) with
      | [], [] =>
          if a.(a_lite) then (a, Some (ln + ms 3000))
          else
            let '(ps, ds) := deadlines a.(a_cfg) ln a.(a_pairs) in
            (set_pairs a ps,
             Some (match min_from ds O None with
                   | Some (_, t) => Z.max t (ln + a.(a_cfg).(k_ta))
                   | None => ln + ms 3000
                   end))
      | _, _ => (a, Some (ln + a.(a_cfg).(k_ta)))
      end
  end.

(** The public calls. *)
Inductive op :=
| OSetRemote (ufrag : Z)          (* agent.rs:555-562 set_remote_credentials *)
| OAddLocal (c : icand)
| OAddRemote (c : icand)
| OInvalidate (c : icand)
| ORestart (ufrag : Z) (keep : bool)
| ORecreate
| OPacket (now : Z) (proto : cproto) (src : addr) (m : stun)
| OTimeout (now : Z)
| OPollTransmit                   (* agent.rs:1289-1298 *)
| OPollEvent                      (* agent.rs:1358-1364 *)
| OPollTimeout.

Definition step (a : agent) (o : op) : res agent :=
  match o with
  | OSetRemote u => Ok (set_creds a a.(a_lufrag) (Some u))
  | OAddLocal c => add_local a c
  | OAddRemote c => add_remote a c
  | OInvalidate c => do (a', _) <- invalidate a c; Ok a'
  | ORestart u k => Ok (ice_restart a u k)
  | ORecreate => recreate a
  | OPacket now p s m => handle_packet a now p s m
  | OTimeout now => handle_timeout a now
  | OPollTransmit => Ok (set_transmit a (tl a.(a_transmit)))
  | OPollEvent => Ok (set_events a (tl a.(a_events)))
  | OPollTimeout => Ok (fst (poll_timeout a))
  end.

Fixpoint run (a : agent) (os : list op) : res agent :=
  match os with
  | [] => Ok a
  | o :: t => do a' <- step a o; run a' t
  end.

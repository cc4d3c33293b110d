(** What a user of the ICE agent can observe, and what the properties say. *)
From Verif Require Import Base PrioModel IceModel.
From Coq Require Import Sorted.

(** *** Observations on the events *)
(** The connection state according to the events: the last state-change event. *)
Fixpoint state_of_events (l : list event) (s : conn) : conn :=
  match l with
  | [] => s
  | EvState c :: t => state_of_events t c
  | _ :: t => state_of_events t s
  end.
(** Where the application sends: the last nomination event. *)
Fixpoint send_of_events (l : list event) (s : option (cproto * addr * addr)) : option (cproto * addr * addr) :=
  match l with
  | [] => s
  | EvNominated p src dst :: t => send_of_events t (Some (p, src, dst))
  | _ :: t => send_of_events t s
  end.
(** The sources reported since the last restart event. *)
Fixpoint discovered_of_events (l : list event) (s : list (cproto * addr)) : list (cproto * addr) :=
  match l with
  | [] => s
  | EvDiscovered p a :: t => discovered_of_events t (s ++ [(p, a)])
  | EvRestart _ :: t => discovered_of_events t []
  | _ :: t => discovered_of_events t s
  end.

(** *** Observations on the pairs *)
(** Both candidates of the pair exist and neither has been discarded. *)
Definition live (ls rs : list icand) (p : pair) : Prop :=
  exists l r, nth_error ls p.(p_local) = Some l /\ nth_error rs p.(p_remote) = Some r
              /\ l.(i_disc) = false /\ r.(i_disc) = false.
(** What the pair connects: the protocol, the local base, the remote address. *)
Definition connects (a : agent) (p : pair) (x : cproto * addr * addr) : Prop :=
  exists l r, nth_error a.(a_locals) p.(p_local) = Some l /\ nth_error a.(a_remotes) p.(p_remote) = Some r
              /\ x = (l.(i_proto), base l, r.(i_addr)).
(** Two pairs are redundant: same local base, same remote address, same protocols. *)
Definition pair_key (ls rs : list icand) (p : pair) : option (addr * addr * cproto * cproto) :=
  match nth_error ls p.(p_local), nth_error rs p.(p_remote) with
  | Some l, Some r => Some (base l, r.(i_addr), l.(i_proto), r.(i_proto))
  | _, _ => None
  end.
Definition no_redundant (ls rs : list icand) (ps : list pair) : Prop := NoDup (map (pair_key ls rs) ps).

(** Highest priority first. *)
Definition desc (p q : pair) : Prop := q.(p_prio) <= p.(p_prio).
Definition sorted_pairs (ps : list pair) : Prop := StronglySorted desc ps.

(** The newest [n] checks of the pair all went unanswered. *)
Definition all_unanswered (p : pair) (n : nat) : Prop :=
  (n <= length p.(p_att))%nat /\ forall b, In b (firstn n (rev p.(p_att))) -> b.(t_resp) = None.

(** *** The connection state as a function of the pairs *)
Definition some_nominated (ps : list pair) : Prop := exists p, In p ps /\ is_nominated p = true.
(** When the newest check was sent *)
Definition newest_sent (p : pair) (t : Z) : Prop := exists bs b, p.(p_att) = bs ++ [b] /\ b.(t_sent) = t.
(** A pair has been given up: the peer has not sent a request over it within 15 s,
    the newest [max] checks are all unanswered, and the time to wait for the last of
    them has passed. *)
Definition given_up (k : cfg) (p : pair) (now : Z) : Prop :=
  (forall t, p.(p_rbr) = Some t -> ms 15000 <= now - t)
  /\ all_unanswered p k.(k_max_retr)
  /\ exists last, newest_sent p last /\ last + resend_delay k k.(k_max_retr) <= now.
(** There may still be another pair: one that is neither nominated nor given up, or
    candidates are missing on a side. *)
Definition more_possible (a : agent) (now : Z) : Prop :=
  (exists p, In p a.(a_pairs) /\ is_nominated p = false /\ ~ given_up a.(a_cfg) p now)
  \/ a.(a_remotes) = [] \/ a.(a_locals) = [].

(** *** Calls *)
(** A candidate the application adds has not been discarded. *)
Definition op_fresh (o : op) : Prop :=
  match o with OAddLocal c | OAddRemote c => i_disc c = false | _ => True end.
Definition own_kind (c : icand) : bool := negb (ckind_eqb (i_kind c) PeerReflexive).
(** The calls that do not panic: the agent's own candidates are not peer reflexive and have component 1 or a
    priority below 2^32 - 1; a remote candidate and a request carry a 32-bit priority. *)
Definition op_safe (o : op) : Prop :=
  match o with
  | OAddLocal c => i_disc c = false /\ own_kind c = true /\
      match i_prio c with Some p => 0 <= p < 2 ^ 32 - 1 | None => i_comp c = 1 end
  | OAddRemote c => i_disc c = false /\ match i_prio c with Some p => 0 <= p < 2 ^ 32 | None => False end
  | OPacket _ _ _ (MRequest _ q _) => 0 <= q_prio q < 2 ^ 32
  | _ => True
  end.
(** How many local candidates are added *)
Definition adds (o : op) : Z := match o with OAddLocal _ => 1 | _ => 0 end.
Fixpoint total_adds (os : list op) : Z := match os with [] => 0 | o :: t => adds o + total_adds t end.
(** timeouts are called with increasing times *)
Fixpoint times_from (t0 : option Z) (os : list op) : Prop :=
  match os with
  | [] => True
  | OTimeout now :: t => match t0 with Some x => x <= now | None => True end /\ times_from (Some now) t
  | _ :: t => times_from t0 t
  end.

(** *** Requests and what they justify *)
(** The request is the one of the call, or one that waited for the remote credentials. *)
Definition requested (a : agent) (o : op) (q : request) : Prop :=
  match o with
  | OPacket _ _ _ (MRequest _ r _) => r = q
  | OTimeout _ => In q (a_queue a)
  | _ => False
  end.
(** The peer nominated the pair: USE-CANDIDATE, this agent is controlled, the pair is the one of the request. *)
Definition by_request (a' : agent) (q : request) (p : pair) : Prop :=
  q_use q = true /\ a_ctrl a' = false /\
  exists l r, nth_error (a_locals a') (p_local p) = Some l /\ nth_error (a_remotes a') (p_remote p) = Some r /\ i_addr l = q_dst q /\ i_addr r = q_src q.
(** The answer to a request: success with the mapped address, or 487. *)
Definition reply_to (a' : agent) (q : request) (x : xmit) : Prop :=
  (exists l, In l (a_locals a') /\ i_addr l = q_dst q /\ i_proto l = q_proto q /\
             x = XReply (q_proto q) (base l) (q_src q) (q_tid q) (q_src q))
  \/ x = XConflict (q_proto q) (q_dst q) (q_src q) (q_tid q).
(** A connectivity check of the pair just sent. *)
Definition checked (a' : agent) (now : Z) (x : xmit) : Prop :=
  exists p l r tid pr, In p (a_pairs a') /\ nth_error (a_locals a') (p_local p) = Some l /\ nth_error (a_remotes a') (p_remote p) = Some r
    /\ i_disc l = false /\ i_disc r = false /\ prio_prflx (pc l) = Ok pr
    /\ x = XRequest (i_proto l) (base l) (i_addr r) tid (a_ctrl a') (a_tie a') pr (a_ctrl a' && is_nominated p)
    /\ (exists b, In b (p_att p) /\ t_id b = tid /\ t_sent b = now /\ t_resp b = None /\ t_ctrl b = a_ctrl a').
(** why the pair is nominated after the call *)
Definition cause (a a' : agent) (o : op) (p : pair) : Prop :=
  (exists p0, In p0 (a_pairs a) /\ is_nominated p0 = true /\
     (p_id p0 = p_id p \/ pair_key (a_locals a') (a_remotes a') p0 = pair_key (a_locals a') (a_remotes a') p))
  \/ (a_ctrl a' = true /\ p_state p = Succeeded)
  \/ (exists q, requested a o q /\ by_request a' q p).
Definition justified (a a' : agent) (o : op) (x : xmit) : Prop :=
  (exists q, requested a o q /\ reply_to a' q x) \/ (exists now, o = OTimeout now /\ checked a' now x).

(** *** Whole executions *)
(** The state [a] is reached from a new agent by the calls [os], none of which panicked. *)
Definition reached (k : cfg) (lite ctrl : bool) (tie ufrag : Z) (os : list op) (a : agent) : Prop :=
  Forall op_fresh os /\ run (init k lite ctrl tie ufrag) os = Ok a.
(** A request the peer makes in the same role, with its tie-breaker. *)
Definition same_role (q : request) (ctrl : bool) (peer : Z) : Prop :=
  (if ctrl then q_controlling q else q_controlled q) = Some peer.
(** A failure response 487 to a check the agent sent in its present role. *)
Definition told_to_switch (a : agent) (o : op) : Prop :=
  exists now pr src tid p b, o = OPacket now pr src (MFailure tid (Some 487) true)
    /\ In p (a_pairs a) /\ In b (p_att p) /\ t_id b = tid /\ t_ctrl b = a_ctrl a.

(** *** Two agents connected by a network *)
(** The network may delay, drop, repeat, reorder and readdress messages, and anyone may inject messages that do
    not pass the integrity check.  A request that passes it carries the role and the tie-breaker of a check the
    peer has sent, and a 487 answers a request the peer has answered with 487. *)
Definition genuine (sent : list xmit) (o : op) : Prop :=
  match o with
  | OPacket _ _ _ (MRequest _ q true) =>
      exists p s d c tie pr u, In (XRequest p s d (q_tid q) c tie pr u) sent
        /\ q_controlling q = (if c : bool then Some tie else None) /\ q_controlled q = (if c then None else Some tie)
  | OPacket _ _ _ (MFailure tid (Some 487) true) => exists p s d, In (XConflict p s d tid) sent
  | _ => True
  end.
Record net := mkNet { n_a : agent; n_b : agent; n_sent_a : list xmit; n_sent_b : list xmit }.
Inductive nstep : net -> net -> Prop :=
| n_step_a a b sa sb o a' : op_fresh o -> genuine sb o -> step a o = Ok a' ->
    nstep (mkNet a b sa sb) (mkNet a' b (sa ++ a_transmit a') sb)
| n_step_b a b sa sb o b' : op_fresh o -> genuine sa o -> step b o = Ok b' ->
    nstep (mkNet a b sa sb) (mkNet a b' sa (sb ++ a_transmit b')).
Inductive nsteps : net -> net -> Prop :=
| ns_refl n : nsteps n n
| ns_step n1 n2 n3 : nsteps n1 n2 -> nstep n2 n3 -> nsteps n1 n3.

(** *** The connection state says what the pairs are *)
Definition state_says (a : agent) (now : Z) (s : conn) : Prop :=
  (s = Connected <-> some_nominated (a_pairs a) /\ more_possible a now) /\
  (s = Completed <-> some_nominated (a_pairs a) /\ ~ more_possible a now) /\
  (s = Checking <-> ~ some_nominated (a_pairs a) /\ more_possible a now) /\
  (s = Disconnected <-> ~ some_nominated (a_pairs a) /\ ~ more_possible a now).
Definition nominations (a : agent) : list (Z * bool) := map (fun p => (p_id p, is_nominated p)) (a_pairs a).

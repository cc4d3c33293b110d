(** ICE candidate and pair priorities.

    Models crates/is/src/candidate.rs (do_prio), crates/is/src/preference.rs
    (default_local_preference), crates/is/src/pair.rs (calculate_prio) and the
    counting part of crates/is/src/agent.rs (add_local_candidate).
    A socket address is reduced to its IP version, the only part of it these
    functions look at. *)
From Verif Require Import Base.

(** candidate.rs:84-96 CandidateKind *)
Inductive ckind := Host | PeerReflexive | ServerReflexive | Relayed.
(** lib.rs Protocol: the four transports of a candidate. *)
Inductive cproto := Udp | Tcp | SslTcp | Tls.

Definition ckind_eqb (a b : ckind) : bool :=
  match a, b with
  | Host, Host | PeerReflexive, PeerReflexive
  | ServerReflexive, ServerReflexive | Relayed, Relayed => true
  | _, _ => false
  end.
Definition cproto_eqb (a b : cproto) : bool :=
  match a, b with
  | Udp, Udp | Tcp, Tcp | SslTcp, SslTcp | Tls, Tls => true
  | _, _ => false
  end.

(** candidate.rs:14-80 struct Candidate, the fields that decide its priority:
    the signalled priority (remote candidates), kind, protocol, local
    preference, component id, and the IP versions of [addr] and [local]. *)
Record cand := mkCand {
  c_prio : option Z; c_kind : ckind; c_proto : cproto; c_lpref : option Z;
  c_comp : Z; c_addr6 : bool; c_local6 : bool }.

(** candidate.rs:458-467 the match on (kind, proto) *)
Definition type_preference (k : ckind) (p : cproto) : Z :=
  match k, p with
  | Host, Udp => 126
  | PeerReflexive, Udp => 110
  | ServerReflexive, _ => 100
  | Host, _ => 90
  | PeerReflexive, _ => 80
  | Relayed, Udp => 2
  | Relayed, Tcp => 1
  | Relayed, _ => 0
  end.

(** candidate.rs:488-491 local_preference *)
Definition local_preference (c : cand) : Z :=
  match c.(c_lpref) with
  | Some v => v
  | None => if c.(c_addr6) then 65535 else 65534
  end.

(** candidate.rs:440-486 do_prio.  [<<] on u32 drops the bits above 2^32
    without a check; [256 - component_id] is checked. *)
Definition do_prio (c : cand) (as_prflx : bool) : res Z :=
  match c.(c_prio) with
  | Some p => Ok p
  | None =>
      let kind := if as_prflx then PeerReflexive else c.(c_kind) in
      let tp := type_preference kind c.(c_proto) in
      if 256 <? c.(c_comp) then Panic
      else
        let prio := Z.lor (Z.lor (Z.shiftl tp 24 mod 2 ^ 32)
                                 (Z.shiftl (local_preference c) 8 mod 2 ^ 32))
                          (256 - c.(c_comp)) in
        if (1 <=? prio) && (prio <? 2 ^ 31) then Ok prio else Panic
  end.

(** candidate.rs:434-436 prio, 438-440 prio_prflx *)
Definition prio (c : cand) : res Z := do_prio c false.
Definition prio_prflx (c : cand) : res Z := do_prio c true.

(** preference.rs:46-56: the start of the interval of each kind. *)
Definition counter_base (k : ckind) : Z :=
  match k with
  | Host => 65535 | PeerReflexive => 49151
  | ServerReflexive => 32767 | Relayed => 16383
  end.

(** preference.rs:13-77 default_local_preference.  Subtractions are on u32 and
    panic below zero; [same_kind] is bounded by memory, far below 2^31. *)
Definition default_local_preference (c : cand) (same_kind : Z) : res Z :=
  let start := counter_base c.(c_kind) - (if c.(c_addr6) then 0 else 1) in
  let punish := if ckind_eqb c.(c_kind) Relayed
                then (if xorb c.(c_local6) c.(c_addr6) then 1000 else 0) else 0 in
  if start <? same_kind * 2 then Panic
  else if start - same_kind * 2 <? punish then Panic
  else Ok (start - same_kind * 2 - punish).

(** agent.rs:633-639: count of the local candidates of the same kind and IP
    version. *)
Definition same_kind_count (cs : list cand) (c : cand) : Z :=
  zlen (filter (fun v => ckind_eqb v.(c_kind) c.(c_kind) && Bool.eqb v.(c_addr6) c.(c_addr6)) cs).

(** candidate.rs:540-542 set_local_preference *)
Definition set_local_preference (c : cand) (v : Z) : cand :=
  mkCand c.(c_prio) c.(c_kind) c.(c_proto) (Some v) c.(c_comp) c.(c_addr6) c.(c_local6).

(** agent.rs:620-690 add_local_candidate restricted to a candidate that is not
    redundant: it is given its preference and pushed. *)
Definition add_local_pref (cs : list cand) (c : cand) : res (list cand) :=
  do p <- default_local_preference c (same_kind_count cs c);
  Ok (cs ++ [set_local_preference c p]).

Fixpoint add_locals (cs : list cand) (new : list cand) : res (list cand) :=
  match new with
  | [] => Ok cs
  | c :: t => do cs' <- add_local_pref cs c ; add_locals cs' t
  end.

(** pair.rs:174-188 calculate_prio; the sum is on u64 and panics on overflow. *)
Definition calculate_prio (controlling : bool) (remote_prio local_prio : Z) : res Z :=
  let '(g, d) := if controlling then (local_prio, remote_prio)
                 else (remote_prio, local_prio) in
  let v := 2 ^ 32 * Z.min g d + 2 * Z.max g d + (if d <? g then 1 else 0) in
  if v <? 2 ^ 64 then Ok v else Panic.

(** pair.rs:516-521 Ord for CandidatePair: by priority, reversed. *)
Definition pair_cmp (prio_a prio_b : Z) : comparison := CompOpp (prio_a ?= prio_b).

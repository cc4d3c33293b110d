(** C28, C39, C40, C41, C42: the ICE agent. *)
From Verif Require Import Base BaseFacts PrioModel PrioSpec PrioProofs PrioProps IceModel IceSpec IceProofs IceProofs2 IceProofs3 IceProofs4 IceProofs5 IceProofs6 IceProofs7 IceProofs8 IceProofs9 IceProofs10.
From Coq Require Import Sorted Permutation.

Lemma reached_inv k lite ctrl tie u os a : reached k lite ctrl tie u os a -> Inv a.
Proof. intros [F R]. eapply inv_run; [apply inv_init|exact F|exact R]. Qed.
Lemma run_cfg os : forall a a', run a os = Ok a' -> a_cfg a' = a_cfg a.
Proof. induction os as [|o t IH]; intros a a' H; cbn [run] in H; [okinj H; reflexivity|]. bok H a1 E. rewrite (IH _ _ H). eapply cfg_step; eauto. Qed.
Lemma reached_cfg k lite ctrl tie u os a : reached k lite ctrl tie u os a -> a_cfg a = k.
Proof. intros [F R]. rewrite (run_cfg _ _ _ R). reflexivity. Qed.

(** *** C28: the agent never panics, and its tables are consistent *)
(** Whatever the calls, packets and timeouts and whatever their order, no call panics, as long as at most 7692
    local candidates are added (C27_relayed_underflow_refuted: the arithmetic fails beyond). *)
Theorem C28_no_panic k lite ctrl tie u os :
  Forall op_safe os -> total_adds os <= 7692 -> (1 <= k_max_retr k)%nat ->
  exists a, run (init k lite ctrl tie u) os = Ok a.
Proof.
  intros S T K. destruct (run_total os (init k lite ctrl tie u) 0) as (a & R); auto; try lia.
  - apply inv_init.
  - constructor; cbn; try constructor. unfold zlen. cbn. lia.
  - eauto.
Qed.
(** Without retransmissions the first check panics ([set_max_stun_retransmits(0)]).  The model only shows the
    panic of a pair the peer has sent a request over; without such a request the code panics even earlier, in an
    [unwrap] (pair.rs:467) that the model leaves out. *)
Definition k0 : cfg := mkCfg (ms 250) 0 (ms 3000) (ms 50) 100.
Definition ip (n : Z) : addr := (false, n).
Definition host (a : addr) : icand := mkIC false 1 Udp None a (Some a) Host None None false None false.
Definition srflx (a b : addr) : icand := mkIC false 1 Udp None a (Some b) ServerReflexive None None false None false.
Definition rhost (a : addr) (p : Z) : icand := mkIC false 1 Udp (Some p) a (Some a) Host None None false None false.
(** a request of a peer (ufrag 9) to the agent (ufrag 7) that passes the integrity check *)
Definition request_from (now : Z) (src dst : addr) (tid pr : Z) (use : bool) (cg cd : option Z) : op :=
  OPacket now Udp src (MRequest 7 (mkReq now Udp src dst tid pr use 9 cg cd) true).
Theorem C28_zero_retransmits_refuted : exists os, Forall op_safe os /\ run (init k0 false true 1 7) os = Panic.
Proof.
  exists [OSetRemote 9; OAddLocal (host (ip 1)); request_from 0 (ip 2) (ip 1) 5 100 false None (Some 3); OTimeout 0]. split; [|vm_compute; reflexivity].
  repeat constructor; cbn; lia.
Qed.

(** After any calls: every pair consists of two candidates in use, the pairs are sorted by priority, pair ids and
    transaction ids of outstanding checks are unique, at most [max_retransmits] checks are remembered per pair, and
    a pair counts as succeeded exactly when a check of it was answered. *)
Theorem C28_pairs k lite ctrl tie u os a : reached k lite ctrl tie u os a ->
  (forall p, In p (a_pairs a) -> live (a_locals a) (a_remotes a) p) /\
  sorted_pairs (a_pairs a) /\
  NoDup (map p_id (a_pairs a)) /\
  NoDup (flat_map (fun p => map t_id (p_att p)) (a_pairs a)) /\
  (forall p, In p (a_pairs a) -> (length (p_att p) <= k_max_retr k)%nat /\ (p_state p = Succeeded <-> 1 <= p_resp p) /\ (p_state p = Waiting -> p_att p = [])).
Proof.
  intro R. pose proof (reached_cfg _ _ _ _ _ _ _ R) as CF. apply reached_inv in R. destruct R as [[I S D] ST]. destruct I as [I1 I2 I3 I4 I5 I6 I7 I8].
  split; [apply Forall_forall; exact I1|]. split; [exact ST|]. split; [exact I2|]. split; [exact I4|].
  intros p P. rewrite Forall_forall in I6. destruct (I6 p P) as (X1 & X2 & X3 & X4 & X5). rewrite CF in X2. auto.
Qed.
(** After any calls: the last state event is the state; the pair data is sent over is nominated and the last
    nomination event gave its protocol, local base and remote address; no source is reported twice. *)
Theorem C28_events k lite ctrl tie u os a : reached k lite ctrl tie u os a ->
  state_of_events (a_log a) New = a_state a /\
  (forall p, In p (a_pairs a) -> a_nsend a = Some (p_id p) ->
     is_nominated p = true /\ exists x, send_of_events (a_log a) None = Some x /\ connects a p x) /\
  NoDup (discovered_of_events (a_log a) []).
Proof.
  intro R. apply reached_inv in R. destruct R as [[I S D] ST]. split; [exact S|]. split; [|apply D].
  intros p P N. destruct (iv_ns _ _ _ _ _ _ _ _ I p P N) as (X1 & l & r & X2 & X3 & X4). split; [exact X1|].
  exists (i_proto l, base l, i_addr r). split; [exact X4|]. exists l, r. auto.
Qed.
(** Adding candidates never makes the number of pairs exceed the limit. *)
Theorem C28_pair_limit k lite ctrl tie u os a o a' : reached k lite ctrl tie u os a -> op_fresh o -> step a o = Ok a' ->
  (exists c, o = OAddLocal c \/ o = OAddRemote c) -> (length (a_pairs a') <= Nat.max (k_max_pairs k) (length (a_pairs a)))%nat.
Proof.
  intros R F H (c & OC). pose proof (reached_cfg _ _ _ _ _ _ _ R) as CF. 
  assert (FP : forall b ls rs b', form_pairs b ls rs = Ok b' -> a_cfg b = k -> (length (a_pairs b') <= Nat.max (k_max_pairs k) (length (a_pairs a)))%nat).
  { intros b ls rs b' FP CB. unfold form_pairs in FP. bok FP v E1. bok FP b1 E2. okinj FP. flds. rewrite firstn_length.
    apply env_form_all, env_cfg in E2. rewrite E2, CB. lia. }
  destruct OC as [->| ->]; cbn [step] in H.
  - pose proof H as H0. unfold add_local in H. destruct (_ && _); [okinj H; lia|]. bok H p E1. cbn zeta in H. bok H pl E2. destruct pl as [[a1 i]|]; [|okinj H; lia].
    eapply FP; [exact H|]. rewrite <- (env_cfg _ _ (env_form_pairs _ _ _ _ H)), <- CF. apply (cfg_step a (OAddLocal c) a'). exact H0.
  - pose proof H as H0. unfold add_remote in H. destruct (negb _); [okinj H; lia|]. match type of H with (if ?c then _ else _) = _ => destruct c end; [okinj H; lia|].
    cbn zeta in H. bok H x X. bok H e1 EX. destruct e1; [|okinj H; lia]. bok H y Y. destruct y as [a1 i].
    eapply FP; [exact H|]. rewrite <- (env_cfg _ _ (env_form_pairs _ _ _ _ H)), <- CF. apply (cfg_step a (OAddRemote c) a'). exact H0.
Qed.

(** Invalidating a candidate in use succeeds, and removes exactly the pairs of that candidate. *)
Theorem C28_invalidate a c a' : invalidate a c = Ok (a', true) ->
  (exists i o, nth_error (a_locals a) i = Some o /\ same_cand c o = true /\ i_disc o = false
     /\ nth_error (a_locals a') i = Some (set_disc o true)
     /\ forall p, In p (a_pairs a') <-> In p (a_pairs a) /\ p_local p <> i)
  \/ (exists i o, nth_error (a_remotes a) i = Some o /\ same_cand c o = true /\ i_disc o = false
     /\ nth_error (a_remotes a') i = Some (set_disc o true)
     /\ forall p, In p (a_pairs a') <-> In p (a_pairs a) /\ p_remote p <> i).
Proof.
  assert (PF : forall l j, position (same_cand c) l = Some j -> exists o, nth_error l j = Some o /\ same_cand c o = true).
  { intro l. induction l as [|x t IH]; intro j; cbn; [discriminate|]. destruct (same_cand c x) eqn:E.
    - intro Q. assert (j = 0%nat) as -> by congruence. exists x. auto.
    - destruct (position (same_cand c) t) as [m|]; cbn; [|discriminate]. intro Q. assert (j = S m) as -> by congruence. apply IH. reflexivity. }
  assert (FI : forall f (ps : list pair) i p, In p (filter (fun p => negb (f p =? i)%nat) ps) <-> In p ps /\ f p <> i).
  { intros f ps i p. rewrite filter_In. destruct (Nat.eqb_spec (f p) i); cbn; intuition congruence. }
  assert (R : invalidate_remote a c = Ok (a', true) -> (exists i o, nth_error (a_remotes a) i = Some o /\ same_cand c o = true /\ i_disc o = false
     /\ nth_error (a_remotes a') i = Some (set_disc o true)
     /\ forall p, In p (a_pairs a') <-> In p (a_pairs a) /\ p_remote p <> i)).
  { unfold invalidate_remote. destruct (position _ _) as [i|] eqn:P; [|discriminate]. intro Q. bok Q o E. apply get_ok in E. destruct (i_disc o) eqn:DO; cbn [negb] in Q; [discriminate|].
    apply PF in P. destruct P as (o' & P1 & P2). assert (o' = o) as -> by congruence. exists i, o.
    match type of Q with Ok (?z, _) = _ => assert (a' = z) as -> by congruence end. unfold discard_remote. flds. spl; auto. rewrite nth_upd, Nat.eqb_refl, E. reflexivity. }
  unfold invalidate. destruct (position _ _) as [i|] eqn:P; [|auto]. intro Q. bok Q o E. apply get_ok in E. destruct (i_disc o) eqn:DO; cbn [negb] in Q; [auto|].
  left. apply PF in P. destruct P as (o' & P1 & P2). assert (o' = o) as -> by congruence. exists i, o.
  match type of Q with Ok (?z, _) = _ => assert (a' = z) as -> by congruence end. unfold discard_local. flds. spl; auto. rewrite nth_upd, Nat.eqb_refl, E. reflexivity.
Qed.
(** It reports failure only when no candidate in use matches first. *)
Theorem C28_invalidate_false a c a' : invalidate a c = Ok (a', false) -> a' = a.
Proof.
  assert (R : invalidate_remote a c = Ok (a', false) -> a' = a).
  { unfold invalidate_remote. destruct (position _ _); [|congruence]. intro Q. bok Q o E. destruct (negb _); [discriminate|congruence]. }
  unfold invalidate. destruct (position _ _); [|exact R]. intro Q. bok Q o E. destruct (negb _); [discriminate|auto].
Qed.

(** Adding a local candidate never makes two pairs redundant (same base, remote address and protocols). *)
Theorem C28_no_redundant_local k lite ctrl tie u os a c a' : reached k lite ctrl tie u os a ->
  no_redundant (a_locals a) (a_remotes a) (a_pairs a) -> step a (OAddLocal c) = Ok a' ->
  no_redundant (a_locals a') (a_remotes a') (a_pairs a').
Proof. intros R. apply no_red_add_local. eapply reached_inv; eauto. Qed.
(** Nor does adding a remote candidate, unless a peer reflexive candidate with the same address was learned over another protocol. *)
Theorem C28_no_redundant_remote k lite ctrl tie u os a c a' : reached k lite ctrl tie u os a ->
  (forall v, In v (a_remotes a) -> i_temp v = true -> i_addr v = i_addr c -> i_proto v = i_proto c) ->
  no_redundant (a_locals a) (a_remotes a) (a_pairs a) -> step a (OAddRemote c) = Ok a' ->
  no_redundant (a_locals a') (a_remotes a') (a_pairs a').
Proof. intros R. apply no_red_add_remote. eapply reached_inv; eauto. Qed.
(** [recreate_candidate_pairs] leaves no redundant pair, whatever was there. *)
Theorem C28_no_redundant_recreate a a' : step a ORecreate = Ok a' -> no_redundant (a_locals a') (a_remotes a') (a_pairs a').
Proof.
  cbn [step]. unfold recreate. cbn zeta. intro H. bok H a1 E. okinj H. pose proof (env_conn a1 Checking) as (_ & _ & _ & _ & _ & -> & -> & _).
  replace (a_pairs (set_conn a1 Checking)) with (a_pairs a1) by (unfold set_conn; destruct (conn_eqb _ _); reflexivity).
  eapply no_red_form_pairs; [|exact E]. constructor.
Qed.
(** Boolean redundancy, to exhibit redundant pairs *)
Definition key_eqb (x y : option (addr * addr * cproto * cproto)) : bool :=
  match x, y with
  | Some (a, b, c, d), Some (a', b', c', d') => addr_eqb a a' && addr_eqb b b' && cproto_eqb c c' && cproto_eqb d d'
  | None, None => true
  | _, _ => false
  end.
Lemma key_eqb_eq x y : key_eqb x y = true -> x = y.
Proof.
  destruct x as [[[[a b] c] d]|], y as [[[[a' b'] c'] d']|]; cbn; try discriminate; [|reflexivity].
  intro H. rewrite !andb_true_iff in H. destruct H as [[[H1 H2] H3] H4]. apply addr_eqb_eq in H1. apply addr_eqb_eq in H2. apply cproto_eqb_eq in H3. apply cproto_eqb_eq in H4. congruence.
Qed.
Definition two_redundant (a : agent) : bool :=
  match map (pair_key (a_locals a) (a_remotes a)) (a_pairs a) with
  | k1 :: rest => existsb (key_eqb k1) rest
  | [] => false
  end.
Lemma two_redundant_spec a : two_redundant a = true -> ~ no_redundant (a_locals a) (a_remotes a) (a_pairs a).
Proof.
  unfold two_redundant, no_redundant. destruct (map _ _) as [|k1 rest]; [discriminate|]. intros E N. apply existsb_exists in E. destruct E as (k2 & K1 & K2).
  apply key_eqb_eq in K2. subst k2. inversion N. contradiction.
Qed.
(** But a request can: with two remote candidates for one address, the pairs come from one of them and the request is matched
    with the other. *)
Definition redundant_run : list op :=
  [OSetRemote 9; OAddLocal (host (ip 1)); OAddRemote (rhost (ip 2) 100);
   OAddRemote (mkIC false 1 Udp (Some 100) (ip 2) (Some (ip 2)) ServerReflexive (Some (ip 3)) None false None false);
   request_from 0 (ip 2) (ip 1) 5 100 false None (Some 3)].
Theorem C28_redundant_request_refuted : exists a, reached default_cfg false true 8 7 redundant_run a /\
  ~ no_redundant (a_locals a) (a_remotes a) (a_pairs a).
Proof.
  destruct (run (init default_cfg false true 8 7) redundant_run) as [a| |] eqn:E; [|vm_compute in E; discriminate|vm_compute in E; discriminate].
  exists a. split; [split; [repeat constructor|exact E]|]. apply two_redundant_spec.
  assert (X : match run (init default_cfg false true 8 7) redundant_run with Ok a => two_redundant a | _ => false end = true) by (vm_compute; reflexivity). rewrite E in X. exact X.
Qed.
(** A request also makes a pair beyond the limit. *)
Definition k1 : cfg := mkCfg (ms 250) 9 (ms 3000) (ms 50) 1.
Theorem C28_limit_request_refuted : exists os a, reached k1 false true 8 7 os a /\ length (a_pairs a) = 2%nat.
Proof.
  exists [OSetRemote 9; OAddLocal (host (ip 1)); OAddRemote (rhost (ip 2) 100); request_from 0 (ip 3) (ip 1) 5 100 false None (Some 3)].
  match goal with |- exists a, reached _ _ _ _ _ ?os a /\ _ => destruct (run (init k1 false true 8 7) os) as [a| |] eqn:E; [|vm_compute in E; discriminate|vm_compute in E; discriminate];
    exists a; split; [split; [repeat constructor|exact E]|];
    assert (X : match run (init k1 false true 8 7) os with Ok a => length (a_pairs a) | _ => O end = 2%nat) by (vm_compute; reflexivity); rewrite E in X; exact X end.
Qed.
(** Two local candidates with one base in use at once: a server reflexive candidate discarded for a better host
    candidate is taken back into use when it is added again. *)
Definition local_keys (a : agent) : list (addr * addr) := map (fun c => (i_addr c, base c)) (filter (fun c => negb (i_disc c)) (a_locals a)).
Theorem C28_redundant_local_refuted : exists os a, reached default_cfg false true 8 7 os a /\
  local_keys a = [(ip 1, ip 1); (ip 1, ip 1)].
Proof.
  exists [OAddLocal (srflx (ip 1) (ip 1)); OAddLocal (host (ip 1)); OAddLocal (srflx (ip 1) (ip 1))].
  match goal with |- exists a, reached _ _ _ _ _ ?os a /\ _ => destruct (run (init default_cfg false true 8 7) os) as [a| |] eqn:E; [|vm_compute in E; discriminate|vm_compute in E; discriminate];
    exists a; split; [split; [repeat constructor|exact E]|];
    assert (X : match run (init default_cfg false true 8 7) os with Ok a => local_keys a | _ => [] end = [(ip 1, ip 1); (ip 1, ip 1)]) by (vm_compute; reflexivity); rewrite E in X; exact X end.
Qed.
(** [recreate_candidate_pairs] pairs an IPv4 with an IPv6 candidate, which adding candidates never does. *)
Theorem C28_recreate_versions_refuted : exists os a p l r, reached default_cfg false true 8 7 os a /\ In p (a_pairs a)
  /\ nth_error (a_locals a) (p_local p) = Some l /\ nth_error (a_remotes a) (p_remote p) = Some r /\ is_v6 (i_addr l) <> is_v6 (i_addr r).
Proof.
  exists [OAddLocal (host (ip 1)); OAddRemote (rhost (true, 2) 100); ORecreate].
  match goal with |- exists a p l r, reached _ _ _ _ _ ?os a /\ _ => destruct (run (init default_cfg false true 8 7) os) as [a| |] eqn:E; [|vm_compute in E; discriminate|vm_compute in E; discriminate];
    assert (X : match run (init default_cfg false true 8 7) os with Ok a => match a_pairs a with p :: _ =>
        match nth_error (a_locals a) (p_local p), nth_error (a_remotes a) (p_remote p) with Some l, Some r => negb (Bool.eqb (is_v6 (i_addr l)) (is_v6 (i_addr r))) | _, _ => false end | [] => false end | _ => false end = true) by (vm_compute; reflexivity); rewrite E in X end.
  destruct (a_pairs a) as [|p t] eqn:P; [discriminate|]. destruct (nth_error (a_locals a) (p_local p)) as [l|] eqn:L; [|discriminate]. destruct (nth_error (a_remotes a) (p_remote p)) as [r|] eqn:R; [|discriminate].
  exists a, p, l, r. split; [split; [repeat constructor|exact E]|]. rewrite P. split; [left; reflexivity|]. spl; auto. destruct (is_v6 (i_addr l)), (is_v6 (i_addr r)); cbn in X; congruence.
Qed.

(** A run that connects: a check is sent, answered, the pair nominated, the nomination sent and answered. *)
Definition connect_run : list op :=
  [OSetRemote 9; OAddLocal (host (ip 1)); OAddRemote (rhost (ip 2) 2130706431);
   OTimeout 0; OPollTransmit; OPacket (ms 10) Udp (ip 2) (MSuccess 1 (ip 1) true);
   OTimeout (ms 60); OPollTransmit; OPacket (ms 70) Udp (ip 2) (MSuccess 2 (ip 1) true)].
Definition summary (r : res agent) := match r with
  | Ok a => Some (a_state a, map (fun p => (p_state p, p_nom p, length (p_att p))) (a_pairs a), a_log a, a_nsend a)
  | _ => None end.
Example connect_summary : summary (run (init default_cfg false true 8 7) connect_run) =
  Some (Completed, [(Succeeded, Success, 2%nat)],
        [EvRestart 7; EvState Checking; EvNominated Udp (ip 1) (ip 2); EvState Completed; EvDiscovered Udp (ip 2)], Some 0).
Proof. vm_compute. reflexivity. Qed.
Example connect_reached : exists a, reached default_cfg false true 8 7 connect_run a /\ Forall op_safe connect_run /\ total_adds connect_run <= 7692
  /\ times_from None connect_run.
Proof.
  destruct (run (init default_cfg false true 8 7) connect_run) as [a| |] eqn:E; [|vm_compute in E; discriminate|vm_compute in E; discriminate].
  exists a. split; [split; [repeat constructor|exact E]|]. split; [|split; [vm_compute; discriminate|cbn; unfold ms; lia]].
  repeat constructor; cbn; lia.
Qed.

(** *** C39: nomination and datagrams *)
(** Whatever call is made in whatever reachable state: a pair is nominated only because it (or the redundant pair it
    replaced) was nominated before, because this agent is controlling and a check of it succeeded, or because this
    agent is controlled and the peer sent a request with USE-CANDIDATE from its remote to its local address. *)
Theorem C39_nomination_cause k lite ctrl tie u os a o a' : reached k lite ctrl tie u os a -> (1 <= k_max_retr k)%nat ->
  op_fresh o -> step a o = Ok a' -> forall p, In p (a_pairs a') -> is_nominated p = true -> cause a a' o p.
Proof.
  intros R K F H. pose proof (reached_cfg _ _ _ _ _ _ _ R) as CF. apply reached_inv in R. rewrite <- CF in K. apply (step_facts a o a' R F K H).
Qed.
(** Every datagram a call adds is the answer to a request that passed the checks of the call, or (in a timeout) a
    connectivity check of a pair in use: from its local base to its remote address, with this agent's role and
    tie-breaker, USE-CANDIDATE exactly if this agent is controlling and nominated the pair, under a transaction id
    recorded with the pair. *)
Theorem C39_datagrams k lite ctrl tie u os a o a' : reached k lite ctrl tie u os a -> (1 <= k_max_retr k)%nat ->
  op_fresh o -> step a o = Ok a' -> forall x, In x (a_transmit a') -> In x (a_transmit a) \/ justified a a' o x.
Proof.
  intros R K F H. pose proof (reached_cfg _ _ _ _ _ _ _ R) as CF. apply reached_inv in R. rewrite <- CF in K. apply (step_facts a o a' R F K H).
Qed.
(** Evaluating the nomination either changes nothing or makes an eligible pair (succeeded if this agent is
    controlling, nominated by the peer if not) of the highest priority the one data is sent over, and tells the application
    its addresses. *)
Theorem C39_highest_priority a a' : evaluate_nomination a = Ok a' -> a' = a \/
  exists i b b' x, nth_error (a_pairs a) i = Some b /\ eligible (a_ctrl a) b = true
    /\ (forall q, In q (a_pairs a) -> eligible (a_ctrl a) q = true -> p_prio q <= p_prio b)
    /\ nth_error (a_pairs a') i = Some b' /\ p_id b' = p_id b /\ is_nominated b' = true
    /\ a_nsend a' = Some (p_id b) /\ connects a' b' x /\ a_log a' = a_log a ++ [EvNominated (fst (fst x)) (snd (fst x)) (snd x)].
Proof.
  intro H. apply evalnom_shape in H. destruct H as [->|(i & b & b' & l & r & N & EL & MX & _ & Q & L & R & ->)]; [auto|right].
  assert (Q' : p_id b' = p_id b /\ p_local b' = p_local b /\ p_remote b' = p_remote b /\ is_nominated b' = true).
  { destruct Q as [[-> Q]|(_ & _ & ->)]; [auto|]. spl; auto. destruct (a_lite a); reflexivity. }
  destruct Q' as (Q1 & Q2 & Q3 & Q4). exists i, b, b', (i_proto l, base l, i_addr r). spl; auto.
  - flds. rewrite nth_upd, Nat.eqb_refl, N. reflexivity.
  - exists l, r. flds. rewrite Q2, Q3. auto.
Qed.
(** The nomination is only left alone when the pair data is sent over has the highest priority of the eligible pairs, or none is eligible. *)
Theorem C39_nothing_better a : evaluate_nomination a = Ok a ->
  (forall q, In q (a_pairs a) -> eligible (a_ctrl a) q = false) \/
  (exists pr, nominated_prio a = Some pr /\ forall q, In q (a_pairs a) -> eligible (a_ctrl a) q = true -> p_prio q <= pr).
Proof.
  unfold evaluate_nomination. intro H. destruct (best (eligible (a_ctrl a)) (a_pairs a)) as [i|] eqn:B.
  - right. apply best_some in B. destruct B as (b & N & EL & MX). unfold get at 1 in H. rewrite N in H. cbn [bind] in H.
    destruct (nominated_prio a) as [pr|] eqn:NP.
    + destruct (Z.eqb_spec pr (p_prio b)) as [->|NE]; [exists (p_prio b); split; [reflexivity|exact MX]|].
      exfalso. bok H b' EB. bok H l EL2. bok H r ER2. apply (f_equal (fun x => match x with Ok y => length (a_log y) | _ => O end)) in H. cbn [emit_event push_event a_log set_nsend set_pairs] in H. rewrite app_length in H. cbn in H. lia.
    + exfalso. bok H b' EB. bok H l EL2. bok H r ER2. apply (f_equal (fun x => match x with Ok y => length (a_log y) | _ => O end)) in H. cbn [emit_event push_event a_log set_nsend set_pairs] in H. rewrite app_length in H. cbn in H. lia.
  - left. intros q Q. destruct (eligible (a_ctrl a) q) eqn:EQ; [|reflexivity]. exfalso.
    assert (G : forall l i cur, best_from (eligible (a_ctrl a)) l i cur = None -> cur = None /\ forall q, In q l -> eligible (a_ctrl a) q = false).
    { induction l as [|p t IH]; intros j cur; cbn [best_from]; [intros ->; split; [reflexivity|intros ? []]|].
      intro X. destruct (IH _ _ X) as [Y1 Y2]. destruct (eligible (a_ctrl a) p) eqn:EP.
      - destruct cur as [[? ?]|]; [|discriminate]. destruct (_ <=? _); discriminate.
      - split; [exact Y1|]. intros z [<-|Z]; auto. }
    unfold best in B. destruct (best_from _ _ _ _) eqn:BF; [discriminate|]. destruct (G _ _ _ BF) as [_ G2]. rewrite (G2 q Q) in EQ. discriminate.
Qed.
(** "Only succeeded pairs carry data" is false of a controlled agent: it is Connected through a pair none of whose own
    checks was ever answered. *)
Definition unchecked_run : list op :=
  [OSetRemote 9; OAddLocal (host (ip 1)); OAddRemote (rhost (ip 2) 2130706431);
   request_from 0 (ip 2) (ip 1) 5 100 true (Some 3) None; OTimeout (ms 1); OTimeout (ms 60)].
Example unchecked_summary : summary (run (init default_cfg false false 8 7) unchecked_run) =
  Some (Completed, [(InProgress, Attempt, 1%nat)],
        [EvDiscovered Udp (ip 2); EvRestart 7; EvState Checking; EvNominated Udp (ip 1) (ip 2); EvState Completed], Some 0).
Proof. vm_compute. reflexivity. Qed.
Theorem C39_connected_unchecked_refuted : exists os a p, reached default_cfg false false 8 7 os a /\ is_connected (a_state a) = true
  /\ In p (a_pairs a) /\ a_nsend a = Some (p_id p) /\ p_resp p = 0.
Proof.
  exists unchecked_run. destruct (run (init default_cfg false false 8 7) unchecked_run) as [a| |] eqn:E; [|vm_compute in E; discriminate|vm_compute in E; discriminate].
  assert (X : match run (init default_cfg false false 8 7) unchecked_run with Ok a => match a_pairs a, a_nsend a with p :: _, Some i => is_connected (a_state a) && (i =? p_id p) && (p_resp p =? 0) | _, _ => false end | _ => false end = true) by (vm_compute; reflexivity).
  rewrite E in X. destruct (a_pairs a) as [|p t] eqn:P; [discriminate|]. destruct (a_nsend a) as [i|] eqn:NS; [|discriminate].
  rewrite !andb_true_iff in X. destruct X as [[X1 X2] X3]. exists a, p. split; [split; [repeat constructor|exact E]|]. rewrite P, NS. spl; auto; [left; reflexivity|f_equal; lia|lia].
Qed.
(** And of a controlling agent: a better candidate for the same addresses replaces the pair, inherits its nomination
    and loses its success. *)
Definition replaced_run : list op := connect_run ++
  [OAddRemote (mkIC false 1 Udp (Some 2130706440) (ip 2) (Some (ip 2)) ServerReflexive (Some (ip 4)) None false None false)].
Theorem C39_replacement_refuted : exists os a p, reached default_cfg false true 8 7 os a /\ a_ctrl a = true
  /\ In p (a_pairs a) /\ p_nom p = Success /\ p_state p = Waiting.
Proof.
  exists replaced_run. destruct (run (init default_cfg false true 8 7) replaced_run) as [a| |] eqn:E; [|vm_compute in E; discriminate|vm_compute in E; discriminate].
  assert (X : match run (init default_cfg false true 8 7) replaced_run with Ok a => match a_pairs a with p :: _ => a_ctrl a && match p_nom p, p_state p with Success, Waiting => true | _, _ => false end | _ => false end | _ => false end = true) by (vm_compute; reflexivity).
  rewrite E in X. destruct (a_pairs a) as [|p t] eqn:P; [discriminate|]. 
  rewrite !andb_true_iff in X. destruct X as [X1 X2]. exists a, p. split; [split; [repeat constructor|exact E]|]. rewrite P. spl; auto; [left; reflexivity| |]; destruct (p_nom p), (p_state p); congruence.
Qed.

(** *** C40: the connection state *)
(** A pair is kept exactly as long as it has not been given up, and a full agent prunes exactly the given-up pairs. *)
Theorem C40_given_up k p now : (1 <= k_max_retr k)%nat -> still_possible k p now = false <-> given_up k p now.
Proof. apply still_possible_spec. Qed.
(** After evaluation, the state of a full agent is a function of its pairs and candidates: *)
Theorem C40_state_full a now : a_lite a = false -> a_state a <> New -> (1 <= k_max_retr (a_cfg a))%nat ->
  state_says a now (a_state (evaluate_state a now)).
Proof.
  intros L N K. unfold state_says. rewrite (eval_full a now L N), <- any_nom_spec, <- (any_possible_spec a now K).
  destruct (any_nominated (a_pairs a)), (any_possible a now); intuition congruence.
Qed.
Theorem C40_state_lite a now : a_lite a = true -> a_state a <> New -> a_state a <> Connected -> (1 <= k_max_retr (a_cfg a))%nat ->
  let s := a_state (evaluate_state a now) in
  (s = Completed <-> some_nominated (a_pairs a)) /\
  (s = Checking <-> ~ some_nominated (a_pairs a) /\ more_possible a now) /\
  (s = Disconnected <-> ~ some_nominated (a_pairs a) /\ ~ more_possible a now) /\ s <> Connected.
Proof.
  intros L N C K. cbn zeta. rewrite (eval_lite a now L N C), <- any_nom_spec, <- (any_possible_spec a now K).
  destruct (any_nominated (a_pairs a)), (any_possible a now); intuition congruence.
Qed.
(** The state is up to date after every answer to a check: it says what the pairs of the agent are then. *)
Lemma says_state a now : a_lite a = false -> a_state a <> New -> (1 <= k_max_retr (a_cfg a))%nat ->
  state_says (evaluate_state a now) now (a_state (evaluate_state a now)).
Proof.
  intros L N K. pose proof (C40_state_full a now L N K) as S. pose proof (env_state a now) as (EC & _ & _ & _ & _ & EL & ER & _).
  unfold state_says, more_possible in *. rewrite pairs_state, EC, EL, ER. exact S.
Qed.
Lemma state_evalnom a a' : evaluate_nomination a = Ok a' -> a_state a' = a_state a.
Proof. intro H. apply evalnom_shape in H. destruct H as [->|(i & b & b' & l & r & _ & _ & _ & _ & _ & _ & _ & ->)]; reflexivity. Qed.
Theorem C40_answer a now pr src tid mapped a' : a_lite a = false -> a_state a <> New -> (1 <= k_max_retr (a_cfg a))%nat -> a_rufrag a <> None ->
  (exists p b, In p (a_pairs a) /\ In b (p_att p) /\ t_id b = tid) ->
  step a (OPacket now pr src (MSuccess tid mapped true)) = Ok a' -> state_says a' now (a_state a').
Proof.
  intros L N K RU (p & b & P & B & T) H. cbn [step] in H. unfold handle_packet in H. cbn [accepts] in H.
  assert (OW : existsb (owns tid) (a_pairs a) = true).
  { apply existsb_exists. exists p. split; [exact P|]. unfold owns, binding_attempt. destruct (find _ _) eqn:F; [reflexivity|]. apply find_none with (x := b) in F; [lia|exact B]. }
  rewrite OW in H. cbn [negb] in H. destruct (a_rufrag a); [|congruence]. cbn [bind negb] in H. bok H a1 E. okinj H.
  unfold handle_response in E. destruct (position (owns tid) (a_pairs a)) as [i|] eqn:PS.
  - bok E p0 P0. bok E a2 A2. bok E p' P'. cbn zeta in E. bok E a3 A3. okinj E.
    assert (X : a_lite a2 = a_lite a /\ a_cfg a2 = a_cfg a /\ a_state a2 = a_state a).
    { destruct (position _ (a_locals a)); [okinj A2; auto|]. bok A2 l LL. bok A2 q Q. okinj A2. auto. }
    assert (Y : a_lite a3 = a_lite a /\ a_cfg a3 = a_cfg a /\ a_state a3 = a_state a).
    { match type of A3 with (if ?c then _ else _) = _ => destruct c end; [|okinj A3; exact X]. pose proof (state_evalnom _ _ A3) as ES. apply env_evalnom in A3. destruct A3 as (EC & EL & _). rewrite EC, EL, ES. exact X. }
    destruct Y as (Y1 & Y2 & Y3).
    assert (S : state_says (evaluate_state a3 now) now (a_state (evaluate_state a3 now))) by (apply says_state; [congruence|congruence|rewrite Y2; exact K]).
    set (b3 := evaluate_state a3 now) in *. clearbody b3. unfold emit_event. destruct (disc_mem _ _ _); exact S.
  - exfalso. apply existsb_exists in OW. destruct OW as (q & Q1 & Q2). clear - PS Q1 Q2. induction (a_pairs a) as [|x t IH]; [destruct Q1|]. cbn in PS. destruct (owns tid x) eqn:OX; [discriminate|].
    destruct (position _ t) eqn:PT; [discriminate|]. destruct Q1 as [<-|Q1]; [congruence|auto].
Qed.
(** A timeout first evaluates the state; if it drops given-up pairs it evaluates it again over the remaining ones. *)
Theorem C40_timeout a now a' : a_lite a = false -> a_state a <> New -> (1 <= k_max_retr (a_cfg a))%nat -> a_queue a = [] ->
  step a (OTimeout now) = Ok a' ->
  (state_says a now (a_state a') /\ length (a_pairs a') = length (a_pairs a)) \/
  (exists b, state_says b now (a_state a') /\ nominations b = nominations a' /\ a_locals b = a_locals a' /\ a_remotes b = a_remotes a' /\ (length (a_pairs a') < length (a_pairs a))%nat
     /\ forall p, In p (a_pairs b) -> ~ given_up (a_cfg a) p now).
Proof.
  intros L N K QE H. cbn [step] in H. unfold handle_timeout in H. cbn zeta in H.
  destruct (conn_eqb (a_state a) New) eqn:SN; [apply conn_eqb_eq in SN; contradiction|].
  pose proof (C40_state_full a now L N K) as S0. pose proof (env_state a now) as (EC & EL & _ & ER & _ & ELo & ERe & EQ). pose proof (pairs_state a now) as EP.
  assert (N0 : a_state (evaluate_state a now) <> New). { rewrite (eval_full a now L N). destruct (any_nominated _), (any_possible _ _); discriminate. }
  set (a0 := evaluate_state a now) in *. clearbody a0. rewrite EQ, QE in H. cbn [drop_old] in H.
  assert (TC : timeout_checks (set_queue a0 []) now = Ok a' \/ timeout_checks a0 now = Ok a') by (destruct (a_rufrag a0); auto).
  assert (exists c0, timeout_checks c0 now = Ok a' /\ a_lite c0 = false /\ a_state c0 = a_state a0 /\ a_cfg c0 = a_cfg a /\ a_pairs c0 = a_pairs a) as (c0 & H0 & C1 & C2 & C3 & C4).
  { destruct TC as [TC|TC]; [exists (set_queue a0 [])|exists a0]; spl; auto; flds; congruence. }
  clear H TC. unfold timeout_checks in H0. cbn zeta in H0. bok H0 a1 E1. bok H0 a2 E2.
  pose proof (state_evalnom _ _ E1) as SE1. pose proof (evalnom_len _ _ E1) as LN1. apply env_evalnom in E1. destruct E1 as (X1 & X2 & _). cbn [a_state a_pairs a_cfg a_lite set_last_now] in *.
  assert (SP : forall p, In p (filter (keep a1 now) (a_pairs a1)) -> ~ given_up (a_cfg a) p now).
  { intros p P G. apply filter_In in P. destruct P as [_ P]. unfold keep in P. rewrite X2, C1, X1, C3 in P. apply still_possible_spec in G; [congruence|exact K]. }
  assert (FIN : forall b2, match a_rufrag b2 with None => Ok b2 | Some _ => if a_lite b2 then Ok (set_pairs b2 (map (fun p => match p.(p_rbr) with None => set_rbr p (Some now) | Some _ => p end) b2.(a_pairs)))
      else let '(ps, ds) := deadlines b2.(a_cfg) now b2.(a_pairs) in let b3 := set_pairs b2 ps in match min_from ds O None with Some (i, d) => if d <=? now then binding_request b3 now i else Ok b3 | None => Ok b3 end end = Ok a' ->
      a_lite b2 = false -> a_state a' = a_state b2 /\ nominations a' = nominations b2 /\ a_locals b2 = a_locals a' /\ a_remotes b2 = a_remotes a').
  { intros b2 Q LB. destruct (a_rufrag b2); [|okinj Q; auto]. rewrite LB in Q. destruct (deadlines (a_cfg b2) now (a_pairs b2)) as [ps ds] eqn:DL. cbn zeta in Q.
    assert (NP : nominations (set_pairs b2 ps) = nominations b2).
    { unfold nominations. flds. assert (ps = map (fun p => fst (next_attempt (a_cfg b2) p now)) (a_pairs b2)) as -> by (unfold deadlines in DL; congruence).
      rewrite map_map. apply map_ext. intro p. unfold next_attempt. destruct (p_cached p); reflexivity. }
    destruct (min_from ds O None) as [[i d]|]; [|okinj Q; auto]. destruct (d <=? now); [|okinj Q; auto].
    pose proof (env_binding _ _ _ _ Q) as (_ & _ & _ & _ & _ & B1 & B2 & _). spl; auto.
    - unfold binding_request in Q. destruct (a_rufrag (set_pairs b2 ps)); [|discriminate Q]. bok Q p P1. bok Q l P2. bok Q r P3. bok Q pr P4. cbn zeta in Q. bok Q p1 P5. okinj Q. reflexivity.
    - rewrite <- NP. unfold binding_request in Q. destruct (a_rufrag (set_pairs b2 ps)); [|discriminate Q]. bok Q p P1. bok Q l P2. bok Q r P3. bok Q pr P4. cbn zeta in Q. bok Q p1 P5. okinj Q.
      unfold nominations. flds. rewrite map_upd. apply upd_same. rewrite nth_error_map. apply get_ok in P1. cbn [a_pairs set_pairs] in P1. rewrite P1. cbn [option_map].
      unfold new_attempt in P5. cbn zeta in P5. destruct (skipn _ _); [discriminate|]. match type of P5 with Ok ?z = _ => assert (p1 = z) as -> by congruence end. unfold is_nominated. cbn [p_nom p_id]. destruct (p_nom p); reflexivity. }
  assert (NL : forall x y, nominations x = nominations y -> length (a_pairs x) = length (a_pairs y)).
  { intros x y E. apply (f_equal (@length _)) in E. unfold nominations in E. rewrite !map_length in E. exact E. }
  pose proof (filter_len (keep a1 now) (a_pairs a1)) as FL.
  destruct (Nat.eqb_spec (length (filter (keep a1 now) (a_pairs a1))) (length (a_pairs a1))) as [EQL|NEL]; cbn [negb] in E2.
  - okinj E2. left. destruct (FIN _ H0) as (F1 & F2 & _); [flds; congruence|]. split.
    + rewrite F1. flds. rewrite SE1, C2. exact S0.
    + rewrite (NL _ _ F2). flds. congruence.
  - right. bok E2 a3 E3. okinj E2. pose proof (state_evalnom _ _ E3) as SE3. pose proof (evalnom_len _ _ E3) as LN3. pose proof (env_evalnom _ _ E3) as (Y1 & Y2 & _). cbn [a_state a_pairs a_cfg a_lite set_pairs] in *.
    pose proof (env_state a3 now) as (Z1 & Z2 & _). pose proof (pairs_state a3 now) as Z3.
    assert (S3 : state_says (evaluate_state a3 now) now (a_state (evaluate_state a3 now))).
    { apply says_state; [congruence|congruence|rewrite Y1, X1, C3; exact K]. }
    destruct (FIN _ H0) as (F1 & F2 & F3 & F4); [congruence|]. exists (evaluate_state a3 now). rewrite F1. spl; auto.
    + rewrite (NL _ _ F2), Z3, LN3. rewrite <- C4, <- LN1. lia.
    + intros p P G. rewrite Z3 in P. apply evalnom_shape in E3. destruct E3 as [->|(i & b & b' & l & r & NB & _ & _ & _ & Q & _ & _ & ->)]; [exact (SP p P G)|].
      rewrite pairs_emit in P. cbn [a_pairs set_nsend set_pairs] in P, NB. apply In_nth_error in P. destruct P as [j P]. rewrite nth_upd in P. destruct (Nat.eqb i j); [|apply nth_error_In in P; exact (SP p P G)].
      destruct (nth_error _ j); [|discriminate]. cbn [option_map] in P. assert (p = b') as -> by congruence. apply nth_error_In in NB. apply (SP b NB).
      destruct Q as [[-> _]|(_ & _ & ->)]; exact G.
Qed.

(** *** C41: timing *)
(** When [poll_timeout] asks to be called again: never earlier than the pacing interval (50 ms by default) after the
    last handled timeout, exactly then while a request waits or a datagram is to be sent, and never later than the longest retransmission
    interval or 3 s. *)
Theorem C41_poll_bounds k lite ctrl tie u os a : reached k lite ctrl tie u os a -> (1 <= k_max_retr k)%nat -> 0 <= k_max_rto k ->
  times_from None os ->
  match a_last_now a with
  | None => snd (poll_timeout a) = None
  | Some ln => exists t, snd (poll_timeout a) = Some t /\
      (a_queue a <> [] \/ a_transmit a <> [] -> t = ln + k_ta k) /\
      (a_lite a = false -> ln + Z.min (k_ta k) (ms 3000) <= t) /\
      t <= ln + Z.max (k_ta k) (Z.max (k_max_rto k) (ms 3000))
  end.
Proof.
  intros R K M T. pose proof (reached_cfg _ _ _ _ _ _ _ R) as CF. destruct R as [F R].
  assert (TA : TI a). { apply (ti_run os (init k lite ctrl tie u) a None); auto; [apply inv_init|apply ti_init|discriminate]. }
  rewrite <- CF in M. pose proof (poll_bounds a TA M) as B. rewrite CF in B. destruct (a_last_now a); [|exact B].
  destruct B as (t & B1 & _ & B2 & B3 & B4). exists t. auto.
Qed.
(** The timer is not idle: a timeout handled at or after the time [poll_timeout] returned, with nothing waiting,
    sends a check or drops a given-up pair. *)
Theorem C41_timer_fires k ctrl tie u os a t now a' : reached k false ctrl tie u os a -> (1 <= k_max_retr k)%nat ->
  a_lite a = false -> a_queue a = [] -> a_transmit a = [] -> a_pairs a <> [] -> a_rufrag a <> None ->
  snd (poll_timeout a) = Some t -> t <= now ->
  run a [OPollTimeout; OTimeout now] = Ok a' ->
  (exists x, a_transmit a' = [x]) \/ (length (a_pairs a') < length (a_pairs a))%nat.
Proof.
  intros R K L Q T P RU PT LE H. pose proof (reached_cfg _ _ _ _ _ _ _ R) as CF. apply reached_inv in R.
  destruct (poll_cached a t L Q T P PT) as ((p & c & X1 & X2 & X3) & X4 & (X5 & X6 & _ & X7 & _ & _ & _ & X8) & X9).
  cbn [run step bind] in H. pose proof (inv_poll_timeout a R) as IP. set (b := fst (poll_timeout a)) in *. clearbody b.
  bok H a2 E. okinj H.
  assert (KB : (1 <= k_max_retr (a_cfg b))%nat) by (rewrite X5, CF; exact K).
  assert (RB : a_rufrag b <> None) by (rewrite X7; exact RU). assert (LB : a_lite b = false) by congruence. assert (QB : a_queue b = []) by congruence.
  assert (CB : exists p c, In p (a_pairs b) /\ p_cached p = Some c /\ c <= now) by (exists p, c; spl; auto; lia).
  destruct (timeout_fire b now a2 IP KB RB LB QB CB E) as [(x & X)|X].
  - left. exists x. rewrite X, X9. reflexivity.
  - right. lia.
Qed.
(** No call adds more than one datagram. *)
Definition at_most_one (l l' : list xmit) : Prop := l' = l \/ l' = tl l \/ l' = [] \/ exists x, l' = l ++ [x].
Lemma request_at_one a q li a' : handle_request_at a q li = Ok a' -> a_transmit a' = a_transmit a \/ exists x, a_transmit a' = a_transmit a ++ [x].
Proof.
  intro H. unfold handle_request_at in H. destruct (_ && _); [okinj H; auto|]. bok H rr RR. destruct rr as [[b1 ri]|]; [|okinj H; auto].
  assert (E1 : a_transmit b1 = a_transmit a).
  { unfold request_remote in RR. cbn zeta in RR. bok RR f E. destruct f as [[i z]|]; [congruence|]. destruct (existsb _ _); [discriminate|].
    match type of RR with Ok (Some (?x, _)) = _ => assert (b1 = x) as -> by congruence end. reflexivity. }
  bok H rp RP. destruct rp as [b2|]; [|okinj H; auto].
  destruct (tr_request_pair _ _ _ _ RP) as [(_ & _ & E2 & _) _].
  unfold request_finish in H. destruct (position _ _) as [i|]; [|discriminate]. bok H p P1. bok H l P2. bok H r P3. cbn zeta in H. bok H p1 P4. bok H b3 P5. okinj H. flds.
  right. eexists. f_equal. rewrite <- E1, <- E2. match type of P5 with (if ?c then _ else _) = _ => destruct c end; [|okinj P5; reflexivity].
  apply tr_evalnom in P5. destruct P5 as (_ & _ & P5 & _). rewrite P5. reflexivity.
Qed.
Lemma request_one a q a' : handle_request a q = Ok a' -> a_transmit a' = a_transmit a \/ exists x, a_transmit a' = a_transmit a ++ [x].
Proof.
  intro H. unfold handle_request in H. destruct (a_rufrag a); [|discriminate]. destruct (negb _); [okinj H; auto|].
  destruct (position _ _) as [li|]; [|okinj H; auto]. destruct (conflict q (a_ctrl a)) as [peer|] eqn:CF; [|eapply request_at_one; eauto].
  destruct (_ <=? _); [okinj H; right; eexists; reflexivity|]. bok H a1 E. apply tr_switch in E. destruct E as [(_ & _ & E & _) _]. rewrite <- E. eapply request_at_one; eauto.
Qed.
Lemma checks_one a now a' : timeout_checks a now = Ok a' -> a_transmit a' = a_transmit a \/ exists x, a_transmit a' = a_transmit a ++ [x].
Proof.
  intro H. unfold timeout_checks in H. cbn zeta in H. bok H a1 E1. bok H a2 E2.
  apply tr_evalnom in E1. destruct E1 as (_ & _ & E1 & _). cbn [a_transmit set_last_now] in E1.
  assert (T2 : a_transmit a2 = a_transmit a).
  { match type of E2 with (if ?c then _ else _) = _ => destruct c end; [|okinj E2; flds; exact E1].
    bok E2 a3 E3. okinj E2. destruct (tr_state a3 now) as (_ & _ & -> & _). apply tr_evalnom in E3. destruct E3 as (_ & _ & -> & _). exact E1. }
  destruct (a_rufrag a2); [|okinj H; auto]. destruct (a_lite a2); [okinj H; auto|]. destruct (deadlines (a_cfg a2) now (a_pairs a2)) as [ps ds].
  destruct (min_from ds O None) as [[i d]|]; [|okinj H; auto]. destruct (d <=? now); [|okinj H; auto].
  unfold binding_request in H. destruct (a_rufrag (set_pairs a2 ps)); [|discriminate H]. bok H p P1. bok H l P2. bok H r P3. bok H pr P4. cbn zeta in H. bok H p1 P5. okinj H.
  flds. right. rewrite T2. eexists. reflexivity.
Qed.
Theorem C41_one_datagram a o a' : step a o = Ok a' -> at_most_one (a_transmit a) (a_transmit a').
Proof.
  unfold at_most_one. intro H. pose proof H as H0. destruct o; cbn [step] in H.
  - okinj H. auto.
  - left. unfold add_local in H. destruct (_ && _); [okinj H; auto|]. bok H p E1. cbn zeta in H. bok H pl E2. destruct pl as [[a1 i]|]; [|okinj H; auto].
    apply tr_form_pairs in H. destruct H as (_ & _ & -> & _). apply place_local_facts in E2. apply E2.
  - left. unfold add_remote in H. destruct (negb _); [okinj H; auto|]. match type of H with (if ?c then _ else _) = _ => destruct c end; [okinj H; auto|].
    cbn zeta in H. bok H x X. bok H e1 EX. destruct e1; [|okinj H; auto]. bok H y Y. destruct y as [a1 i]. apply tr_form_pairs in H. destruct H as (_ & _ & -> & _). apply place_remote_facts in Y. apply Y.
  - left. bok H x X. destruct x as [a1 b]. okinj H.
    assert (R : forall a1 b, invalidate_remote a c = Ok (a1, b) -> a_transmit a1 = a_transmit a).
    { intros a2 b2 Q. unfold invalidate_remote in Q. destruct (position _ _); [|congruence]. bok Q o0 OO. destruct (negb _); [|congruence].
      match type of Q with Ok (?z, _) = _ => assert (a2 = z) as -> by congruence end. reflexivity. }
    unfold invalidate in X. destruct (position _ _); [|eauto]. bok X o0 OO. destruct (negb _); [|eauto].
    match type of X with Ok (?z, _) = _ => assert (a1 = z) as -> by congruence end. reflexivity.
  - okinj H. right. right. left. apply restart_shape.
  - left. unfold recreate in H. cbn zeta in H. bok H a1 E. okinj H. destruct (tr_conn a1 Checking) as (_ & _ & -> & _). apply tr_form_pairs in E. destruct E as (_ & _ & -> & _). reflexivity.
  - unfold handle_packet in H. bok H b B. destruct (negb b); [okinj H; auto|]. bok H a1 E. okinj H. destruct (tr_emit a1 (EvDiscovered proto src)) as (_ & _ & -> & _).
    destruct m.
    + unfold server_message in E. destruct (a_rufrag a); [|okinj E; auto]. destruct (request_one _ _ _ E); auto.
    + apply tr_response in E. destruct E as ((_ & _ & E & _) & _). auto.
    + unfold handle_error in E. destruct code as [z|]; [|okinj E; auto]. destruct (negb _); [okinj E; auto|]. destruct (find_attempt _ _); [|okinj E; auto]. destruct (negb _); [okinj E; auto|].
      apply tr_switch in E. destruct E as ((_ & _ & E & _) & _). auto.
    + okinj E. auto.
  - unfold handle_timeout in H. cbn zeta in H.
    match type of H with context[evaluate_state ?b now] => set (b0 := b) in *; assert (V0 : a_transmit b0 = a_transmit a) end.
    { subst b0. destruct (conn_eqb _ _); [destruct (tr_emit a (EvRestart (a_lufrag a))) as (_ & _ & X & _); exact X|reflexivity]. }
    destruct (tr_state b0 now) as (_ & _ & V1 & _). set (a0 := evaluate_state b0 now) in *. clearbody a0. rewrite V0 in V1. clear V0 b0.
    destruct (a_rufrag a0).
    + destruct (drop_old _ _ _).
      * apply checks_one in H. cbn [a_transmit set_queue] in H. rewrite V1 in H. destruct H; auto.
      * apply request_one in H. cbn [a_transmit set_queue] in H. rewrite V1 in H. destruct H; auto.
    + apply checks_one in H. rewrite V1 in H. destruct H; auto.
  - okinj H. auto.
  - okinj H. auto.
  - okinj H. left. unfold poll_timeout. destruct (a_last_now a); [|reflexivity]. destruct (a_queue a), (a_transmit a) eqn:TE; auto; destruct (a_lite a); auto; destruct (deadlines _ _ _); exact TE.
Qed.
(** A request that waited for the remote credentials makes the first timeout return early: the agent then asks for no timer at all. *)
Theorem C41_first_timeout_refuted : exists os a, reached default_cfg false true 8 7 os a /\ In (OTimeout (ms 5)) os /\ a_pairs a <> [] /\ snd (poll_timeout a) = None.
Proof.
  exists [OAddLocal (host (ip 1)); request_from 0 (ip 2) (ip 1) 5 100 false None (Some 3); OSetRemote 9; OTimeout (ms 5)].
  match goal with |- exists a, reached _ _ _ _ _ ?os a /\ _ => destruct (run (init default_cfg false true 8 7) os) as [a| |] eqn:E; [|vm_compute in E; discriminate|vm_compute in E; discriminate];
    exists a; split; [split; [repeat constructor|exact E]|];
    assert (X : match run (init default_cfg false true 8 7) os with Ok a => match a_pairs a, snd (poll_timeout a) with _ :: _, None => true | _, _ => false end | _ => false end = true) by (vm_compute; reflexivity); rewrite E in X end.
  split; [right; right; right; left; reflexivity|]. destruct (a_pairs a); [discriminate|]. split; [discriminate|]. destruct (snd (poll_timeout a)); [discriminate|reflexivity].
Qed.
(** Calling [ice_restart] before the events were polled loses them: the application sees Connected after a restart it
    never saw connect. *)
Fixpoint polled (a : agent) (os : list op) : list event :=
  match os with
  | [] => []
  | o :: t => match o with OPollEvent => match a_events a with e :: _ => [e] | [] => [] end | _ => [] end ++
              match step a o with Ok a' => polled a' t | _ => [] end
  end.
Theorem C41_restart_events_refuted : exists os a, reached default_cfg false true 8 7 os a /\ a_events a = [] /\
  state_of_events (polled (init default_cfg false true 8 7) os) New <> a_state a.
Proof.
  exists [OTimeout 0; ORestart 11 true; OPollEvent; OPollEvent].
  match goal with |- exists a, reached _ _ _ _ _ ?os a /\ _ => destruct (run (init default_cfg false true 8 7) os) as [a| |] eqn:E; [|vm_compute in E; discriminate|vm_compute in E; discriminate];
    exists a; split; [split; [repeat constructor|exact E]|];
    assert (X : match run (init default_cfg false true 8 7) os with Ok a => match a_events a with [] => negb (conn_eqb (state_of_events (polled (init default_cfg false true 8 7) os) New) (a_state a)) | _ => false end | _ => false end = true) by (vm_compute; reflexivity); rewrite E in X end.
  destruct (a_events a); [|discriminate]. split; [reflexivity|]. intro Y. rewrite Y in X. destruct (a_state a); discriminate.
Qed.

(** *** C42: role conflicts *)
(** An agent that gets a request in its own role keeps the role exactly if its tie-breaker is not smaller, and then
    answers 487. *)
Theorem C42_conflict_kept a q now src peer a' : a_rufrag a = Some (q_rufrag q) ->
  (exists l, In l (a_locals a) /\ is_iface l = true /\ i_addr l = q_dst q /\ i_proto l = q_proto q) ->
  same_role q (a_ctrl a) peer -> peer <= a_tie a ->
  step a (OPacket now (q_proto q) src (MRequest (a_lufrag a) q true)) = Ok a' ->
  a_ctrl a' = a_ctrl a /\ a_transmit a' = a_transmit a ++ [XConflict (q_proto q) (q_dst q) (q_src q) (q_tid q)] /\ a_pairs a' = a_pairs a.
Proof.
  intros RU (l & L1 & L2 & L3 & L4) SR LE H. cbn [step] in H. unfold handle_packet in H. cbn [accepts] in H. rewrite RU in H. rewrite !Z.eqb_refl in H. cbn [negb bind] in H.
  bok H a1 E. okinj H. unfold server_message in E. rewrite RU in E. unfold handle_request in E. rewrite RU, Z.eqb_refl in E. cbn [negb] in E.
  destruct (position _ _) as [li|] eqn:P.
  - unfold conflict in E. unfold same_role in SR. rewrite SR in E. destruct (Z.leb_spec peer (a_tie a)); [|lia]. okinj E.
    rewrite ctrl_emit, pairs_emit. destruct (tr_emit (set_transmit a (a_transmit a ++ [XConflict (q_proto q) (q_dst q) (q_src q) (q_tid q)])) (EvDiscovered (q_proto q) src)) as (_ & _ & -> & _). auto.
  - exfalso. clear - P L1 L2 L3 L4. induction (a_locals a) as [|x t IH]; [destruct L1|]. cbn [position] in P. match type of P with (if ?c then _ else _) = _ => destruct c eqn:C end; [discriminate|].
    destruct (position _ t) eqn:PT; [discriminate|]. destruct L1 as [->|L1]; [|auto]. rewrite L2, L3, L4 in C. rewrite (proj2 (addr_eqb_eq _ _) eq_refl), (proj2 (cproto_eqb_eq _ _) eq_refl) in C. discriminate.
Qed.
Theorem C42_conflict_switched a q now src peer a' : a_rufrag a = Some (q_rufrag q) ->
  (exists l, In l (a_locals a) /\ is_iface l = true /\ i_addr l = q_dst q /\ i_proto l = q_proto q) ->
  same_role q (a_ctrl a) peer -> a_tie a < peer ->
  step a (OPacket now (q_proto q) src (MRequest (a_lufrag a) q true)) = Ok a' ->
  a_ctrl a' = negb (a_ctrl a).
Proof.
  intros RU (l & L1 & L2 & L3 & L4) SR LE H. cbn [step] in H. unfold handle_packet in H. cbn [accepts] in H. rewrite RU in H. rewrite !Z.eqb_refl in H. cbn [negb bind] in H.
  bok H a1 E. okinj H. unfold server_message in E. rewrite RU in E. unfold handle_request in E. rewrite RU, Z.eqb_refl in E. cbn [negb] in E.
  destruct (position _ _) as [li|] eqn:P.
  - unfold conflict in E. unfold same_role in SR. rewrite SR in E. destruct (Z.leb_spec peer (a_tie a)); [lia|]. bok E a2 E2. apply tr_switch in E2. destruct E2 as [_ E2]. apply at_tq in E.
    rewrite ctrl_emit. destruct E as (_ & _ & _ & E & _). congruence.
  - exfalso. clear - P L1 L2 L3 L4. induction (a_locals a) as [|x t IH]; [destruct L1|]. cbn [position] in P. match type of P with (if ?c then _ else _) = _ => destruct c eqn:C end; [discriminate|].
    destruct (position _ t) eqn:PT; [discriminate|]. destruct L1 as [->|L1]; [|auto]. rewrite L2, L3, L4 in C. rewrite (proj2 (addr_eqb_eq _ _) eq_refl), (proj2 (cproto_eqb_eq _ _) eq_refl) in C. discriminate.
Qed.
(** A 487 switches the role exactly if the check it answers was sent in the present role. *)
Theorem C42_told k lite ctrl tie u os a now pr src tid p b a' : reached k lite ctrl tie u os a -> a_rufrag a <> None ->
  In p (a_pairs a) -> In b (p_att p) -> t_id b = tid ->
  step a (OPacket now pr src (MFailure tid (Some 487) true)) = Ok a' ->
  a_ctrl a' = if Bool.eqb (t_ctrl b) (a_ctrl a) then negb (a_ctrl a) else a_ctrl a.
Proof.
  intros R RU P B T H. apply reached_inv in R. destruct R as [[I _ _] _]. pose proof (iv_tids _ _ _ _ _ _ _ _ I) as ND.
  cbn [step] in H. unfold handle_packet in H. cbn [accepts] in H.
  assert (OW : existsb (owns tid) (a_pairs a) = true).
  { apply existsb_exists. exists p. split; [exact P|]. unfold owns, binding_attempt. destruct (find _ _) eqn:F; [reflexivity|]. apply find_none with (x := b) in F; [lia|exact B]. }
  rewrite OW in H. cbn [negb] in H. destruct (a_rufrag a); [|congruence]. cbn [bind negb] in H. bok H a1 E. okinj H. rewrite ctrl_emit.
  unfold handle_error in E. rewrite Z.eqb_refl in E. cbn [negb] in E.
  destruct (find_attempt (a_pairs a) tid) as [b0|] eqn:FA; [|exfalso; exact (find_attempt_none _ _ FA p b P B T)].
  pose proof (find_attempt_unique _ _ _ _ _ ND FA P B T) as ->. destruct (Bool.eqb (t_ctrl b0) (a_ctrl a)); cbn [negb] in E; [|okinj E; reflexivity].
  apply tr_switch in E. apply E.
Qed.
(** Nothing else changes the role. *)
Theorem C42_role_change_cause a o a' : step a o = Ok a' -> a_ctrl a' = a_ctrl a \/ a_ctrl a' = negb (a_ctrl a) /\
    ((exists q peer, requested a o q /\ same_role q (a_ctrl a) peer /\ a_tie a < peer) \/ told_to_switch a o).
Proof. intro H. apply step_track in H. apply (k_role _ _ _ H). Qed.
(** Two agents, any roles, different tie-breakers, any calls on either side, any network: the agent with the larger
    tie-breaker never changes its role, and once the other has the opposite role it keeps it forever. *)
Theorem C42_roles_settle k k' lite lite' ca cb ta tb ua ub n : tb < ta ->
  nsteps (mkNet (init k lite ca ta ua) (init k' lite' cb tb ub) [] []) n ->
  a_ctrl (n_a n) = ca /\
  forall n', nsteps n n' -> a_ctrl (n_b n) = negb (a_ctrl (n_a n)) -> a_ctrl (n_b n') = negb (a_ctrl (n_a n')).
Proof.
  intros LT H.
  assert (NIV : forall n1 n2, nsteps n1 n2 -> NI ca ta tb (n_a n1) (n_b n1) (n_sent_a n1) (n_sent_b n1) -> NI ca ta tb (n_a n2) (n_b n2) (n_sent_a n2) (n_sent_b n2)).
  { intros n1 n2 S I0. induction S as [|n1 n2 n3 S IH ST]; [exact I0|]. specialize (IH I0). destruct ST; cbn [n_a n_b n_sent_a n_sent_b] in *; [eapply ni_a|eapply ni_b]; eauto. }
  pose proof (NIV _ _ H (ni_init k k' lite lite' ca cb ta tb ua ub)) as I1. split; [apply (ni_ca _ _ _ _ _ _ _ I1)|].
  intros n' S E. rewrite (ni_ca _ _ _ _ _ _ _ I1) in E. pose proof (NIV _ _ S I1) as I2. rewrite (ni_ca _ _ _ _ _ _ _ I2).
  clear I2. induction S as [|n1 n2 n3 S IH ST]; [exact E|]. specialize (IH H I1 E). pose proof (NIV _ _ S I1) as I2.
  destruct ST; cbn [n_a n_b n_sent_a n_sent_b] in *; [exact IH|]. eapply ni_b_stays; eauto.
Qed.
(** With equal tie-breakers (never so with honest random ones) the conflict does not end: each agent answers 487 and
    each is told to switch. *)
Definition equal_run : list op :=
  [OSetRemote 9; OAddLocal (host (ip 1)); OAddRemote (rhost (ip 2) 2130706431); OTimeout 0;
   request_from (ms 1) (ip 2) (ip 1) 5 100 false (Some 8) None; OPacket (ms 2) Udp (ip 2) (MFailure 1 (Some 487) true)].
Theorem C42_equal_refuted : exists a, reached default_cfg false true 8 7 equal_run a /\ a_ctrl a = false /\ In (XConflict Udp (ip 1) (ip 2) 5) (a_transmit a).
Proof.
  destruct (run (init default_cfg false true 8 7) equal_run) as [a| |] eqn:E; [|vm_compute in E; discriminate|vm_compute in E; discriminate].
  assert (X : match run (init default_cfg false true 8 7) equal_run with Ok a => Some (a_ctrl a, a_transmit a) | _ => None end = Some (false, [XRequest Udp (ip 1) (ip 2) 1 true 8 1862270719 false; XConflict Udp (ip 1) (ip 2) 5])) by (vm_compute; reflexivity).
  rewrite E in X. assert (X1 : a_ctrl a = false) by congruence. assert (X2 : a_transmit a = [XRequest Udp (ip 1) (ip 2) 1 true 8 1862270719 false; XConflict Udp (ip 1) (ip 2) 5]) by congruence.
  exists a. split; [split; [repeat constructor|exact E]|]. split; [exact X1|]. rewrite X2. right. left. reflexivity.
Qed.
(** A network run in which the hypotheses are met and the conflict is settled by a request. *)
Definition nrun_a : list op := [OSetRemote 9; OAddLocal (host (ip 1)); OAddRemote (rhost (ip 2) 2130706431); OTimeout 0].
Definition nrun_b : list op := [OSetRemote 7; OAddLocal (host (ip 2))].
Lemma nsteps_one n1 n2 n3 : nstep n1 n2 -> nsteps n2 n3 -> nsteps n1 n3.
Proof. intros S H. revert S. induction H as [|m1 m2 m3 H IH ST]; intro S; [eapply ns_step; [apply ns_refl|exact S]|]. eapply ns_step; [apply IH; exact S|exact ST]. Qed.
Lemma nsteps_trans n1 n2 n3 : nsteps n1 n2 -> nsteps n2 n3 -> nsteps n1 n3.
Proof. intros H1 H2. revert H1. induction H2 as [|m1 m2 m3 S IH ST]; intro H1; [exact H1|]. eapply ns_step; [apply IH; exact H1|exact ST]. Qed.
Fixpoint sends (a : agent) (os : list op) : list xmit :=
  match os with [] => [] | o :: t => match step a o with Ok a' => a_transmit a' ++ sends a' t | _ => [] end end.
Definition quiet_op (o : op) : Prop := match o with OPacket _ _ _ _ => False | _ => True end.
Lemma nrun_left os : forall a b sa sb a', Forall op_fresh os -> Forall quiet_op os -> run a os = Ok a' -> nsteps (mkNet a b sa sb) (mkNet a' b (sa ++ sends a os) sb).
Proof.
  induction os as [|o t IH]; intros a b sa sb a' F Q H; cbn [run sends] in *; [okinj H; rewrite app_nil_r; apply ns_refl|].
  bok H a1 E. inversion F as [|? ? F1 F2]; inversion Q as [|? ? Q1 Q2]; subst. eapply nsteps_one; [apply n_step_a with (o := o); [exact F1| |exact E]; destruct o; cbn in *; tauto|].
  rewrite app_assoc. apply IH; assumption.
Qed.
Lemma nrun_right os : forall a b sa sb b', Forall op_fresh os -> Forall quiet_op os -> run b os = Ok b' -> nsteps (mkNet a b sa sb) (mkNet a b' sa (sb ++ sends b os)).
Proof.
  induction os as [|o t IH]; intros a b sa sb b' F Q H; cbn [run sends] in *; [okinj H; rewrite app_nil_r; apply ns_refl|].
  bok H b1 E. inversion F as [|? ? F1 F2]; inversion Q as [|? ? Q1 Q2]; subst. eapply nsteps_one; [apply n_step_b with (o := o); [exact F1| |exact E]; destruct o; cbn in *; tauto|].
  rewrite app_assoc. apply IH; assumption.
Qed.
Definition conflict_packet : op := OPacket (ms 1) Udp (ip 1) (MRequest 9 (mkReq (ms 1) Udp (ip 1) (ip 2) 1 1862270719 false 7 (Some 8) None) true).
Example settle_example : exists n, nsteps (mkNet (init default_cfg false true 8 7) (init default_cfg false true 3 9) [] []) n
  /\ a_ctrl (n_a n) = true /\ a_ctrl (n_b n) = false.
Proof.
  destruct (run (init default_cfg false true 8 7) nrun_a) as [a| |] eqn:EA; [|vm_compute in EA; discriminate|vm_compute in EA; discriminate].
  destruct (run (init default_cfg false true 3 9) nrun_b) as [b| |] eqn:EB; [|vm_compute in EB; discriminate|vm_compute in EB; discriminate].
  assert (X : match run (init default_cfg false true 8 7) nrun_a with Ok a => a_ctrl a | _ => false end = true) by (vm_compute; reflexivity). rewrite EA in X.
  assert (Y : match run (init default_cfg false true 3 9) nrun_b with Ok b => match step b conflict_packet with Ok b' => negb (a_ctrl b') | _ => false end | _ => false end = true) by (vm_compute; reflexivity). rewrite EB in Y.
  destruct (step b conflict_packet) as [b'| |] eqn:ES; [|discriminate Y|discriminate Y].
  assert (FA : Forall op_fresh nrun_a /\ Forall quiet_op nrun_a /\ Forall op_fresh nrun_b /\ Forall quiet_op nrun_b) by (repeat split; repeat constructor).
  destruct FA as (F1 & F2 & F3 & F4).
  pose proof (nrun_left nrun_a _ (init default_cfg false true 3 9) [] [] a F1 F2 EA) as S1.
  assert (G : In (XRequest Udp (ip 1) (ip 2) 1 true 8 1862270719 false) ([] ++ sends (init default_cfg false true 8 7) nrun_a)) by (vm_compute; tauto).
  set (sa := [] ++ sends (init default_cfg false true 8 7) nrun_a) in *. clearbody sa.
  pose proof (nrun_right nrun_b a _ sa [] b F3 F4 EB) as S2. set (sb := [] ++ sends (init default_cfg false true 3 9) nrun_b) in *. clearbody sb. clear EA EB.
  exists (mkNet a b' sa (sb ++ a_transmit b')). split; [|split; [exact X|cbn [n_b]; destruct (a_ctrl b'); [discriminate|reflexivity]]].
  refine (ns_step _ _ _ (nsteps_trans _ _ _ S1 S2) _). apply n_step_b with (o := conflict_packet); [exact I| |exact ES].
  exists Udp, (ip 1), (ip 2), true, 8, 1862270719, false. split; [exact G|split; reflexivity].
Qed.

Print Assumptions C28_no_panic.
Print Assumptions C28_pairs.
Print Assumptions C28_events.
Print Assumptions C39_nomination_cause.
Print Assumptions C39_datagrams.
Print Assumptions C40_answer.
Print Assumptions C40_timeout.
Print Assumptions C41_poll_bounds.
Print Assumptions C41_timer_fires.
Print Assumptions C42_roles_settle.

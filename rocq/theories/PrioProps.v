(** C27: ICE candidate priorities and pair ordering. *)
From Verif Require Import Base BaseFacts PrioModel PrioSpec PrioProofs.

(** A candidate made by this agent: no signalled priority, component 1 (the
    only one the builder makes), and a 16-bit local preference if one is set. *)
Definition own_candidate (c : cand) : Prop :=
  c.(c_prio) = None /\ c.(c_comp) = 1 /\
  match c.(c_lpref) with Some p => 0 <= p <= 65535 | None => True end.

Lemma own_lp c : own_candidate c -> 0 <= local_preference c <= 65535.
Proof. intros (_ & _ & L). unfold local_preference. destruct (c_lpref c); [exact L|destruct (c_addr6 c); lia]. Qed.

Lemma own_prio c b : own_candidate c -> do_prio c b =
  Ok (rfc_candidate_priority (type_preference (if b then PeerReflexive else c.(c_kind)) c.(c_proto)) (local_preference c) 1).
Proof.
  intros O. pose proof (own_lp c O) as L. destruct O as (P & C & _).
  rewrite do_prio_formula by (auto; lia). rewrite C. reflexivity.
Qed.

(** The priority of a candidate of this agent never panics, follows the RFC
    formula and is between 1 and 2^31-1, also the one put in a check as the
    priority of a peer reflexive candidate. *)
Theorem C27_candidate_priority : forall c as_prflx, own_candidate c ->
  exists p, do_prio c as_prflx = Ok p /\ rfc_range p /\
    p = rfc_candidate_priority (type_preference (if as_prflx then PeerReflexive else c.(c_kind)) c.(c_proto))
                               (local_preference c) 1.
Proof.
  intros c b O. eexists. split; [apply own_prio; exact O|]. split; [|reflexivity].
  eapply do_prio_range; [apply O|apply own_prio; exact O].
Qed.
Print Assumptions C27_candidate_priority.

(** Whatever the component id and the preference a plugged-in function
    returned, a priority that is computed at all is in the range. *)
Theorem C27_priority_range : forall c as_prflx p, c.(c_prio) = None ->
  do_prio c as_prflx = Ok p -> rfc_range p.
Proof. exact do_prio_range. Qed.
Print Assumptions C27_priority_range.

(** Order: type preference first, then local preference. *)
Theorem C27_candidate_order : forall a b pa pb, own_candidate a -> own_candidate b ->
  prio a = Ok pa -> prio b = Ok pb ->
  (pa < pb <-> lex_lt [type_preference a.(c_kind) a.(c_proto); local_preference a]
                      [type_preference b.(c_kind) b.(c_proto); local_preference b]) /\
  (pa = pb <-> type_preference a.(c_kind) a.(c_proto) = type_preference b.(c_kind) b.(c_proto)
               /\ local_preference a = local_preference b).
Proof.
  intros a b pa pb OA OB HA HB. pose proof (own_lp a OA). pose proof (own_lp b OB).
  unfold prio in *. rewrite (own_prio _ _ OA) in HA. rewrite (own_prio _ _ OB) in HB. cbn iota in *.
  assert (pa = rfc_candidate_priority (type_preference (c_kind a) (c_proto a)) (local_preference a) 1) as -> by congruence.
  assert (pb = rfc_candidate_priority (type_preference (c_kind b) (c_proto b)) (local_preference b) 1) as -> by congruence.
  unfold rfc_candidate_priority. cbn [lex_lt]. split; lia.
Qed.
Print Assumptions C27_candidate_order.

(** The type preferences: over UDP a host candidate beats a peer reflexive one,
    which beats a server reflexive one, which beats a relayed one; a UDP
    candidate is never below one of the same kind over another protocol. *)
Theorem C27_type_order : forall p q,
  type_preference Host Udp = 126 /\
  type_preference PeerReflexive Udp < type_preference Host Udp /\
  type_preference ServerReflexive p < type_preference PeerReflexive Udp /\
  type_preference Relayed p < type_preference ServerReflexive q /\
  type_preference Relayed p < type_preference Host q /\
  type_preference Relayed p < type_preference PeerReflexive q /\
  (forall k, type_preference k p <= type_preference k Udp) /\
  (forall k, 0 <= type_preference k p <= 126).
Proof.
  intros p q. destruct p, q; (repeat split; try (cbn; lia); destruct k; cbn; lia).
Qed.
Print Assumptions C27_type_order.

(** Up to 8192 local candidates, none of them relayed across IP versions, are
    all given a preference inside the interval of their kind, and then no two
    of them have the same priority. *)
Theorem C27_default_preferences : forall new,
  zlen new <= 8192 -> (forall c, In c new -> crossing c = false) ->
  (forall c, In c new -> c.(c_prio) = None /\ c.(c_comp) = 1) ->
  exists cs, add_locals [] new = Ok cs /\ length cs = length new /\
    Forall2 same_but_pref new cs /\
    (forall c, In c cs -> exists p, c.(c_lpref) = Some p /\
         counter_base c.(c_kind) - 16383 <= p <= counter_base c.(c_kind)) /\
    (forall i j a b, i <> j -> nth_error cs i = Some a -> nth_error cs j = Some b ->
         prio a <> prio b).
Proof.
  intros new L NC OWN. destruct (add_locals_ok new [] NC) as [cs E]; [cbn; lia|].
  exists cs. pose proof (add_locals_len _ _ _ E) as LEN. cbn in LEN.
  destruct (add_locals_nth _ _ _ E) as [tl [ETL F]]. cbn in ETL. subst tl.
  pose proof (well_pref_adds _ _ _ well_pref_nil E) as W.
  assert (NC' : forall i c, nth_error cs i = Some c -> crossing c = false /\ own_candidate c).
  { intros i c H. assert (exists a, nth_error new i = Some a /\ same_but_pref a c) as [a [Ha [v ->]]].
    { clear - F H. revert i H. induction F; intros i H0; [destruct i; discriminate|].
      destruct i; cbn in *; [exists x; split; [reflexivity|congruence]|apply IHF; exact H0]. }
    split. { apply (NC a). eapply nth_error_In; eauto. }
    destruct (OWN a) as [P C]; [eapply nth_error_In; eauto|].
    split; [exact P|]. split; [exact C|]. destruct (well_pref_u16 _ _ _ W H) as [p [-> R]]. exact R. }
  split; [exact E|]. split; [exact LEN|]. split; [exact F|]. split.
  - intros c IN. apply In_nth_error in IN. destruct IN as [i H]. eapply well_pref_interval; eauto.
    + unfold zlen in *. rewrite LEN. exact L.
    + eapply NC'; eauto.
  - assert (D : forall i j a b, (i < j)%nat -> nth_error cs i = Some a -> nth_error cs j = Some b -> prio a <> prio b).
    { intros i j a b IJ Ha Hb EQ. destruct (NC' _ _ Ha) as [Ca Oa]. destruct (NC' _ _ Hb) as [Cb Ob].
      destruct (C27_candidate_priority a false Oa) as [pa [Pa _]]. destruct (C27_candidate_priority b false Ob) as [pb [Pb _]].
      unfold prio in EQ. assert (pa = pb) by congruence.
      destruct (C27_candidate_order a b pa pb Oa Ob Pa Pb) as [_ [EQV _]]. destruct (EQV H) as [T LP].
      apply tp_kind_inj in T. apply (well_pref_distinct cs i j a b W IJ Ha Hb T Ca Cb).
      destruct (W _ _ Ha) as [x [X _]]. destruct (W _ _ Hb) as [y [Y _]]. unfold local_preference in LP. rewrite X, Y in *. congruence. }
    intros i j a b IJ Ha Hb. destruct (Nat.lt_total i j) as [Q|[Q|Q]]; [eapply D; eauto|lia|].
    intro EQ. symmetry in EQ. revert EQ. eapply D; eauto.
Qed.
Print Assumptions C27_default_preferences.

(** Any 7691 candidates, relayed across IP versions or not, get a 16-bit
    preference without a panic. *)
Theorem C27_preferences_no_panic : forall new, zlen new <= 7691 ->
  exists cs, add_locals [] new = Ok cs /\
    (forall c, In c cs -> exists p, c.(c_lpref) = Some p /\ 0 <= p <= 65535).
Proof.
  intros new L. destruct (add_locals_ok_any new []) as [cs E]; [cbn; lia|]. exists cs. split; [exact E|].
  pose proof (well_pref_adds _ _ _ well_pref_nil E) as W.
  intros c IN. apply In_nth_error in IN. destruct IN as [i H]. eapply well_pref_u16; eauto.
Qed.
Print Assumptions C27_preferences_no_panic.

(** Both agents compute the same priority for the same pair: what one calls
    local the other calls remote and exactly one of them is controlling. *)
Theorem C27_pair_symmetric : forall controlling mine theirs,
  calculate_prio controlling theirs mine = calculate_prio (negb controlling) mine theirs.
Proof. intros b m t. rewrite !calc_eq. destruct b; reflexivity. Qed.
Print Assumptions C27_pair_symmetric.

(** It is the RFC value, and it never overflows 64 bits unless both
    priorities are 2^32-1. *)
Theorem C27_pair_priority : forall controlling remote local, is_u32 remote -> is_u32 local ->
  ~ (remote = 2 ^ 32 - 1 /\ local = 2 ^ 32 - 1) ->
  calculate_prio controlling remote local =
    Ok (if controlling then rfc_pair_priority local remote else rfc_pair_priority remote local).
Proof.
  unfold is_u32. intros b r l R L N. rewrite calc_eq. rewrite <- !Z.ltb_lt in *.
  replace (rfc_pair_priority (if b then l else r) (if b then r else l) <? 2 ^ 64) with true.
  - destruct b; reflexivity.
  - symmetry. apply Z.ltb_lt. unfold rfc_pair_priority. destruct b; destruct (_ >? _) eqn:E; lia.
Qed.
Print Assumptions C27_pair_priority.

Theorem C27_pair_overflow_refuted : forall controlling,
  calculate_prio controlling (2 ^ 32 - 1) (2 ^ 32 - 1) = Panic.
Proof. intros []; reflexivity. Qed.

(** For priorities in the RFC's range the pair order is the lexicographic one
    by (smaller priority, larger priority, controlling side larger), so it is
    a total order in which only the same pair of priorities ties. *)
Theorem C27_pair_order : forall controlling r1 l1 r2 l2 p1 p2,
  rfc_range r1 -> rfc_range l1 -> rfc_range r2 -> rfc_range l2 ->
  calculate_prio controlling r1 l1 = Ok p1 -> calculate_prio controlling r2 l2 = Ok p2 ->
  let tie r l := if controlling then b2z (r <? l) else b2z (l <? r) in
  (pair_cmp p1 p2 = Gt <-> lex_lt [Z.min r1 l1; Z.max r1 l1; tie r1 l1] [Z.min r2 l2; Z.max r2 l2; tie r2 l2]) /\
  (pair_cmp p1 p2 = Eq <-> r1 = r2 /\ l1 = l2).
Proof.
  intros b r1 l1 r2 l2 p1 p2 R1 L1 R2 L2 H1 H2 tie. unfold rfc_range, is_u32 in *.
  rewrite C27_pair_priority in H1, H2 by (unfold is_u32; lia).
  assert (p1 = if b then rfc_pair_priority l1 r1 else rfc_pair_priority r1 l1) as E1 by congruence.
  assert (p2 = if b then rfc_pair_priority l2 r2 else rfc_pair_priority r2 l2) as E2 by congruence.
  clear H1 H2. unfold pair_cmp. rewrite Z.compare_antisym, CompOpp_involutive in *.
  assert (G : (p2 ?= p1) = Gt <-> p1 < p2) by (rewrite Z.compare_gt_iff; reflexivity).
  assert (Q : (p2 ?= p1) = Eq <-> p1 = p2) by (rewrite Z.compare_eq_iff; lia).
  rewrite G, Q. clear G Q. cbn [lex_lt]. subst tie. cbn beta. unfold rfc_pair_priority, b2z in *.
  rewrite !Z.gtb_ltb in *.
  destruct b; [destruct (r1 <? l1) eqn:A1, (r2 <? l2) eqn:A2|destruct (l1 <? r1) eqn:A1, (l2 <? r2) eqn:A2]; split; lia.
Qed.
Print Assumptions C27_pair_order.

(** Refuted without the range: a peer may signal any 32-bit priority and it is
    used unchecked; then a pair whose smaller priority is lower can win. *)
Theorem C27_pair_order_out_of_range_refuted :
  exists p1 p2, calculate_prio true (2 ^ 32 - 1) 1 = Ok p1 /\ calculate_prio true 2 2 = Ok p2 /\
    Z.min (2 ^ 32 - 1) 1 < Z.min 2 2 /\ pair_cmp p1 p2 = Lt.
Proof. do 2 eexists. repeat split. Qed.

(** Refuted: relayed candidates across IP versions can get the same priority
    as one of the same kind added 500 candidates later. *)
Definition relay (cross : bool) : cand := mkCand None Relayed Udp None 1 false cross.
Theorem C27_relay_preference_unique_refuted :
  exists cs a b, add_locals [] (relay true :: repeat (relay false) 500) = Ok cs /\
    nth_error cs 0 = Some a /\ nth_error cs 500 = Some b /\ prio a = prio b.
Proof.
  assert (H : match add_locals [] (relay true :: repeat (relay false) 500) with
              | Ok cs => match nth_error cs 0, nth_error cs 500 with
                         | Some a, Some b => match prio a, prio b with Ok x, Ok y => x =? y | _, _ => false end
                         | _, _ => false end
              | _ => false end = true) by (vm_compute; reflexivity).
  destruct (add_locals [] _) as [cs| |]; try discriminate.
  destruct (nth_error cs 0) as [a|] eqn:A; try discriminate.
  destruct (nth_error cs 500) as [b|] eqn:B; try discriminate.
  exists cs, a, b. repeat split; auto.
  destruct (prio a), (prio b); try discriminate. f_equal. lia.
Qed.

(** Refuted: enough candidates make the subtraction underflow. *)
Theorem C27_many_candidates_panic_refuted :
  default_local_preference (relay true) 7692 = Panic /\
  default_local_preference (relay false) 8192 = Panic.
Proof. split; reflexivity. Qed.

(** Refuted: a preference above 16 bits from a plugged-in function spills into
    the type bits: this relayed candidate outranks a host candidate. *)
Theorem C27_custom_preference_refuted :
  prio (mkCand None Relayed Udp (Some (125 * 65536 + 65535)) 1 true true) = Ok 2147483647 /\
  prio (mkCand None Host Udp (Some 65534) 1 false true) = Ok 2130706175.
Proof. split; reflexivity. Qed.

(** Examples. *)
Example C27_example_host : prio (mkCand None Host Udp None 1 false false) = Ok 2130706175.
Proof. reflexivity. Qed.
Example C27_example_own : own_candidate (mkCand None ServerReflexive Udp (Some 32767) 1 true true).
Proof. repeat split; cbn; lia. Qed.
Example C27_example_adds :
  let h6 := mkCand None Host Udp None 1 true true in
  let h4 := mkCand None Host Udp None 1 false false in
  exists cs, add_locals [] [h6; h4; h6; h4] = Ok cs /\
    map local_preference cs = [65535; 65534; 65533; 65532].
Proof. eexists. split; reflexivity. Qed.

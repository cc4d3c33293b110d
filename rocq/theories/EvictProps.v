(** C07-C09: the retransmission cache.  Statements only. *)
From Verif Require Import Base BaseFacts EvictModel EvictSpec EvictProofs EvictProofs2.

Lemma last_value_eq {T} p (ops : list (eop T)) : forall acc, last_value p acc ops = last_push p acc ops.
Proof. induction ops as [|[q t v|t|] ops IH]; intro acc; cbn; auto. Qed.
Lemma clock_ok_eq {T} (ops : list (eop T)) : forall c, clock_ok c ops <-> times_ok c ops.
Proof. induction ops as [|[q t v|t|] ops IH]; intro c; cbn; try rewrite IH; tauto. Qed.
Lemma cache_all_eq {K} (l : list (rpkt K * Z)) : forall c, cache_all c l = send_all c l.
Proof. induction l as [|[pk t] l IH]; intro c; cbn; [reflexivity|]. destruct (cache_sent c pk t); cbn; auto. Qed.

(** * C07 *)
(** Whatever the history of pushes (any positions, gaps, duplicates, wrap-around collisions), evictions
    and clears, a lookup returns nothing or exactly the value last pushed at that position. *)
Theorem C07_get_returns_last_push : forall (T : Type) size age maxc start ops p (v : T) cur,
  start <= cur -> clock_ok cur ops ->
  eget (erun start (enew size age maxc start) ops) p = Some v -> last_value p None ops = Some v.
Proof.
  intros T size age maxc start ops p v cur H C G. rewrite last_value_eq.
  eapply get_is_last_push; [exact H|apply clock_ok_eq; exact C|exact G].
Qed.
Print Assumptions C07_get_returns_last_push.

(** What can be fetched is reported as contained; an inert buffer (no slots, or no age) contains nothing. *)
Theorem C07_contains : forall (T : Type) (e : ebuf T) p,
  (eget e p <> None -> contains e p = true) /\ (zlen (buf e) = 0 \/ max_age e = 0 -> contains e p = false /\ eget e p = None).
Proof.
  intros T e p. unfold eget, contains, is_inert. split.
  - destruct (_ || _); [congruence|]. destruct (slot_at (buf e) p); congruence.
  - intro H. replace ((zlen (buf e) =? 0) || (max_age e =? 0)) with true by lia. auto.
Qed.
Print Assumptions C07_contains.

(** [contains] looks at the slot only, not at the position stored there (it can be true of a position never
    pushed); but it is exact about the slot: whatever the history it is true only if some position sharing
    the slot can be fetched. *)
Theorem C07_contains_exact : forall (T : Type) size age maxc start (ops : list (eop T)) p,
  let e := erun start (enew size age maxc start) ops in
  contains e p = true <-> exists q, eget e q <> None /\ q mod zlen (buf e) = p mod zlen (buf e).
Proof.
  intros T size age maxc start ops p.
  assert (EI (erun start (enew size age maxc start) ops)) as HE.
  { unfold erun. generalize (ei_new (T:=T) size age maxc start). generalize (@enew T size age maxc start).
    induction ops as [|o ops IH]; intros e He; cbn [fold_left]; [exact He|]. apply IH, ei_step, He. }
  cbv zeta. revert HE. generalize (erun start (enew size age maxc start) ops). intros e HE. split.
  - unfold contains. destruct (is_inert e) eqn:I; [discriminate|]. destruct (slot_at (buf e) p) as [en|] eqn:S; [|discriminate].
    intros _. pose proof (not_inert_len _ I) as [L _]. destruct HE as [W].
    exists (position en). split; [|eapply wf_slot; eauto].
    unfold eget. rewrite I. rewrite (has_slot (buf e) en); [|exact W|eapply slot_has; eauto]. rewrite Z.eqb_refl. discriminate.
  - intros [q [G M]]. unfold contains. unfold eget in G. destruct (is_inert e) eqn:I; [congruence|].
    assert (slot_at (buf e) p = slot_at (buf e) q) as ->.
    { unfold slot_at, index_for. rewrite M. reflexivity. }
    destruct (slot_at (buf e) q); congruence.
Qed.
Print Assumptions C07_contains_exact.
Theorem C07_contains_other_position_refuted : exists (ops : list (eop Z)) p,
  contains (erun 0 (enew 3 100 3 0) ops) p = true /\ last_value p None ops = None.
Proof. exists [EPush 1 1 5], 4. vm_compute. auto. Qed.
Print Assumptions C07_contains_other_position_refuted.

(** The clock hypothesis is needed: a push with an older time than the last eviction is ignored, so
    a newer value can be missing while the older one is returned. *)
Theorem C07_backwards_clock_refuted : exists (ops : list (eop Z)) p v,
  eget (erun 0 (enew 10 100 10 0) ops) p = Some v /\ last_value p None ops <> Some v.
Proof.
  exists [EPush 5 10 111; EEvict 20; EPush 5 15 222], 5, 111. split; [vm_compute; reflexivity|vm_compute; discriminate].
Qed.
Print Assumptions C07_backwards_clock_refuted.

Example C07_case : exists ops : list (eop Z), clock_ok 0 ops /\
  eget (erun 0 (enew 3 100 5 0) ops) 7 = Some 70 /\ eget (erun 0 (enew 3 100 5 0) ops) 4 = Some 41 /\
  last_value 4 None ops = Some 41.
Proof.
  exists [EPush 4 1 40; EPush 7 2 70; EPush 4 3 41; EEvict 4]. split; [cbn; lia|]. vm_compute. auto.
Qed.

(** * C08 *)
(** Never more than max(initial size, max_size) positions are held, whatever the history. *)
Theorem C08_count_bounded : forall (T : Type) size age maxc start (ops : list (eop T)) ps,
  0 <= size -> NoDup ps ->
  (forall p, In p ps -> eget (erun start (enew size age maxc start) ops) p <> None) ->
  zlen ps <= Z.max size maxc.
Proof.
  intros T size age maxc start ops ps Hs ND H.
  assert (EI (erun start (enew size age maxc start) ops)) as HE.
  { unfold erun. clear H. generalize (ei_new (T:=T) size age maxc start). generalize (@enew T size age maxc start).
    induction ops as [|o ops IH]; intros e He; cbn [fold_left]; [exact He|]. apply IH, ei_step, He. }
  pose proof (held_bound _ ps HE ND H) as B.
  pose proof (erun_len start ops (enew size age maxc start) (ei_new (T:=T) size age maxc start)) as L.
  cbn [buf enew max_size] in L. rewrite zlen_rep in L by lia. lia.
Qed.
Print Assumptions C08_count_bounded.

(** Retention: with consecutive numbers and a clock that does not run backwards, every packet that is
    among the last max(10, max_packet_count) sent and not older than max_packet_age when the last one
    was sent is returned, unchanged. *)
Theorem C08_recent_packets_are_retained : forall (K : Type) maxc age start q0 (l : list (rpkt K * Z)) c l0 pl tl,
  0 < age -> numbered_from q0 l -> in_order start l ->
  cache_all (rtx_new maxc age start) l = Ok c -> l = l0 ++ [(pl, tl)] ->
  forall i pk t, nth_error l i = Some (pk, t) ->
  zlen l - Z.of_nat i <= Z.max 10 maxc -> tl - t <= age ->
  get_by_seq c (pseq pk) = Some pk.
Proof.
  intros K maxc age start q0 l c l0 pl tl HA HN HT E El i pk t Hi Hc Hf. rewrite cache_all_eq in E.
  pose proof (ri_run maxc age start q0 HA l c E HN HT) as R.
  assert (last_timeout (by_seq c) = tl) as LT.
  { destruct (ri_lt _ _ _ _ _ _ R) as [[Z _]|(l1 & x & El1)]; [subst; destruct l0; discriminate|].
    rewrite El in El1. apply app_inj_tail in El1 as [_ El1]. congruence. }
  rewrite (HN _ _ _ Hi).
  apply (has_eget _ (mkEnt (q0 + Z.of_nat i) t pk) (ri_ei _ _ _ _ _ _ R)).
  apply (ri_keep _ _ _ _ _ _ R i pk t Hi); [unfold cap; lia|lia].
Qed.
Print Assumptions C08_recent_packets_are_retained.

(** Expiry.  Partial: only while no more packets were sent than the cache holds; then the packets
    returned are exactly those not older than max_packet_age.  Refuted below once packets are
    overwritten. *)
Theorem C08_expired_packets_are_gone_partial : forall (K : Type) maxc age start q0 (l : list (rpkt K * Z)) c l0 pl tl,
  0 < age -> numbered_from q0 l -> in_order start l ->
  cache_all (rtx_new maxc age start) l = Ok c -> l = l0 ++ [(pl, tl)] -> zlen l <= Z.max 10 maxc ->
  forall i pk t, nth_error l i = Some (pk, t) ->
  (get_by_seq c (pseq pk) = Some pk <-> tl - t <= age).
Proof.
  intros K maxc age start q0 l c l0 pl tl HA HN HT E El Hc i pk t Hi.
  split; [|intro Hf; eapply C08_recent_packets_are_retained; eauto; lia].
  rewrite cache_all_eq in E. intro G.
  pose proof (ri_run maxc age start q0 HA l c E HN HT) as R.
  assert (last_timeout (by_seq c) = tl) as LT.
  { destruct (ri_lt _ _ _ _ _ _ R) as [[Z _]|(l1 & x & El1)]; [subst; destruct l0; discriminate|].
    rewrite El in El1. apply app_inj_tail in El1 as [_ El1]. congruence. }
  destruct (ri_ne _ _ _ _ _ _ R) as [[Z _]|(s & Hs & _)]; [subst; destruct l0; discriminate|].
  destruct (ri_all _ _ _ _ _ _ R Hc s Hs) as (_ & _ & F).
  destruct (eget_has _ _ _ (ri_ei _ _ _ _ _ _ R) G) as (en & H1 & H2 & H3).
  destruct (ri_win _ _ _ _ _ _ R _ H1) as (_ & j & Hj & Ej).
  rewrite (HN _ _ _ Hi) in H2. assert (j = i) by lia. subst j.
  rewrite Hi in Hj. injection Hj as _ Ht. specialize (F _ H1). rewrite LT in F. rewrite Ht. exact F.
Qed.
Print Assumptions C08_expired_packets_are_gone_partial.

Definition C08_pk (s len : Z) : rpkt Z := mkPkt s len 0.
Definition C08_old : list (rpkt Z * Z) :=
  map (fun s => (C08_pk s 100, 0)) (zseq 0 10) ++ [(C08_pk 10 100, 100)].
Definition C08_run (maxc age : Z) (l : list (rpkt Z * Z)) : rtxcache Z :=
  match cache_all (rtx_new maxc age 0) l with Ok c => c | _ => rtx_new maxc age 0 end.
(** Refuted: with max_packet_count 10 and max_packet_age 10, numbers 0..9 sent at time 0 and 10 sent
    at time 100: packet 10 takes the slot of packet 0, eviction looks at position 0, finds the fresh
    packet 10 there and stops, so packet 5, 90 units past its age limit, is still returned. *)
Theorem C08_expiry_refuted : exists l c pk t,
  numbered_from 0 l /\ in_order 0 l /\ cache_all (rtx_new 10 10 0) l = Ok c /\
  nth_error l 5 = Some (pk, t) /\ nth_error l 10 = Some (C08_pk 10 100, 100) /\ 100 - t > 10 /\
  get_by_seq c (pseq pk) = Some pk.
Proof.
  exists C08_old, (C08_run 10 10 C08_old), (C08_pk 5 100), 0.
  assert (forall i pk t, nth_error C08_old i = Some (pk, t) -> (i < 11)%nat) as B.
  { intros i pk t H. apply (nth_error_Some C08_old i). congruence. }
  split.
  { intros i pk t H. pose proof (B _ _ _ H). do 11 (destruct i as [|i]; [vm_compute in H; injection H as <- <-; reflexivity|]). lia. }
  split.
  { split.
    - intros i pk t H. pose proof (B _ _ _ H). do 11 (destruct i as [|i]; [vm_compute in H; injection H as <- <-; lia|]). lia.
    - assert (forall i pk t, nth_error C08_old i = Some (pk, t) -> t = if (i <? 10)%nat then 0 else 100) as TV.
      { intros i pk t H. pose proof (B _ _ _ H). do 11 (destruct i as [|i]; [vm_compute in H; injection H as <- <-; reflexivity|]). lia. }
      intros i j x t y u H1 H2 L. rewrite (TV _ _ _ H1), (TV _ _ _ H2).
      destruct (i <? 10)%nat eqn:E1, (j <? 10)%nat eqn:E2; lia. }
  split; [vm_compute; reflexivity|]. split; [reflexivity|]. split; [reflexivity|]. split; [lia|].
  vm_compute. reflexivity.
Qed.
Print Assumptions C08_expiry_refuted.

(** Refuted for numbers with gaps: 0, 13, 23 pushed with room for 1000 and no ageing; growing from 10
    to 13 slots makes 0 and 13 collide and 0 is lost although only three packets were ever sent. *)
Theorem C08_retention_with_gaps_refuted : exists l c,
  cache_all (rtx_new 1000 1000 0) l = Ok c /\ zlen l = 3 /\ In (C08_pk 0 100, 0) l /\
  (forall pk t, In (pk, t) l -> t = 0) /\ get_by_seq c 0 = None.
Proof.
  exists [(C08_pk 0 100, 0); (C08_pk 13 100, 0); (C08_pk 23 100, 0)].
  eexists. split; [vm_compute; reflexivity|]. split; [reflexivity|]. split; [left; reflexivity|].
  split; [|vm_compute; reflexivity]. intros pk t [E|[E|[E|[]]]]; congruence.
Qed.
Print Assumptions C08_retention_with_gaps_refuted.

(** * C09 *)
(** A packet returned for a size limit is smaller than the limit, was sent, and is still cached. *)
Theorem C09_smaller_lookup_is_sound : forall (K : Type) maxc age start (l : list (rpkt K * Z)) c m pk,
  (forall pk t, In (pk, t) l -> 0 <= plen pk) ->
  (forall x y t u, In (x, t) l -> In (y, u) l -> pseq x = pseq y -> x = y) ->
  cache_all (rtx_new maxc age start) l = Ok c -> get_smaller c m = Ok pk ->
  plen pk < m /\ (exists t, In (pk, t) l) /\ get_by_seq c (pseq pk) = Some pk.
Proof. intros K maxc age start l c m pk HP D E. rewrite cache_all_eq in E. eapply get_smaller_sound; eauto. Qed.
Print Assumptions C09_smaller_lookup_is_sound.

(** Completeness.  Partial: only while nothing was overwritten or expired; then a packet at least one
    25-byte bucket below the limit makes the lookup succeed, with a packet from the largest such
    bucket. *)
Theorem C09_smaller_lookup_finds_partial : forall (K : Type) maxc age start q0 (l : list (rpkt K * Z)) c m l0 pl tl,
  0 < age -> 0 <= m < 2025 -> (forall pk t, In (pk, t) l -> 0 <= plen pk) ->
  cache_all (rtx_new maxc age start) l = Ok c -> numbered_from q0 l -> in_order start l ->
  zlen l <= Z.max 10 maxc -> l = l0 ++ [(pl, tl)] -> (forall pk t, In (pk, t) l -> tl - t <= age) ->
  forall pk t, In (pk, t) l -> plen pk / 25 < m / 25 ->
  exists p, get_smaller c m = Ok p /\ plen pk / 25 <= plen p / 25.
Proof. intros K maxc age start q0 l c m l0 pl tl A B C E. rewrite cache_all_eq in E. intros. eapply get_smaller_complete; eauto. Qed.
Print Assumptions C09_smaller_lookup_finds_partial.

(** Refuted in general: 0 (60 bytes) then 1..10 (30 bytes) with room for 10: packet 10 took the slot of
    packet 0, the 60-byte bucket still names packet 0, the slot test ignores the number, and the
    lookup for 100 bytes fails although ten 30-byte packets are cached. *)
Definition C09_sent : list (rpkt Z * Z) := (C08_pk 0 60, 0) :: map (fun s => (C08_pk s 30, 0)) (zseq 1 10).
Theorem C09_smaller_lookup_refuted : exists l c,
  cache_all (rtx_new 10 1000 0) l = Ok c /\ get_by_seq c 10 = Some (C08_pk 10 30) /\ get_smaller c 100 = Err.
Proof. exists C09_sent. eexists. split; [vm_compute; reflexivity|]. split; vm_compute; reflexivity. Qed.
Print Assumptions C09_smaller_lookup_refuted.

(** The two panics: caching a payload of 2000 bytes or more, asking for 2025 bytes or more. *)
Theorem C09_panics_exactly_on_oversize : forall (K : Type) maxc age start (l : list (rpkt K * Z)) c m,
  (forall pk t, In (pk, t) l -> 0 <= plen pk) -> 0 <= m ->
  (cache_all (rtx_new maxc age start) l = Panic <-> exists pk t, In (pk, t) l /\ 2000 <= plen pk) /\
  (cache_all (rtx_new maxc age start) l = Ok c -> (get_smaller c m = Panic <-> 2025 <= m)).
Proof.
  intros K maxc age start l c m HP Hm. rewrite cache_all_eq. split; [apply send_all_ok|].
  intro E. eapply get_smaller_panic; eauto.
Qed.
Print Assumptions C09_panics_exactly_on_oversize.

Definition C09_mix : list (rpkt Z * Z) := [(C08_pk 7 30, 1); (C08_pk 8 900, 2); (C08_pk 9 60, 3)].
Example C09_case : numbered_from 7 C09_mix /\ in_order 0 C09_mix /\
  get_smaller (C08_run 5 50 C09_mix) 100 = Ok (C08_pk 9 60) /\ get_by_seq (C08_run 5 50 C09_mix) 8 = Some (C08_pk 8 900).
Proof.
  split; [intros i pk t H; do 3 (destruct i as [|i]; [injection H as <- <-; reflexivity|]); destruct i; discriminate|].
  split.
  - split; intros.
    + do 3 (destruct i as [|i]; [injection H as <- <-; lia|]); destruct i; discriminate.
    + do 3 (destruct i as [|i]; [do 3 (destruct j as [|j]; [injection H as <- <-; injection H0 as <- <-; lia|]); destruct j; discriminate|]); destruct i; discriminate.
  - split; vm_compute; reflexivity.
Qed.

(** C31: the leaky-bucket pacer. *)
From Verif Require Import Base BaseFacts PacerModel PacerSpec PacerProofs PacerProofs2.
From Coq Require Import Lqa.
Open Scope Z_scope.

(** Over any window (es) of any run (pre ++ es) at pacing rate R, without probes and unpaced
    queues and while the queues can be drained in time at that rate: the bytes sent are at most
    R times the length of the window, plus 40 ms worth, plus one packet, plus half a byte per
    call of handle_timeout (each call rounds to whole bytes). *)
Theorem C31_rate_bound : forall R M pre es,
  (0 < R <= MAX_BITRATE)%Q -> 0 <= M ->
  (burst R + inject_Z M + 1 <= R * inject_Z 500000000 / inject_Z 8000000000)%Q ->
  Forall (ev_ok R R M) (pre ++ es) -> times_from None (pre ++ es) ->
  let s := fst (run (new R) pre) in
  (inject_Z (sent es (snd (run s es))) <=
     R * inject_Z (span (last_handle s) es) / inject_Z 8000000000 + burst R + inject_Z M + inject_Z (handles es) * (1 # 2))%Q.
Proof.
  intros R M pre es [R0 R1] M0 MS F T s. apply Forall_app in F as [F1 F2].
  assert (forall h es1 es2 s0, last_handle s0 = h -> times_from h (es1 ++ es2) -> times_from h es1 /\ times_from (last_handle (fst (run s0 es1))) es2) as TA.
  { clear. intros h es1. revert h. induction es1 as [|e es1 IH]; intros h es2 s0 H T; [cbn; rewrite H; tauto|].
    cbn [app run] in *. assert (forall e, is_handle e = false -> last_handle (fst (step s0 e)) = last_handle s0) as NH.
    { intros [now qs|snt|r|r|c|] X; try discriminate; try reflexivity; cbn [step].
      - unfold poll_queue. destruct (gate s0); [reflexivity|]. destruct (next_queue s0); [|reflexivity]. destruct snt as [[t n]|]; [|reflexivity].
        unfold register_send. destruct (check_internal _). reflexivity.
      - unfold check_probe_complete. destruct (completed s0); [reflexivity|]. destruct (check_internal _). reflexivity. }
    destruct (is_handle e) eqn:EH.
    - destruct e as [now qs| | | | |]; try discriminate. cbn [times_from] in *. destruct T as [T1 T2]. 
      cbn [step]. pose proof (handle_debt s0 now qs) as [_ HL]. destruct (handle_timeout s0 now qs) as [s1 rq]. cbn [fst] in HL.
      destruct (IH (Some now) es2 s1 HL T2) as [A B]. destruct (run s1 es1). split; [split; assumption|exact B].
    - specialize (NH e EH). destruct (step s0 e) as [s1 o]. cbn [fst] in NH.
      assert (times_from h (es1 ++ es2)) as T' by (destruct e; try discriminate; exact T).
      destruct (IH h es2 s1 (eq_trans NH H) T') as [A B]. destruct (run s1 es1). split; [destruct e; try discriminate; exact A|exact B]. }
  destruct (TA None pre es (new R) eq_refl T) as [T1 T2]. clear TA.
  assert (Inv R R M (new R)) as I0 by (apply Inv_new; try assumption; lra).
  pose proof (run_bound R R M R0 (Qle_refl R) R1 MS pre (new R) I0 F1 T1) as B1.
  unfold s in *. destruct (run (new R) pre) as [s0 os0]. cbn [fst] in *. destruct B1 as [I1 _].
  pose proof (run_bound R R M R0 (Qle_refl R) R1 MS es s0 I1 F2 T2) as B2. destruct (run s0 es) as [s2 os]. cbn [snd]. destruct B2 as [I2 B2].
  destruct I1 as (_ & _ & D1 & _). destruct I2 as (_ & _ & _ & D2 & _).
  apply inj_nonneg in D1. lra.
Qed.

(** The same when the rates set and those needed to drain the queues stay between lo and hi. *)
Theorem C31_rate_bound_varying : forall lo hi M r es,
  (0 < lo <= MAX_BITRATE)%Q -> (lo <= r <= hi)%Q -> 0 <= M ->
  (burst hi + inject_Z M + 1 <= lo * inject_Z 500000000 / inject_Z 8000000000)%Q ->
  Forall (ev_ok lo hi M) es -> times_from None es ->
  (inject_Z (sent es (snd (run (new r) es))) <=
     hi * inject_Z (span None es) / inject_Z 8000000000 + burst hi + inject_Z M + inject_Z (handles es) * (1 # 2))%Q.
Proof.
  intros lo hi M r es [R0 R1] [R2 R3] M0 MS F T.
  assert (lo <= hi)%Q as LH by lra.
  assert (Inv lo hi M (new r)) as I0 by (apply Inv_new; try assumption; lra).
  pose proof (run_bound lo hi M R0 LH R1 MS es (new r) I0 F T) as B. destruct (run (new r) es) as [s os]. cbn [snd].
  destruct B as [(_ & _ & _ & D & _) B]. cbn [debt new last_handle] in B. change (inject_Z 0) with 0%Q in B. lra.
Qed.

(** Between two calls of handle_timeout at most one packet is released. *)
Theorem C31_one_packet_per_timeout : forall r pre es, forallb (fun e => negb (is_handle e)) es = true ->
  polled (snd (run (fst (run (new r) pre)) es)) <= 1.
Proof. intros. apply run_one. assumption. Qed.
Theorem C31_no_packet_before_timeout : forall r es, forallb (fun e => negb (is_handle e)) es = true -> polled (snd (run (new r) es)) = 0.
Proof. intros. apply run_gate; [reflexivity|assumption]. Qed.

(** The debts are never negative, in any run with non-negative rates and sizes. *)
Theorem C31_debt_not_negative : forall r es, (0 <= r)%Q -> Forall sane es ->
  0 <= debt (fst (run (new r) es)) /\ 0 <= pdebt (fst (run (new r) es)).
Proof.
  intros r es R F. destruct (run_dinv es (new r)) as (A & B & _); [|exact F|split; assumption].
  unfold Dinv, new. cbn. spl; try lia; try lra; try constructor.
Qed.

(** Unpaced packets are released at once, oldest first. *)
Theorem C31_unpaced_first : forall s now qs q t,
  last_emitted s <> None -> next_queue s = None ->
  In q qs -> q_unpaced q = true -> q_unsent q = Some t -> t <= now -> 0 < q_count q ->
  exists q', In q' qs /\ q_unpaced q' = true /\ (exists t', q_unsent q' = Some t' /\ t' <= t) /\
    exists s' c, poll_queue (fst (handle_timeout s now qs)) = (s', Some (q_id q', c)).
Proof.
  intros s now qs q t LE NQ I U US T C. destruct (unpaced_first s now qs q t LE NQ I U US T C) as (q' & A & B & D & E & G).
  exists q'. split; [exact A|]. split; [exact B|]. split; [exact D|]. unfold poll_queue. rewrite G, E. eexists. eexists. reflexivity.
Qed.

(** A paced packet is released now, or a time is promised; then the first call of handle_timeout
    at or after that time releases one (rates from 201 bit/s to 10 Gbit/s, no probes). *)
Theorem C31_promised_time_is_kept : forall r es now qs, (0 <= r)%Q -> Forall sane es ->
  let s := fst (run (new r) es) in
  probes s = [] -> last_emitted s <> None -> next_queue s = None ->
  Forall (fun q => q_unpaced q = false) qs -> (exists q, In q qs /\ 0 < q_count q) ->
  (0 < adjust (pacing s) qs now <= MAX_BITRATE)%Q ->
  let s1 := fst (handle_timeout s now qs) in
  (exists q s' c, In q qs /\ 0 < q_count q /\ poll_queue s1 = (s', Some (q_id q, c))) \/
  exists t, fst (poll_timeout s1) = Some (Z.min t (now + PACING)) /\ now < t /\
  forall now' qs', t <= now' -> Forall (fun q => q_unpaced q = false) qs' -> (exists q, In q qs' /\ 0 < q_count q) ->
  (inject_Z 201 <= adjust (pacing s1) qs' now')%Q ->
  exists q s' c, In q qs' /\ 0 < q_count q /\ poll_queue (fst (handle_timeout s1 now' qs')) = (s', Some (q_id q, c)).
Proof.
  intros r es now qs R F s P LE NQ U X [A1 A2] s1.
  assert (Dinv s) as DI. { apply run_dinv; [|exact F]. unfold Dinv, new. cbn. spl; try lia; try lra; try constructor. }
  pose proof (handle_fields s now qs) as HF. cbv zeta in HF. fold s1 in HF. destruct HF as (_ & _ & _ & _ & _ & HL & _ & _ & HG & _).
  pose proof (handle_paced s now qs P LE NQ U X A1) as H. cbv zeta in H. fold s1 in H.
  destruct (Z.le_gt_cases (size_div (debt s1) (adjusted s1)) PACING) as [G|G].
  - left. destruct H as [_ H]. destruct (H G) as (q & B1 & B2 & _ & B3 & B4). unfold poll_queue. rewrite B4, B3. eexists. eexists. eexists. split; [exact B1|]. split; [exact B2|reflexivity].
  - right. destruct H as [H _]. destruct (H G) as [_ HN].
    destruct (progress s now qs DI P LE NQ U X A1 A2 HN) as (t & T1 & T2 & T3). fold s1 in T1, T3. exists t. split.
    { unfold poll_timeout. rewrite HL, T1. cbn [option_map]. destruct (Z.ltb_spec (now + PACING) t); cbn [fst]; f_equal; lia. }
    split; [exact T2|]. intros now' qs' K1 K2 K3 K4. destruct (T3 now' qs' K1 K2 K3 K4) as (q & B1 & B2 & B3 & B4).
    unfold poll_queue. rewrite B4, B3. eexists. eexists. eexists. split; [exact B1|]. split; [exact B2|reflexivity].
Qed.

(** Padding is requested only when every queue is empty, on a queue that allows it; without a
    probe only when both debts are paid, and then 5 ms worth of the padding rate. *)
Theorem C31_padding_request : forall s now qs m n s', handle_timeout s now qs = (s', Some (m, n)) ->
  (forall q, In q qs -> q_count q = 0) /\ (exists q, In q qs /\ q_use_pad q = true /\ q_id q = m) /\
  (probes s = [] -> debt s' = 0 /\ pdebt s' = 0 /\ n = rate_mul (padding s) PADDING_BURST_INTERVAL /\ ~ (padding s == 0)%Q).
Proof.
  intros s now qs m n s' H. unfold handle_timeout in H. set (s1 := mkPacer _ _ _ _ _ _ _ _ _ _ _ _ _ _) in H.
  pose proof (padding_request_same s1 now) as PS. destruct (padding_request s1 now) as [s2 req] eqn:E. cbn [fst] in PS.
  destruct PS as (S1 & S2 & S3 & S4 & S5 & S6 & S7 & _).
  destruct req as [[m0 n0]|]. 2: { destruct (next_queue s2); [discriminate|]. destruct (next_poll s2 now) as [[[? ?] ?]|]; discriminate. }
  inversion H; subst. clear H. unfold padding_request in E. change (queues s1) with qs in E.
  destruct (negb (forallb (fun q => q_count q =? 0) qs)) eqn:AE; [discriminate|]. apply negb_false_iff in AE. rewrite forallb_forall in AE.
  split. { intros q Hq. apply Z.eqb_eq. apply AE. exact Hq. }
  destruct olt_facts as (O1 & O2 & O3).
  pose proof (max_by_spec (fun a b => olt (q_emitted a) (q_emitted b)) (fun x y z p q => O1 _ _ _ q p) (fun x => O2 _) (fun x y => O3 _ _) (filter q_use_pad qs)) as M.
  destruct (max_by _ (filter q_use_pad qs)) as [q|]; [|discriminate]. destruct M as [M1 _]. apply filter_In in M1 as [M1 M2].
  change (probes s1) with (probes s) in E. destruct (probes s) as [|p ps].
  - destruct (Z.eqb_spec (debt s1) 0) as [D1|]; [|discriminate]. destruct (Z.eqb_spec (pdebt s1) 0) as [D2|]; [|discriminate]. cbn [negb orb] in E.
    destruct (Qeq_bool (padding s1) 0) eqn:Q0; [discriminate|]. inversion E; subst. split; [exists q; tauto|]. intros _.
    cbn [set_next debt pdebt]. split; [exact D1|]. split; [exact D2|]. split; [reflexivity|]. intro Z0. apply Qeq_bool_iff in Z0. change (padding s1) with (padding s) in Q0. congruence.
  - destruct (negb (should_send_now p now)); [discriminate|]. destruct (next_packet p now) as [p' [k|]]; [|discriminate]. inversion E; subst.
    split; [exists q; tauto|]. discriminate.
Qed.

Print Assumptions C31_rate_bound.
Print Assumptions C31_promised_time_is_kept.
Print Assumptions C31_padding_request.

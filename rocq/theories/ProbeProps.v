(** C56: bandwidth probing. *)
From Coq Require Import QArith Lia Sorted.
From Verif Require Import Base BaseFacts ProbeModel ProbeSpec ProbeProofs ProbeProofs2 ProbeProofs3 ProbeProofs4 ProbeProofs5 ProbeProofs6.
Open Scope Z_scope.

Section P.
Variables (B : Type) (A : arith B) (FAR : Z).
Local Notation run ops := (bwe_run A FAR (bwe_new A FAR) ops).

(** A probe is asked for only when there is a reason, in the right distance from the decision before, and at the
    rate that belongs to its kind. *)
Theorem C56_probe_justified : laws A -> forall ops h1 o g b h2,
  snd (run ops) = h1 ++ (o, OProbe (Some g) b) :: h2 -> justified A h1 o g.
Proof. intros L ops h1 o g b h2 H. exact (justified_run B A FAR L ops h1 o g b h2 H). Qed.

(** Twice the desired bitrate of the time of its decision is the most that a probe may take, 5 kbit/s the least;
    without a desired bitrate set before there is no probe. *)
Theorem C56_probe_capped : laws A -> forall ops h1 o g b h2,
  snd (run ops) = h1 ++ (o, OProbe (Some g) b) :: h2 ->
  lt A (c_rate g) (KB5 A) = false /\
  exists ha hb, h1 = ha ++ hb /\ Forall (fun x => ~ off x) hb /\ (length (probes hb) <= 1)%nat /\
    le A (c_rate g) (mul A (desired ha (ZERO A)) 2) = true.
Proof.
  intros L ops h1 o g b h2 H. pose proof (justified_run B A FAR L ops h1 o g b h2 H) as J.
  destruct o as [| now [|] alr e c| | |]; try contradiction.
  destruct J as [(W & _)|(ha & t & a0 & e0 & c0 & y & hb & g1 & E & F & P1 & _ & W & _)].
  - destruct W as (_ & W1 & (v & r & _ & _ & W2) & _). split; [exact W1|]. exists h1, []. split; [rewrite app_nil_r; reflexivity|].
    split; [constructor|]. split; [cbn; lia|]. rewrite W2. apply (min_le_r L).
  - destruct W as (_ & W1 & (v & r & _ & _ & W2) & _). split; [exact W1|].
    exists ha, ((BTimeout t true a0 e0 c0, y) :: hb). split; [exact E|].
    split; [constructor; [cbn; auto|exact F]|]. split; [rewrite P1; cbn; lia|]. rewrite W2. apply (min_le_r L).
Qed.

(** Between two resets no two probes have the same cluster id: they count up. *)
Theorem C56_ids_increase : laws A -> forall ops, 2 * zlen ops < 2 ^ 64 ->
  StronglySorted Z.lt (map c_id (probes (since_reset (snd (run ops)) []))).
Proof. intros L ops H. exact (ids_sorted B A FAR L ops H). Qed.

Lemma poll_gt : forall l (m now : Z), now < m -> Forall (fun x => now < x) l -> now < fold_right Z.min m l.
Proof. induction l as [|x l IH]; intros m now H F; cbn [fold_right]; [exact H|]. inversion F; subst. specialize (IH _ _ H H3). lia. Qed.
Lemma poll_le : forall l (m : Z), fold_right Z.min m l <= m.
Proof. induction l as [|x l IH]; intros m; cbn [fold_right]; [lia|]. specialize (IH m). lia. Qed.
(** No busy loop: when a timeout at [now] asks for no probe, the next poll is for later than [now]; after one that
    asks for a probe the next poll is due. *)
Theorem C56_no_busy_loop : forall s now probe alr e c s' o b, now < FAR ->
  bwe_step A FAR s (BTimeout now probe alr e c) = (s', OProbe o b) ->
  match o with None => now < bwe_poll s' | Some _ => bwe_poll s' <= 0 end.
Proof.
  intros s now probe alr e c s' o b Hf H. cbn [bwe_step] in H. pose proof (no_spin B A FAR _ _ _ _ _ _ _ _ _ Hf H) as N.
  destruct o as [g|].
  - unfold bwe_poll. rewrite N. apply poll_le.
  - apply poll_gt; [exact N|]. unfold bwe_timeout in H.
    match type of H with context [propagate A ?x e c] => set (s0 := x) in H end.
    assert (E : b_est (propagate A s0 e c) = est_timeout (b_est s) now).
    { unfold propagate. destruct e as [v|]; [|reflexivity]. destruct (beq_opt A (b_upd s0) (Some v)); reflexivity. }
    destruct (pc_timeout A FAR _ now) as [p3 [g|]]; [destruct (probe_start FAR _ g now); discriminate|].
    injection H as <- <-. cbn [b_est]. rewrite E. destruct probe; [|constructor].
    apply Forall_map. apply Forall_forall. intros x X. unfold est_timeout in X. apply filter_In in X as (_ & X). lia.
Qed.

(** A result is for a probe that was asked for and started, with no end of probing since, and it is what all the
    feedback since then on packets of this probe measures. *)
Theorem C56_result_measured : laws A -> forall ops h1 fb p e c l h2 g b, 2 * zlen ops < 2 ^ 64 ->
  snd (run ops) = h1 ++ (BUpdate fb p e c, OResults l) :: h2 -> In (g, b) l -> due_result A h1 fb g b.
Proof. intros L ops h1 fb p e c l h2 g b Hb H I. exact (result_run B A FAR L ops h1 fb p e c l h2 g b Hb H I). Qed.
(** Whatever happens, no more than twenty clusters are held in memory. *)
Theorem C56_clusters_bounded : forall ops, zlen (b_est (fst (run ops))) <= 20.
Proof. intros ops. apply len_run. cbn. lia. Qed.

(** Probing does begin: with a desired bitrate and an estimate, on a link that is not congested, the first timeout asks for
    three times the estimate and the next, which is due at once, for six times (both within twice the desired bitrate). *)
Theorem C56_probing_begins : forall d v c alr n1 n2 alr2 e2 c2, let cap r := bmin A r (mul A d 2) in
  eqb A d (ZERO A) = false -> eqb A v (ZERO A) = false -> eqb A v (INF A) = false -> permits c ->
  lt A (cap (mul A v 3)) (KB5 A) = false -> lt A (cap (mul A v 6)) (KB5 A) = false -> 0 <= n1 -> n1 <= n2 -> e2 = Some v -> eqb A v v = true ->
  probes (snd (run [BDesired d; BTimeout n1 true alr (Some v) c; BTimeout n2 true alr2 e2 c2])) =
    [mkC 0 (cap (mul A v 3)) KInitial; mkC 1 (cap (mul A v 6)) KInitial].
Proof.
  intros d v c alr n1 n2 alr2 e2 c2 cap Hd Hv Hi Hc H3 H6 N1 N2 -> Hr. unfold cap in *. clear cap.
  assert (Cp : match c with LossIncreasing | DelayLimited => true | _ => false end = true) by (destruct Hc as [-> | ->]; reflexivity).
  assert (L1 : (n1 <? 0) = false) by lia. assert (L2 : (n2 <? 0) = false) by lia.
  set (t1 := BTimeout n1 true alr (Some v) c). set (t2 := BTimeout n2 true alr2 (Some v) c2).
  assert (S1 : exists s b, bwe_step A FAR (fst (bwe_step A FAR (bwe_new A FAR) (BDesired d))) t1 = (s, OProbe (Some (mkC 0 (bmin A (mul A v 3) (mul A d 2)) KInitial)) b)
     /\ b_desired s = d /\ b_upd s = Some v /\ p_en (b_pc s) = true /\ p_next (b_pc s) = 0 /\ p_des (b_pc s) = Some d /\ p_est (b_pc s) = Some v
     /\ p_pend (b_pc s) = [mkC 1 (bmin A (mul A v 6) (mul A d 2)) KInitial]).
  { unfold t1. cbn [bwe_step bwe_new fst b_desired b_pc b_est b_upd]. unfold bwe_timeout. cbn [b_desired b_pc b_est b_upd].
    set (p0 := immediate (set_des (pc_new FAR) (Some d))).
    assert (SD : set_desired A (pc_new FAR) d = p0) by (unfold set_desired; cbn [p_des pc_new]; rewrite Hd; reflexivity). rewrite !SD. clear SD.
    assert (Q : exists p, match alr with Some t => alr_started p0 t | None => alr_stopped p0 n1 end = p /\ p_en p = false /\ p_des p = Some d /\ p_est p = None
       /\ p_pend p = [] /\ p_last p = None /\ p_nid p = 0 /\ p_cs p = DelayLimited).
    { eexists. split; [reflexivity|]. destruct alr; repeat split; reflexivity. }
    destruct Q as (p & -> & Q1 & Q2 & Q3 & Q4 & Q5 & Q6 & Q7).
    unfold propagate. cbn [b_upd beq_opt b_desired b_pc b_est]. unfold set_estimated. rewrite Q3, Hv.
    set (p1 := immediate (set_cs (set_est p (Some v)) c)). unfold enable. change (p_en p1) with (p_en p). rewrite Q1. cbn [negb andb].
    unfold pc_timeout. set (p2 := immediate (set_en p1 true)). change (p_next p2) with 0. rewrite L1. change (p_en (set_next p2 FAR)) with true. cbn [negb].
    change (p_des (set_next p2 FAR)) with (p_des p). change (p_est (set_next p2 FAR)) with (Some v). change (p_pend (set_next p2 FAR)) with (p_pend p). rewrite Q2, Q4.
    unfold can_probe. rewrite Hi. change (p_cs (set_next p2 FAR)) with c. rewrite Cp. cbn [negb].
    unfold decide, maybe_initial. change (p_last (set_next p2 FAR)) with (p_last p). rewrite Q5.
    assert (QP : forall st r, lt A (bmin A r (mul A d 2)) (KB5 A) = false -> let q := queue_probe A st r KInitial d n1 in
      p_pend q = p_pend st ++ [mkC (p_nid st) (bmin A r (mul A d 2)) KInitial] /\ p_nid q = (p_nid st + 1) mod 2 ^ 64 /\ p_en q = p_en st
      /\ p_des q = p_des st /\ p_est q = p_est st).
    { intros st r E. cbv zeta. unfold queue_probe. rewrite E. repeat split. }
    destruct (QP (set_next p2 FAR) _ H3) as (A1 & A2 & A3 & A4 & A5). cbv zeta in A1.
    destruct (QP (queue_probe A (set_next p2 FAR) (mul A v 3) KInitial d n1) _ H6) as (B1 & B2 & B3 & B4 & B5).
    cbv zeta in *. change (p_pend (set_next p2 FAR)) with (p_pend p) in A1. change (p_nid (set_next p2 FAR)) with (p_nid p) in A1, A2. rewrite Q4, Q6 in *.
    rewrite A1, A2 in B1. change ((0 + 1) mod 2 ^ 64) with 1 in B1. cbn [app] in B1. rewrite A3 in B3. rewrite A4 in B4. rewrite A5 in B5.
    change (p_en (set_next p2 FAR)) with true in B3. change (p_des (set_next p2 FAR)) with (p_des p) in B4. change (p_est (set_next p2 FAR)) with (Some v) in B5. rewrite Q2 in B4.
    clear A1 A2 A3 A4 A5 QP B2.
    match goal with |- context [update_change A ?x n1 v] => remember x as p4 eqn:Ep4 end. clear Ep4.
    assert (U : let q := set_pest (update_change A p4 n1 v) (Some v) in p_en q = true /\ p_des q = Some d /\ p_est q = Some v /\
       p_pend q = [mkC 0 (bmin A (mul A v 3) (mul A d 2)) KInitial; mkC 1 (bmin A (mul A v 6) (mul A d 2)) KInitial]).
    { cbv zeta. unfold update_change. destruct (p_pest p4); [destruct (eqb A v b)|];
        match goal with |- context [match p_chg ?x with _ => _ end] => destruct (p_chg x) end; repeat split; assumption || reflexivity. }
    cbv zeta in U. revert U. generalize (set_pest (update_change A p4 n1 v) (Some v)). intros q (U1 & U2 & U3 & U4).
    assert (X : p_en (fst (next_timeout q n1)) = p_en q /\ p_des (fst (next_timeout q n1)) = p_des q /\ p_est (fst (next_timeout q n1)) = p_est q /\ p_pend (fst (next_timeout q n1)) = p_pend q).
    { unfold next_timeout. destruct (match p_last q with Some l => is_ini (l_kind l) | None => false end); [|destruct (in_alr q)];
        match goal with |- context [match ?x with Some _ => _ | None => _ end] => destruct x end; repeat split; reflexivity. }
    destruct (next_timeout q n1) as [q2 tt]. cbn [fst] in X. destruct X as (X1 & X2 & X3 & X4).
    change (p_pend (set_next q2 tt)) with (p_pend q2). rewrite X4, U4.
    destruct (probe_start FAR _ _ n1) as [l ok].
    eexists _, ok. split; [reflexivity|]. cbn. rewrite X1, X2, X3. auto 10. }
  destruct S1 as (s & b & E1 & S1 & S2 & S3 & S4 & S5 & S6 & S7).
  assert (E2 : exists s2 b2, bwe_step A FAR s t2 = (s2, OProbe (Some (mkC 1 (bmin A (mul A v 6) (mul A d 2)) KInitial)) b2)).
  { unfold t2. cbn [bwe_step]. unfold bwe_timeout.
    set (p0 := immediate (set_des (b_pc s) (Some d))).
    assert (SD : set_desired A (b_pc s) (b_desired s) = p0) by (unfold set_desired; rewrite S5, S1; reflexivity). rewrite !SD. clear SD.
    assert (Q : exists p, match alr2 with Some t => alr_started p0 t | None => alr_stopped p0 n2 end = p /\ p_en p = true /\ p_des p = Some d /\ p_est p = Some v
       /\ p_pend p = [mkC 1 (bmin A (mul A v 6) (mul A d 2)) KInitial] /\ p_next p = 0).
    { eexists. split; [reflexivity|]. destruct alr2; [unfold alr_started; destruct (p_alr0 p0)|unfold alr_stopped; destruct (p_alr0 p0), (p_alr1 p0)];
        cbn; rewrite ?S3, ?S6, ?S7; auto 10. }
    destruct Q as (p & -> & Q1 & Q2 & Q3 & Q4 & Q5).
    unfold propagate. cbn [b_upd b_desired b_pc b_est]. rewrite S2. cbn [beq_opt]. rewrite Hr. cbn [b_upd b_desired b_pc b_est].
    unfold enable. rewrite Q1. cbn [negb andb]. unfold pc_timeout. rewrite Q5, L2. cbn [set_next p_en p_des p_est p_pend]. rewrite Q1, Q2, Q3, Q4. cbn [negb].
    destruct (probe_start FAR _ _ n2) as [l ok]. eexists _, ok. reflexivity. }
  destruct E2 as (s2 & b2 & E2). cbn [bwe_run]. cbn [bwe_step] in E1. cbn [bwe_step fst] in E1.
  fold (bwe_step A FAR). change (bwe_step A FAR (bwe_new A FAR) (BDesired d)) with (mkB d (pc_new FAR) (@nil (est B)) (@None B), @OUnit B).
  cbv iota beta. replace (bwe_step A FAR (mkB d (pc_new FAR) [] None) t1) with (s, OProbe (Some (mkC 0 (bmin A (mul A v 3) (mul A d 2)) KInitial)) b) by (symmetry; exact E1).
  rewrite E2. reflexivity.
Qed.

(** ** What does not hold *)
(** Probing does not start again after an interruption while the estimate stays as it is: the estimate is handed to
    the prober only when it changes, but the interruption made the prober forget it. *)
Definition stuck (v : B) (s : bwe B) : Prop :=
  p_est (b_pc s) = None /\ (exists w, b_upd s = Some w /\ eqb A w v = true) /\ p_pend (b_pc s) = [].
Definition same (v : B) (o : bop B) : Prop := o <> BReset /\ forall x, In x (reports o) -> fst x = v.
Lemma prop_same : forall v s e c, (exists w, b_upd s = Some w /\ eqb A w v = true) -> (forall x, e = Some x -> x = v) ->
  propagate A s e c = s.
Proof.
  intros v s e c (w & E & W) H. unfold propagate. destruct e as [x|]; [|reflexivity]. rewrite (H x eq_refl), E. cbn [beq_opt].
  rewrite W. reflexivity.
Qed.
Lemma alr_keeps : forall (p : pctl B) alr now, let q := match alr with Some t => alr_started p t | None => alr_stopped p now end in
  p_est q = p_est p /\ p_pend q = p_pend p /\ p_en q = p_en p.
Proof.
  intros p alr now. cbv zeta. destruct alr; [unfold alr_started; destruct (p_alr0 p)|unfold alr_stopped; destruct (p_alr0 p), (p_alr1 p)];
    repeat split; reflexivity.
Qed.
Lemma des_keeps : forall p v, let q := set_desired A p v in p_est q = p_est p /\ p_pend q = p_pend p /\ p_en q = p_en p.
Proof. intros p v. cbv zeta. unfold set_desired. destruct (p_des p); [repeat split; reflexivity|]. destruct (eqb A v _); repeat split; reflexivity. Qed.
Lemma pc_en : forall p now, p_en (fst (pc_timeout A FAR p now)) = p_en p.
Proof.
  intros p now. destruct (pc_timeout A FAR p now) as [p' o] eqn:E. apply pc_cases in E. cbn [fst].
  inversion E as [Hc Hk|g r He Hc|d e q oo He Hc]; subst; unfold ctl in Hc; intuition congruence.
Qed.
Lemma timeout_shape : forall s now probe alr e c, exists p2,
  p_est p2 = p_est (b_pc s) /\ p_pend p2 = p_pend (b_pc s) /\ p_en p2 = p_en (b_pc s) /\
  let s1 := propagate A (mkB (b_desired s) p2 (est_timeout (b_est s) now) (b_upd s)) e c in
  let r := pc_timeout A FAR (enable FAR (b_pc s1) probe) now in
  b_pc (fst (bwe_timeout A FAR s now probe alr e c)) = fst r /\
  b_upd (fst (bwe_timeout A FAR s now probe alr e c)) = b_upd s1 /\
  exists b, snd (bwe_timeout A FAR s now probe alr e c) = OProbe (snd r) b.
Proof.
  intros s now probe alr e c.
  destruct (des_keeps (b_pc s) (b_desired s)) as (D1 & D2 & D3).
  destruct (alr_keeps (set_desired A (b_pc s) (b_desired s)) alr now) as (E1 & E2 & E3).
  eexists. split; [rewrite E1; exact D1|]. split; [rewrite E2; exact D2|]. split; [rewrite E3; exact D3|].
  cbv zeta. unfold bwe_timeout. cbv zeta.
  destruct (pc_timeout A FAR _ now) as [p3 [g|]]; [destruct (probe_start FAR _ g now)|]; cbn; eauto.
Qed.
Lemma stuck_step : forall v s o s' y, stuck v s -> same v o -> bwe_step A FAR s o = (s', y) ->
  stuck v s' /\ probes [(o, y)] = [].
Proof.
  intros v s o s' y (K1 & K2 & K3) (Hr & Hv) H. destruct o as [d|now probe alr e c|rs pr e c|now id|].
  - injection H as <- <-. repeat split; auto.
  - cbn [bwe_step] in H. destruct (timeout_shape s now probe alr e c) as (p2 & E1 & E2 & E3 & Q). rewrite H in Q. cbv zeta in Q.
    rewrite (prop_same v) in Q; [|exact K2|]. 2:{ intros x ->. exact (Hv (x, c) (or_introl eq_refl)). }
    cbn [b_pc b_upd fst snd] in Q. rewrite K1 in E1. rewrite K3 in E2.
    assert (X : p_est (enable FAR p2 probe) = None /\ p_pend (enable FAR p2 probe) = []).
    { unfold enable. destruct (negb (p_en p2) && probe); [auto|]. destruct (p_en p2 && negb probe); [split; reflexivity|auto]. }
    remember (enable FAR p2 probe) as p eqn:Ep. clear Ep. destruct X as (X1 & X2).
    assert (Et : exists p3, pc_timeout A FAR p now = (p3, None) /\ p_est p3 = None /\ p_pend p3 = []).
    { unfold pc_timeout. destruct (now <? p_next p); [eauto|]. cbn [p_en p_des p_est set_next]. rewrite X1.
      destruct (negb (p_en p)); [eexists; split; [reflexivity|cbn; auto]|].
      destruct (p_des p); eexists; (split; [reflexivity|cbn; auto]). }
    destruct Et as (p3 & Et & E5 & E6). rewrite Et in Q. cbn [fst snd] in Q. destruct Q as (Q1 & Q2 & b & Q3). subst y.
    unfold stuck. rewrite Q1, Q2. auto.
  - cbn [bwe_step] in H. destruct (est_feedback A (b_est s) rs) as [l res]. injection H as <- <-. split; [|reflexivity].
    destruct pr; [|repeat split; auto]. rewrite (prop_same v); [repeat split; auto|exact K2|].
    intros x ->. exact (Hv (x, c) (or_introl eq_refl)).
  - injection H as <- <-. repeat split; auto.
  - congruence.
Qed.
Lemma stuck_run : forall v ops s, stuck v s -> Forall (same v) ops -> probes (snd (bwe_run A FAR s ops)) = [].
Proof.
  intros v ops. induction ops as [|o ops IH]; intros s K F; [reflexivity|]. cbn [bwe_run].
  destruct (bwe_step A FAR s o) as [s1 y] eqn:E. destruct (bwe_run A FAR s1 ops) as [s2 h] eqn:E2. cbn [snd].
  inversion F; subst. destruct (stuck_step _ _ _ _ _ K H1 E) as (K1 & K2).
  change ((o, y) :: h) with ([(o, y)] ++ h). rewrite probes_app, K2. cbn [app].
  replace h with (snd (bwe_run A FAR s1 ops)) by (rewrite E2; reflexivity). apply IH; assumption.
Qed.
Theorem C56_probing_resumes_refuted : laws A -> forall s t1 alr1 c1 t2 alr2 c2 v more, Forall (same v) more ->
  let s1 := fst (bwe_step A FAR s (BTimeout t1 true alr1 (Some v) c1)) in
  let s2 := fst (bwe_step A FAR s1 (BTimeout t2 false alr2 (Some v) c2)) in
  probes (snd (bwe_run A FAR s2 more)) = [].
Proof.
  intros L s t1 alr1 c1 t2 alr2 c2 v more F s1 s2. apply stuck_run with (v := v); [|exact F].
  assert (E1 : p_en (b_pc s1) = true /\ exists w, b_upd s1 = Some w /\ eqb A w v = true).
  { unfold s1. cbn [bwe_step]. destruct (timeout_shape s t1 true alr1 (Some v) c1) as (p2 & X1 & X2 & X3 & Q1 & Q2 & _).
    cbv zeta in Q1, Q2. rewrite Q1, Q2, pc_en. split.
    - apply (proj1 (enable_spec B FAR _ true)).
    - unfold propagate. cbn [b_upd]. destruct (b_upd s) as [w|] eqn:U; cbn [beq_opt].
      + destruct (eqb A w v) eqn:W; [exists w; auto|exists v; split; [reflexivity|apply (eqb_refl L)]].
      + exists v. split; [reflexivity|apply (eqb_refl L)]. }
  clearbody s1. destruct E1 as (E1 & E2). unfold s2. cbn [bwe_step].
  destruct (timeout_shape s1 t2 false alr2 (Some v) c2) as (p2 & X1 & X2 & X3 & Q1 & Q2 & _). cbv zeta in Q1, Q2.
  rewrite (prop_same v) in Q1, Q2; [|exact E2|intros x X; injection X as <-; reflexivity|exact E2|intros x X; injection X as <-; reflexivity].
  cbn [b_pc b_upd] in Q1, Q2. unfold stuck. rewrite Q1, Q2.
  assert (En : enable FAR p2 false = mkP false FAR None (p_pdes p2) None None (p_cs p2) None (p_alr0 p2) (p_alr1 p2) None (p_drop p2) None (p_nid p2) [] None None None).
  { unfold enable. rewrite X3, E1. reflexivity. }
  rewrite En. unfold pc_timeout. cbn [p_next]. destruct (t2 <? FAR); cbn; auto.
Qed.
End P.

(** ** Cases *)
(** Bits per second as whole numbers. *)
Definition zarith : arith Z :=
  mkArith Z.ltb Z.leb Z.eqb Z.min (fun b q => b * Qnum q / Z.pos (Qden q)) 0 5000 (10 ^ 15)
    (fun bytes ns => bytes * 8 * SEC / ns) (fun a b => 2 * b <? a) (fun r => r * 15 / 8000 * 8 / 10).
Lemma zlaws : laws zarith.
Proof. constructor; cbn; intros; lia. Qed.
Definition C56_far : Z := 10 ^ 18.
Definition C56_run (ops : list (bop Z)) := bwe_run zarith C56_far (bwe_new zarith C56_far) ops.
(** Two probes of 900 kbit/s and 1.8 Mbit/s to start with, then, the first over 70 % of which were carried, an
    exponential one, and a periodic one while the application limits the rate. *)
Definition C56_ops : list (bop Z) :=
  [BDesired 2000000; BTimeout 0 true None (Some 300000) LossIncreasing; BTimeout 1 true None (Some 300000) LossIncreasing;
   BTimeout 2 true None (Some 300000) LossIncreasing; BTimeout 1000000000 true None (Some 1300000) LossIncreasing;
   BTimeout 7000000000 true (Some 6500000000) (Some 1300000) DelayLimited].
Example C56_probes : probes (snd (C56_run C56_ops)) =
  [mkC 0 900000 KInitial; mkC 1 1800000 KInitial; mkC 2 2047500 KExponential; mkC 3 4000000 KPeriodicAlr].
Proof. vm_compute. reflexivity. Qed.
Example C56_poll : exists s, fst (bwe_step zarith C56_far (fst (C56_run (firstn 3 C56_ops))) (BTimeout 2 true None (Some 300000) LossIncreasing)) = s
  /\ bwe_poll s = 2 + SEC.
Proof. eexists. split; [reflexivity|]. vm_compute. reflexivity. Qed.
(** The interruption: no probe any more, in whatever time; with another estimate they come. *)
Example C56_stuck : length (probes (snd (C56_run (firstn 3 C56_ops ++ [BTimeout 10 false None (Some 300000) LossIncreasing;
    BTimeout 20 true None (Some 300000) LossIncreasing; BTimeout 100000000000 true None (Some 300000) LossIncreasing])))) = 2%nat
  /\ length (probes (snd (C56_run (firstn 3 C56_ops ++ [BTimeout 10 false None (Some 300000) LossIncreasing;
    BTimeout 20 true None (Some 300001) LossIncreasing; BTimeout 100000000000 true None (Some 300001) LossIncreasing])))) = 4%nat.
Proof. vm_compute. auto. Qed.
(** A reset starts the cluster ids anew: the feedback on packets of a probe from before it is taken for feedback on
    the first probe after it. *)
Definition C56_old_packets : list srec :=
  map (fun i => mkR (Some 0) (Some (5000000 + i * 10000000)) (1000000 + i * 10000000) 1200) [0; 1; 2; 3; 4].
Theorem C56_ids_unique_across_reset_refuted : exists ops fb g1 g2 b y1 y2,
  snd (C56_run ops) = [(BDesired 2000000, OUnit); (BTimeout 0 true None (Some 300000) LossIncreasing, OProbe (Some g1) y1);
    (BReset, OUnit); (BTimeout 200000000 true None (Some 300000) LossIncreasing, OProbe (Some g2) y2);
    (BUpdate fb false None LossIncreasing, OResults [(g2, b)])]
  /\ c_id g1 = c_id g2 /\ Forall (fun r => r_send r < 200000000) fb.
Proof.
  exists [BDesired 2000000; BTimeout 0 true None (Some 300000) LossIncreasing; BReset;
    BTimeout 200000000 true None (Some 300000) LossIncreasing; BUpdate C56_old_packets false None LossIncreasing], C56_old_packets.
  do 5 eexists. split; [vm_compute; reflexivity|]. split; [reflexivity|].
  unfold C56_old_packets. repeat constructor; cbn; lia.
Qed.
(** A result: five packets in 40 ms, received in 40 ms. *)
Example C56_result : exists h b, snd (C56_run (firstn 2 C56_ops ++ [BUpdate C56_old_packets false None LossIncreasing])) =
  h ++ [(BUpdate C56_old_packets false None LossIncreasing, OResults [(mkC 0 900000 KInitial, b)])] /\ b = 960000.
Proof. eexists [_; _], _. split; [vm_compute; reflexivity|reflexivity]. Qed.
Print Assumptions C56_probe_justified.
Print Assumptions C56_probe_capped.
Print Assumptions C56_probing_begins.
Print Assumptions C56_ids_increase.
Print Assumptions C56_no_busy_loop.
Print Assumptions C56_result_measured.
Print Assumptions C56_clusters_bounded.
Print Assumptions C56_probing_resumes_refuted.
Print Assumptions C56_ids_unique_across_reset_refuted.

From Coq Require Import QArith Lia Sorted.
From Verif Require Import Base BaseFacts ProbeModel ProbeSpec ProbeProofs ProbeProofs2 ProbeProofs3 ProbeProofs4.
Open Scope Z_scope.

Section P.
Variables (B : Type) (A : arith B) (FAR : Z).
Notation hist := (list (bop B * bout B)).

(** * Cluster ids *)
Definition P (h : hist) : list (cfg B) := probes (since_reset h []).
Lemma P_snoc : forall (h : hist) x, P (h ++ [x]) = match fst x with BReset => [] | _ => P h ++ probes [x] end.
Proof.
  intros h [o y]. unfold P. rewrite since_reset_snoc. cbn [fst]. destruct o; try reflexivity; apply probes_app.
Qed.
Lemma zs : forall (h : hist) x, zlen (h ++ [x]) = zlen h + 1.
Proof. intros. unfold zlen. rewrite app_length. cbn [length]. lia. Qed.
Definition idv (h : hist) (p : pctl B) : Prop :=
  StronglySorted Z.lt (map c_id (P h ++ p_pend p)) /\ Forall (fun g => c_id g < p_nid p) (P h ++ p_pend p)
  /\ 0 <= p_nid p <= 2 * zlen h.

Lemma sorted_snoc : forall l (x : Z), StronglySorted Z.lt l -> Forall (fun y => y < x) l -> StronglySorted Z.lt (l ++ [x]).
Proof.
  induction l as [|a l IH]; intros x S F; cbn [app]; [repeat constructor|].
  inversion S; subst. inversion F; subst. constructor; [apply IH; assumption|].
  apply Forall_app. split; [assumption|repeat constructor; assumption].
Qed.
Lemma sorted_prefix : forall l1 l2 : list Z, StronglySorted Z.lt (l1 ++ l2) -> StronglySorted Z.lt l1.
Proof.
  induction l1 as [|a l IH]; intros l2 S; [constructor|]. cbn [app] in S. inversion S; subst.
  constructor; [eauto|]. apply Forall_app in H2. apply H2.
Qed.
Lemma idv_add : forall (l : list (cfg B)) g n, StronglySorted Z.lt (map c_id l) -> Forall (fun g => c_id g < n) l -> c_id g = n ->
  StronglySorted Z.lt (map c_id (l ++ [g])) /\ Forall (fun g => c_id g < n + 1) (l ++ [g]).
Proof.
  intros l g n S F E. split.
  - rewrite map_app. apply sorted_snoc; [exact S|]. apply Forall_map. rewrite E. exact F.
  - apply Forall_app. split; [eapply Forall_impl; [|exact F]; cbn; intros; lia|]. constructor; [lia|constructor].
Qed.

Lemma idv_timeout : forall h s now probe alr eo c s' y, idv h (b_pc s) -> 2 * (zlen h + 1) < 2 ^ 64 ->
  (p_en (b_pc s) = false -> p_pend (b_pc s) = [] /\ p_last (b_pc s) = None) ->
  bwe_timeout A FAR s now probe alr eo c = (s', y) -> idv (h ++ [(BTimeout now probe alr eo c, y)]) (b_pc s').
Proof.
  intros h s now probe alr eo c s' y (S & F & Bd) Hb Off H. unfold bwe_timeout in H.
  set (p0 := b_pc (propagate A _ eo c)) in H.
  assert (K : p_pend p0 = p_pend (b_pc s) /\ p_nid p0 = p_nid (b_pc s) /\ p_last p0 = p_last (b_pc s) /\ p_en p0 = p_en (b_pc s)).
  { unfold p0, propagate. destruct (desired_spec B A (b_pc s) (b_desired s)) as (D1 & _).
    apply (f_equal (fun x => fst (fst (fst (fst (fst (fst x))))))) in D1.
    change (core B (set_desired A (b_pc s) (b_desired s)) = core B (b_pc s)) in D1.
    remember (set_desired A (b_pc s) (b_desired s)) as p1 eqn:E1. clear E1.
    assert (C : core B (match alr with Some t => alr_started p1 t | None => alr_stopped p1 now end) = core B p1).
    { destruct alr; [unfold alr_started; destruct (p_alr0 p1)|unfold alr_stopped; destruct (p_alr0 p1), (p_alr1 p1)]; reflexivity. }
    rewrite D1 in C.
    remember (match alr with Some t => alr_started p1 t | None => alr_stopped p1 now end) as p2 eqn:E2. clear E2.
    assert (C2 : core B p2 = core B (b_pc s) -> p_pend p2 = p_pend (b_pc s) /\ p_nid p2 = p_nid (b_pc s)
                  /\ p_last p2 = p_last (b_pc s) /\ p_en p2 = p_en (b_pc s)).
    { unfold core. intros X. injection X as X1 X2 X3 X4 _ _. auto. }
    destruct eo as [v|]; [|exact (C2 C)]. cbn [b_upd]. match goal with |- context [if ?b then _ else _] => destruct b end.
    - exact (C2 C).
    - cbn [b_pc]. destruct (set_est_spec B A p2 v c) as (X & _).
      apply (f_equal (fun x => fst (fst (fst (fst (fst (fst x))))))) in X.
      change (core B (set_estimated A p2 v c) = core B p2) in X. rewrite C in X. unfold core in X.
      injection X as X1 X2 X3 X4 _ _. auto. }
  clearbody p0. destruct K as (K1 & K2 & K3 & K4).
  pose proof (enable_spec B FAR p0 probe) as En. cbv zeta in En.
  remember (enable FAR p0 probe) as p eqn:E4. clear E4.
  destruct En as (_ & _ & _ & _ & N5 & _ & _ & _ & _ & N10 & N11).
  destruct (pc_timeout A FAR p now) as [p3 og] eqn:Et. apply pc_cases in Et.
  assert (Hy : b_pc s' = p3 /\ exists b, y = OProbe og b).
  { destruct og; [destruct (probe_start FAR _ c0 now)|]; injection H as <- <-; cbn; eauto. }
  clear H. destruct Hy as (-> & b & ->).
  assert (Kp : p_pend p = p_pend (b_pc s) \/ p_pend p = []).
  { destruct probe; [left; rewrite (proj1 (N10 eq_refl)); exact K1|right]. apply N11; [reflexivity|]. rewrite K1, K3, K4. exact Off. }
  assert (Sp : StronglySorted Z.lt (map c_id (P h ++ p_pend p)) /\ Forall (fun g => c_id g < p_nid p) (P h ++ p_pend p)).
  { rewrite N5, K2. destruct Kp as [->| ->]; [auto|]. rewrite app_nil_r. rewrite map_app in S. split; [eapply sorted_prefix; exact S|].
    apply Forall_app in F. apply F. }
  assert (Bd' : 0 <= p_nid p <= 2 * zlen h) by (rewrite N5, K2; exact Bd). clear S F Bd Kp N10 N11 K1 K2 K3 K4 N5.
  destruct Sp as (S & F). unfold idv. rewrite P_snoc. cbn [fst]. rewrite zs.
  inversion Et as [Hc Hk Ho|g r He Hc Hg Hk Ho|d e q oo He Hc Hg Hd Hes Pm Hq Hl Hn Hpe Hdr Hpd Hno].
  - subst og. unfold core in Hk. injection Hk as G1 G2 G3 G4 G5 G6. cbn [probes flat_map snd app]. rewrite app_nil_r, G2, G4.
    repeat split; auto; lia.
  - subst og. unfold core in Hk. injection Hk as G1 G2 G3 G4 G5 G6. cbn [probes flat_map snd app]. rewrite G2, G4.
    rewrite <- app_assoc. cbn [app]. rewrite Hg in S, F. repeat split; auto; lia.
  - subst oo. rewrite Hg, app_nil_r in S, F.
    assert (Pr : (P h ++ probes [(BTimeout now probe alr eo c, OProbe og b)]) ++ p_pend p3 = P h ++ p_pend q).
    { rewrite <- app_assoc. f_equal. rewrite Hpd. destruct og; reflexivity. }
    rewrite Pr, Hn. destruct Hq as (_ & _ & [(X1 & X2 & X3)|[(g & X1 & X2 & X3 & X4 & X5)|(g1 & g2 & X1 & X2 & X3 & X4 & X5 & X6 & X7 & X8)]]).
    + rewrite X1, X3, app_nil_r. repeat split; auto; lia.
    + rewrite X1, X4. rewrite Z.mod_small by lia. destruct (idv_add _ _ _ S F X3). repeat split; auto; lia.
    + rewrite X1, X6. rewrite (Z.mod_small (p_nid p + 1)) in X4, X6 |- * by lia. rewrite Z.mod_small by lia.
      destruct (idv_add _ _ _ S F X3) as (S1 & F1). destruct (idv_add _ _ _ S1 F1 X4) as (S2 & F2).
      change [g1; g2] with ([g1] ++ [g2]). rewrite app_assoc. repeat split; auto; lia.
Qed.

Hypothesis L : laws A.
Lemma idv_run : forall ops h s s' h', inv B A h s -> idv h (b_pc s) -> 2 * (zlen h + zlen ops) < 2 ^ 64 ->
  bwe_run A FAR s ops = (s', h') -> idv (h ++ h') (b_pc s').
Proof.
  induction ops as [|o ops IH]; intros h s s' h' I V Hb H; cbn [bwe_run] in H.
  - injection H as <- <-. rewrite app_nil_r. exact V.
  - rewrite zlen_cons in Hb. pose proof (zlen_nonneg ops) as Ho.
    destruct (bwe_step A FAR s o) as [s1 y] eqn:E. destruct (bwe_run A FAR s1 ops) as [s2 h2] eqn:E2. injection H as <- <-.
    destruct (other_step B A FAR L _ _ _ _ _ I E) as (_ & I1).
    assert (V1 : idv (h ++ [(o, y)]) (b_pc s1)).
    { assert (Keep : forall b, b_pc s1 = b -> p_pend b = p_pend (b_pc s) -> p_nid b = p_nid (b_pc s) -> probes [(o, y)] = [] -> o <> BReset ->
                       idv (h ++ [(o, y)]) (b_pc s1)).
      { intros b -> E3 E4 E5 E6. destruct V as (V1 & V2 & V3). unfold idv. rewrite P_snoc. cbn [fst]. rewrite zs.
        destruct o; try congruence; rewrite E5, app_nil_r, E3, E4; repeat split; auto; lia. }
      destruct o as [v|now probe alr eo c|fb pr eo c|now id|].
      - injection E as <- <-. eapply Keep; try reflexivity. discriminate.
      - cbn [bwe_step] in E. eapply idv_timeout; eauto; [lia|]. apply (i_off _ _ _ _ I).
      - cbn [bwe_step] in E. destruct (est_feedback A (b_est s) fb) as [l res]. injection E as <- <-. destruct pr.
        + unfold propagate in *. destruct eo as [v|]; [|eapply Keep; try reflexivity; discriminate]. cbn [b_upd] in *.
          destruct (beq_opt A (b_upd s) (Some v)); [eapply Keep; try reflexivity; discriminate|].
          destruct (set_est_spec B A (b_pc s) v c) as (X & _).
          apply (f_equal (fun x => fst (fst (fst (fst (fst (fst x))))))) in X.
          change (core B (set_estimated A (b_pc s) v c) = core B (b_pc s)) in X. unfold core in X. injection X as X1 X2 X3 X4 _ _.
          eapply Keep; [reflexivity|exact X2|exact X4|reflexivity|discriminate].
        + eapply Keep; try reflexivity; discriminate.
      - injection E as <- <-. eapply Keep; try reflexivity. discriminate.
      - injection E as <- <-. unfold idv. rewrite P_snoc. cbn [fst b_pc pc_new p_pend p_nid app map].
        rewrite zs. pose proof (zlen_nonneg h). repeat split; try constructor; lia. }
    replace (h ++ (o, y) :: h2) with ((h ++ [(o, y)]) ++ h2) by (rewrite <- app_assoc; reflexivity).
    eapply IH; [exact I1|exact V1| |exact E2]. rewrite zs. lia.
Qed.
Lemma ids_sorted : forall ops, 2 * zlen ops < 2 ^ 64 ->
  StronglySorted Z.lt (map c_id (P (snd (bwe_run A FAR (bwe_new A FAR) ops)))).
Proof.
  intros ops Hb. destruct (bwe_run A FAR (bwe_new A FAR) ops) as [s' h'] eqn:E. cbn [snd].
  assert (V : idv [] (b_pc (bwe_new A FAR))) by (repeat split; try constructor; cbn; lia).
  assert (Hb' : 2 * (zlen (@nil (bop B * bout B)) + zlen ops) < 2 ^ 64) by (change (zlen (@nil (bop B * bout B))) with 0; rewrite Z.add_0_l; exact Hb).
  pose proof (idv_run _ _ _ _ _ (inv_new B A FAR) V Hb' E) as (S & _). cbn [app] in S.
  rewrite map_app in S. exact (sorted_prefix _ _ S).
Qed.

(** * No busy loop *)
Definition sched (p : pctl B) := (p_sexp p, p_salr p, p_sstag p).
Definition idl (p : pctl B) : Prop := p_des p <> None -> sched p = (None, None, None).
Lemma q_sched : forall p r k d now, sched (queue_probe A p r k d now) = sched p.
Proof. intros. unfold queue_probe. destruct (lt A _ _); reflexivity. Qed.
Lemma decide_sched : forall p now d e, sched (decide A p now d e) = sched p.
Proof.
  intros p now d e. unfold decide.
  assert (Q1 : sched (fst (maybe_initial A p now d e)) = sched p).
  { unfold maybe_initial. destruct (p_last p); cbn [fst]; rewrite ?q_sched; reflexivity. }
  destruct (maybe_initial A p now d e) as [s1 b1]. cbn [fst] in Q1. destruct b1; [exact Q1|]. rewrite <- Q1. clear Q1.
  assert (Q1 : sched (fst (maybe_exponential A s1 now d e)) = sched s1).
  { unfold maybe_exponential. destruct (p_pend s1); [|reflexivity]. destruct (p_last s1); [|reflexivity].
    repeat match goal with |- context [if ?b then _ else _] => destruct b end; cbn [fst]; rewrite ?q_sched; reflexivity. }
  destruct (maybe_exponential A s1 now d e) as [s2 b2]. cbn [fst] in Q1. destruct b2; [exact Q1|]. rewrite <- Q1. clear Q1.
  assert (Q1 : sched (fst (maybe_increase A s2 now d e)) = sched s2).
  { unfold maybe_increase. destruct (during_initial s2 now); [reflexivity|]. destruct (in_alr s2); [|reflexivity]. cbn [negb].
    destruct (p_pdes s2); [|reflexivity].
    repeat match goal with |- context [if ?b then _ else _] => destruct b end; cbn [fst]; rewrite ?q_sched; reflexivity. }
  destruct (maybe_increase A s2 now d e) as [s3 b3]. cbn [fst] in Q1. destruct b3; [exact Q1|]. rewrite <- Q1. clear Q1.
  assert (Q1 : sched (fst (maybe_drop A s3 now d e)) = sched s3).
  { unfold maybe_drop. destruct (during_initial s3 now); [reflexivity|].
    match goal with |- context [match p_drop ?x with _ => _ end] =>
      match x with s3 => fail 1 | _ => assert (Z : sched x = sched s3) end end.
    { destruct (p_drop s3), (p_pest s3); try reflexivity. destruct (lt A e _); reflexivity. }
    revert Z. generalize (match p_drop s3 with Some _ => s3 | None => match p_pest s3 with
       Some prev => if lt A e (mul A prev (66 # 100)) then set_drop s3 (Some (now, prev)) else s3 | None => s3 end end).
    intros z Z. destruct (p_drop z) as [[t bf]|]; [|exact Z].
    repeat match goal with |- context [if ?b then _ else _] => destruct b end; cbn [fst]; try exact Z.
    change (sched (queue_probe A z (mul A bf (85 # 100)) KLargeDrop d now) = sched s3). rewrite q_sched. exact Z. }
  destruct (maybe_drop A s3 now d e) as [s4 b4]. cbn [fst] in Q1. destruct b4; [exact Q1|]. rewrite <- Q1. clear Q1.
  assert (Q1 : sched (fst (maybe_periodic A s4 now d)) = sched s4).
  { unfold maybe_periodic. repeat match goal with |- context [if ?b then _ else _] => destruct b end; cbn [fst]; rewrite ?q_sched; reflexivity. }
  destruct (maybe_periodic A s4 now d) as [s5 b5]. cbn [fst] in Q1. destruct b5; [exact Q1|]. rewrite <- Q1. clear Q1.
  unfold maybe_stagnant. destruct (during_initial s5 now); [reflexivity|]. destruct (in_alr s5); [reflexivity|].
  destruct (p_chg s5); [|reflexivity].
  repeat match goal with |- context [if ?b then _ else _] => destruct b end; cbn [fst]; try reflexivity.
  all: exact (q_sched s5 (mul A e 2) KStagnant d now).
Qed.
Lemma gaps : forall now, now < now + WAIT_RESULT /\ now < now + ALR_GAP /\ now < now + STAG_GAP.
Proof. intros. assert (0 < WAIT_RESULT /\ 0 < ALR_GAP /\ 0 < STAG_GAP) by (repeat split; reflexivity). lia. Qed.
Lemma pc_next : forall p now p' o, idl p -> now < FAR -> pc_timeout A FAR p now = (p', o) ->
  match o with None => now < p_next p' | Some _ => p_next p' = 0 end.
Proof.
  intros p now p' o Hi Hf H. unfold pc_timeout in H. destruct (now <? p_next p) eqn:En; [injection H as <- <-; lia|].
  destruct (negb _); [injection H as <- <-; exact Hf|].
  cbn [p_des p_est p_pend set_next] in H. destruct (p_des p) as [d|] eqn:Ed; [|injection H as <- <-; exact Hf].
  destruct (p_est p) as [e|]; [|injection H as <- <-; exact Hf].
  destruct (p_pend p) as [|g r] eqn:Ep; [|injection H as <- <-; reflexivity].
  destruct (negb _); [injection H as <- <-; exact Hf|].
  assert (Sq : sched (set_pest (update_change A (decide A (set_next p FAR) now d e) now e) (Some e)) = (None, None, None)).
  { transitivity (sched p); [|apply Hi; congruence]. transitivity (sched (decide A (set_next p FAR) now d e)); [|exact (decide_sched (set_next p FAR) now d e)].
    generalize (decide A (set_next p FAR) now d e). intros q. unfold update_change.
    destruct (p_pest q); [destruct (eqb A e _)|];
        match goal with |- context [match p_chg ?x with _ => _ end] => destruct (p_chg x) end; reflexivity. }
  revert Sq H. generalize (set_pest (update_change A (decide A (set_next p FAR) now d e) now e) (Some e)). intros q Sq H.
  unfold sched in Sq. injection Sq as S1 S2 S3. pose proof (gaps now) as Hg. unfold next_timeout in H. rewrite S1, S2, S3 in H.
  destruct (match p_last q with Some l => is_ini (l_kind l) | None => false end); [|destruct (in_alr q)];
    cbn [p_pend set_next set_sexp set_salr set_sstag] in H; destruct (p_pend q);
    injection H as <- <-; cbn [p_next set_next set_pend immediate set_sstag set_salr set_sexp]; try reflexivity; apply Hg.
Qed.
Lemma no_spin : forall s now probe alr eo c s' o b, now < FAR ->
  bwe_timeout A FAR s now probe alr eo c = (s', OProbe o b) ->
  match o with None => now < p_next (b_pc s') | Some _ => p_next (b_pc s') = 0 end.
Proof.
  intros s now probe alr eo c s' o b Hf H. unfold bwe_timeout in H.
  assert (I1 : idl (set_desired A (b_pc s) (b_desired s))).
  { unfold set_desired. destruct (p_des (b_pc s)) eqn:E; [intros _; reflexivity|].
    destruct (eqb A (b_desired s) (ZERO A)); [|intros _; reflexivity]. intros X. congruence. }
  remember (set_desired A (b_pc s) (b_desired s)) as p1 eqn:E1. clear E1.
  assert (I2 : idl (match alr with Some t => alr_started p1 t | None => alr_stopped p1 now end)).
  { destruct alr; [unfold alr_started; destruct (p_alr0 p1)|unfold alr_stopped; destruct (p_alr0 p1), (p_alr1 p1)];
      try exact I1; intros _; reflexivity. }
  remember (match alr with Some t => alr_started p1 t | None => alr_stopped p1 now end) as p2 eqn:E2. clear E2.
  set (s1 := propagate A _ eo c) in H.
  assert (I3 : idl (b_pc s1)).
  { unfold s1, propagate. destruct eo as [v|]; [|exact I2]. match goal with |- context [if ?b then _ else _] => destruct b end; [exact I2|].
    cbn [b_pc]. unfold set_estimated. destruct (p_est p2);
      match goal with |- context [if ?b then _ else _] => destruct b end; try exact I2; intros _; reflexivity. }
  assert (I4 : idl (enable FAR (b_pc s1) probe)).
  { unfold enable. repeat match goal with |- context [if ?b then _ else _] => destruct b end; try exact I3; intros X; try reflexivity. }
  destruct (pc_timeout A FAR (enable FAR (b_pc s1) probe) now) as [p3 og] eqn:Et.
  pose proof (pc_next _ _ _ _ I4 Hf Et) as Q.
  destruct og; [destruct (probe_start FAR _ c0 now)|]; injection H as <- <- <-; exact Q.
Qed.
End P.

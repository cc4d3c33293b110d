(** Facts about receive registers used for whole sessions. *)
From Verif Require Import Base BaseFacts SeqModel SeqProofs NackModel NackProofs NackProofs2 NackProofs3 RegisterModel.

Definition RG (n : nreg) : Prop := exists A C, Gh n A C.

Lemma gh_shut n A C q s e : Gh n A C -> active n = Some (s, e) -> accepts n q = false -> q < s \/ A q.
Proof.
  intros G EA X. unfold accepts in X. rewrite EA in X. destruct (q <? s) eqn:E1; [left; lia|]. right.
  apply orb_false_iff in X as [X1 X2]. destruct G as [_ G]. rewrite EA in G. destruct G as (_ & _ & G2 & _). apply G2; [lia|].
  destruct (received (packet (packets n) q)); [reflexivity|discriminate].
Qed.
Lemma upd_start n A C q s e s' e' : Gh n A C -> active n = Some (s, e) -> active (fst (update n q)) = Some (s', e') -> s <= s' /\ e <= e'.
Proof.
  intros G EA EA'. destruct (Z.lt_ge_cases q s) as [Lq|Gq].
  - rewrite (update_old _ q s e EA Lq) in EA'. cbn [fst] in EA'. rewrite EA in EA'. inversion EA'; subst; lia.
  - pose proof (up_t n s e q EA (proj1 G) Gq) as UT. cbv zeta in UT.
    rewrite (update_unfold _ s e q EA Gq) in EA'. cbn [fst active] in EA'. inversion EA' as [[E1 E2]]. rewrite E1 in UT. lia.
Qed.
Lemma upd_active n q : exists s e, active (fst (update n q)) = Some (s, e).
Proof.
  unfold update. destruct (active n) as [[s e]|] eqn:EA; [|cbn; eauto]. destruct (q <? s); cbn [fst active]; eauto.
Qed.

Lemma rg_update n q : 0 <= q -> RG n -> RG (fst (update n q)).
Proof. intros Hq (A & C & G). do 2 eexists. apply update_gh; eassumption. Qed.
Lemma shut_update n p q : 0 <= p -> RG n -> accepts n q = false -> accepts (fst (update n p)) q = false.
Proof.
  intros Hp (A & C & G) X. destruct (active n) as [[s e]|] eqn:EA.
  2:{ unfold accepts in X. rewrite EA in X. discriminate. }
  destruct (upd_active n p) as (s' & e' & EA'). pose proof (upd_start _ _ _ _ _ _ _ _ G EA EA') as [M _].
  pose proof (update_gh n A C p Hp G) as G'. destruct (accepts (fst (update n p)) q) eqn:X'; [|reflexivity]. exfalso.
  apply (accepts_gh _ _ _ q s' e' G' EA') in X' as [Y1 Y2]. destruct (gh_shut _ _ _ _ _ _ G EA X); [lia|]. apply Y2. left. assumption.
Qed.
Lemma shut_self n q : 0 <= q -> RG n -> accepts (fst (update n q)) q = false.
Proof.
  intros Hq (A & C & G). pose proof (update_gh n A C q Hq G) as G'. destruct (accepts (fst (update n q)) q) eqn:X'; [|reflexivity]. exfalso.
  apply (accepts_sound _ _ _ _ G') in X'. apply X'. right. reflexivity.
Qed.
Lemma rg_new o : (forall q, o = Some q -> 0 <= q) -> RG (new_reg o).
Proof. intro H. do 2 eexists. apply new_gh. exact H. Qed.
Lemma shut_new mx q : q <= mx -> accepts (new_reg (Some mx)) q = false.
Proof.
  intro H. unfold accepts, new_reg, init_with_seq. cbn [active packets]. destruct (q <? mx) eqn:E; [reflexivity|].
  replace q with mx by lia. rewrite packet_same. cbn. lia.
Qed.
Lemma open_new mx q : mx < q -> accepts (new_reg (Some mx)) q = true.
Proof. intro H. unfold accepts, new_reg, init_with_seq. cbn [active packets]. replace (q <? mx) with false by lia. replace (mx <? q) with true by lia. apply orb_true_r. Qed.
Lemma rg_nack n : RG n -> RG (fst (nack_reports n)).
Proof. intros (A & C & G). pose proof (report_gh n A C G) as R. cbn [nstep] in R. destruct (nack_reports n) as [n' l]. cbn [fst snd] in *. do 2 eexists. exact R. Qed.
Lemma nack_active n : RG n -> active (fst (nack_reports n)) = active n.
Proof.
  intros (A & C & G). destruct (active n) as [[s e]|] eqn:EA.
  - pose proof (nack_reports_spec _ s e (proj1 G) EA) as X. destruct (nack_reports n); cbn. destruct X as [X _]. congruence.
  - rewrite nack_reports_none by assumption. exact EA.
Qed.
Lemma shut_nack n q : RG n -> accepts n q = false -> accepts (fst (nack_reports n)) q = false.
Proof.
  intros H X. pose proof (nack_active n H) as EA. destruct H as (A & C & G). pose proof (report_gh n A C G) as R. cbn [nstep] in R.
  destruct (nack_reports n) as [n' l]. cbn [fst snd] in *. destruct (active n) as [[s e]|] eqn:E0.
  2:{ unfold accepts in X. rewrite E0 in X. discriminate. }
  destruct (accepts n' q) eqn:X'; [|reflexivity]. exfalso. apply (accepts_gh _ _ _ q s e R EA) in X' as [Y1 Y2].
  destruct (gh_shut _ _ _ _ _ _ G E0 X); [lia|auto].
Qed.
(** the largest number *)
Lemma upd_max n q : RG n -> max_seq (fst (update n q)) = Some (match max_seq n with Some e => Z.max e q | None => q end).
Proof.
  intros (A & C & G). unfold max_seq. destruct (active n) as [[s e]|] eqn:EA.
  - destruct (Z.lt_ge_cases q s) as [Lq|Gq].
    + rewrite (update_old _ q s e EA Lq). cbn [fst]. rewrite EA. f_equal. destruct G as [I _]. unfold Inv in I. rewrite EA in I. lia.
    + rewrite (update_unfold _ s e q EA Gq). cbn [fst active]. reflexivity.
  - rewrite update_none by assumption. reflexivity.
Qed.
Lemma rg_max_nonneg n e : RG n -> max_seq n = Some e -> 0 <= e.
Proof. intros (A & C & [I _]) E. unfold max_seq in E. destruct (active n) as [[s e']|] eqn:EA; [|discriminate]. inversion E; subst. unfold Inv in I. rewrite EA in I. lia. Qed.
Lemma rg_start n s e : RG n -> active n = Some (s, e) -> 0 <= s <= e /\ e <= s + 100.
Proof. intros (A & C & [I _]) E. unfold Inv in I. rewrite E in I. lia. Qed.

(** whole receive registers: [first] never exceeds the largest number *)
Definition RR (r : rreg) : Prop :=
  RG (rnack r) /\ (forall f, first r = Some f -> exists e, rmax_seq r = Some e /\ f <= e).
Lemma rr_new o : (forall q, o = Some q -> 0 <= q) -> RR (rnew o).
Proof. intro H. split; [apply rg_new; exact H|]. cbn. discriminate. Qed.
Lemma rupdate_snd r q : snd (rupdate r q) = raccepts r q.
Proof. unfold rupdate, raccepts. pose proof (update_accepts (rnack r) q). destruct (update (rnack r) q). cbn [snd] in *. assumption. Qed.
Lemma rupdate_nack r q : rnack (fst (rupdate r q)) = fst (update (rnack r) q).
Proof. unfold rupdate. destruct (update (rnack r) q). reflexivity. Qed.
Lemma rr_update r q : 0 <= q -> RR r -> RR (fst (rupdate r q)).
Proof.
  intros Hq [G F]. split; [rewrite rupdate_nack; apply rg_update; assumption|]. unfold rmax_seq. rewrite rupdate_nack, upd_max by exact G.
  intros f Ef. unfold rupdate in Ef. destruct (update (rnack r) q) as [nk nw]. cbn [fst first] in Ef.
  fold (rmax_seq r). destruct (first r) as [f0|] eqn:E0.
  - inversion Ef; subst. destruct (F f eq_refl) as (e & -> & L). eexists. split; [reflexivity|]. lia.
  - inversion Ef; subst. destruct (rmax_seq r); eexists; (split; [reflexivity|]; lia).
Qed.
Lemma rr_nack r : RR r -> RR (mkRreg (fst (nack_reports (rnack r))) (first r) (count r) (expected_prior r) (received_prior r)).
Proof.
  intros [G F]. split; cbn [rnack]; [apply rg_nack; exact G|]. unfold rmax_seq. cbn [rnack first]. unfold max_seq. rewrite nack_active by exact G. exact F.
Qed.
Lemma rr_report r : RR r -> RR (fst (reception_report r)) /\ snd (reception_report r) <> Panic /\ rnack (fst (reception_report r)) = rnack r.
Proof.
  intros [G F]. unfold reception_report. destruct (first r) as [f|] eqn:Ef; [|cbn; repeat split; [exact G|rewrite Ef; discriminate|discriminate]].
  destruct (F f eq_refl) as (e & Ee & L). rewrite Ee. unfold expected. replace (e <? f) with false by lia. cbn [fst snd rnack].
  split; [|split; [discriminate|reflexivity]]. split; cbn [rnack first]; [exact G|]. intros g Hg. inversion Hg; subst. exists e. split; [exact Ee|exact L].
Qed.

From Coq Require Import QArith Lia.
From Verif Require Import Base BaseFacts ProbeModel ProbeSpec ProbeProofs ProbeProofs2 ProbeProofs3.
Open Scope Z_scope.

Section P.
Variables (B : Type) (A : arith B) (FAR : Z).
Hypothesis L : laws A.
Notation hist := (list (bop B * bout B)).
Notation len l := (length (news A l None)).
Notation inv := (inv B A).

Lemma alr_spec : forall p now (alr : option Z), (p_alr0 p <> None -> p_alr1 p = None) ->
  let p2 := match alr with Some t => alr_started p t | None => alr_stopped p now end in
  core B p2 = core B p /\ p_est p2 = p_est p /\ p_cs p2 = p_cs p /\ p_des p2 = p_des p
  /\ in_alr p2 = match alr with Some _ => true | None => false end
  /\ (p_alr0 p2 <> None -> p_alr1 p2 = None).
Proof.
  intros p now alr H. destruct alr as [t|]; cbv zeta.
  - unfold alr_started. destruct (p_alr0 p) as [u|] eqn:E.
    + assert (E1 : p_alr1 p = None) by (apply H; discriminate). repeat split; auto.
      unfold in_alr. rewrite E, E1. reflexivity.
    + repeat split; auto.
  - unfold alr_stopped. destruct (p_alr0 p) as [u|] eqn:E.
    + rewrite H by discriminate. repeat split; auto; intros X. exfalso. apply X. reflexivity.
    + repeat split; auto; unfold in_alr; rewrite E; try reflexivity; intros X; exfalso; apply X; reflexivity.
Qed.
Lemma desired_spec : forall p (d : B), core2 B (set_desired A p d) = (core B p, p_alr0 p, p_alr1 p, p_des (set_desired A p d), p_chg p, p_stag p, p_pdes p)
  /\ p_est (set_desired A p d) = p_est p /\ p_cs (set_desired A p d) = p_cs p
  /\ forall v, p_des (set_desired A p d) = Some v -> v = d.
Proof.
  intros p d. unfold set_desired. destruct (p_des p) eqn:E.
  - repeat split; auto. cbn. congruence.
  - destruct (eqb A d (ZERO A)); (repeat split; auto); cbn; congruence.
Qed.
Lemma queued_rank : forall s s' now d e, queued B A s s' now d e ->
  p_pend s' = [] \/ (exists g, p_pend s' = [g]) \/ (exists g1 g2, p_pend s' = [g1; g2]).
Proof. intros s s' now d e (_ & _ & [(H & _)|[(g & H & _)|(g1 & g2 & H & _)]]); eauto 6. Qed.

Definition ok_out (h : hist) (o : bop B) (y : bout B) : Prop :=
  match y with OProbe (Some g) _ => justified A h o g | _ => True end.

Lemma enable_spec : forall (p : pctl B) v, let q := enable FAR p v in
  p_en q = v /\ p_alr0 q = p_alr0 p /\ p_alr1 q = p_alr1 p /\ p_cs q = p_cs p /\ p_nid q = p_nid p
  /\ (p_des q = p_des p \/ p_des q = None) /\ (p_est q = p_est p \/ (v = false /\ p_est q = None))
  /\ (p_pest q = p_pest p \/ p_pest q = None) /\ p_drop q = p_drop p
  /\ (v = true -> p_pend q = p_pend p /\ p_last q = p_last p /\ p_des q = p_des p)
  /\ (v = false -> (p_en p = false -> p_pend p = [] /\ p_last p = None) -> p_pend q = [] /\ p_last q = None).
Proof.
  intros p v q. subst q. unfold enable. destruct (p_en p) eqn:E, v; cbn [negb andb].
  - repeat split; auto; discriminate.
  - repeat split; auto; discriminate.
  - repeat split; auto; discriminate.
  - repeat split; auto; try discriminate; intuition.
Qed.

Lemma timeout_step : forall h s now probe alr eo c s' y, inv h s ->
  bwe_timeout A FAR s now probe alr eo c = (s', y) ->
  let o := BTimeout now probe alr eo c in
  ok_out h o y /\ inv (h ++ [(o, y)]) s'.
Proof.
  intros h s now probe alr eo c s' y I H o. unfold bwe_timeout in H.
  set (rs := R B h ++ reports o).
  assert (Ers : rs = R B h ++ rep B eo c) by (unfold rs; cbn [reports o]; destruct eo; reflexivity).
  assert (ER : forall y', R B (h ++ [(o, y')]) = rs) by (intros; rewrite R_snoc; reflexivity).
  destruct (desired_spec (b_pc s) (b_desired s)) as (D1 & D2 & D3 & D4).
  remember (set_desired A (b_pc s) (b_desired s)) as p1 eqn:E1. clear E1.
  assert (C1 : core B p1 = core B (b_pc s)) by exact (f_equal (fun x => fst (fst (fst (fst (fst (fst x)))))) D1).
  assert (C2 : p_alr0 p1 = p_alr0 (b_pc s)) by exact (f_equal (fun x => snd (fst (fst (fst (fst (fst x)))))) D1).
  assert (C3 : p_alr1 p1 = p_alr1 (b_pc s)) by exact (f_equal (fun x => snd (fst (fst (fst (fst x))))) D1).
  assert (Ia : p_alr0 p1 <> None -> p_alr1 p1 = None) by (rewrite C2, C3; apply (i_alr _ _ _ _ I)).
  pose proof (alr_spec p1 now alr Ia) as Al. cbv zeta in Al.
  remember (match alr with Some t => alr_started p1 t | None => alr_stopped p1 now end) as p2 eqn:E2. clear E2.
  destruct Al as (A1 & A2 & A3 & A4 & A5 & A6).
  set (s0 := mkB (b_desired s) p2 (est_timeout (b_est s) now) (b_upd s)) in H.
  assert (J0 : J B A (R B h) s0).
  { destruct (i_j _ _ _ _ I) as (J1 & J2). split; [exact J1|]. cbn [s0 b_pc]. intros v Hv. rewrite A3, D3.
    apply J2. rewrite <- D2, <- A2. exact Hv. }
  destruct (prop_spec B A (R B h) s0 eo c J0) as (J3 & P1 & P2 & _ & P3 & P4). rewrite <- Ers in J3, P3, P4.
  remember (propagate A s0 eo c) as s1 eqn:E3. clear E3 J0.
  assert (P5 : p_alr0 (b_pc s1) = p_alr0 p2) by exact (f_equal (fun x => snd (fst (fst (fst (fst (fst x)))))) P1).
  assert (P6 : p_alr1 (b_pc s1) = p_alr1 p2) by exact (f_equal (fun x => snd (fst (fst (fst (fst x))))) P1).
  assert (P7 : p_des (b_pc s1) = p_des p2) by exact (f_equal (fun x => snd (fst (fst (fst x)))) P1).
  apply (f_equal (fun x => fst (fst (fst (fst (fst (fst x))))))) in P1. cbn [core2 fst] in P1.
  change (core B (b_pc s1) = core B p2) in P1. cbn [s0 b_pc b_desired] in P2, P3.
  rewrite A1, C1 in P1. unfold core in P1. injection P1 as K1 K2 K3 K4 K5 K6.
  pose proof (enable_spec (b_pc s1) probe) as En. cbv zeta in En.
  remember (enable FAR (b_pc s1) probe) as p eqn:E4. clear E4.
  destruct En as (N1 & N2 & N3 & N4 & N5 & N6 & N7 & N8 & N9 & N10 & N11).
  destruct (pc_timeout A FAR p now) as [p3 og] eqn:Et. apply pc_cases in Et.
  assert (Hy : exists l' b, s' = mkB (b_desired s1) p3 l' (b_upd s1) /\ y = OProbe og b).
  { destruct og; [destruct (probe_start FAR _ c0 now)|]; injection H as <- <-; eauto. }
  clear H. destruct Hy as (l' & b & -> & ->).
  assert (Ade : b_desired s1 = desired (h ++ [(o, OProbe og b)]) (ZERO A)).
  { rewrite desired_snoc. cbn [fst o]. rewrite P2. apply (i_des _ _ _ _ I). }
  assert (Apest : forall v, p_pest p = Some v -> In v (map fst rs)).
  { intros v Hv. destruct N8 as [X|X]; rewrite X in Hv; [|discriminate]. rewrite K5 in Hv.
    unfold rs. rewrite map_app. apply in_or_app. left. apply (i_pest _ _ _ _ I). exact Hv. }
  assert (Adrop : forall t v, p_drop p = Some (t, v) -> In v (map fst rs)).
  { intros t v Hv. rewrite N9, K6 in Hv. unfold rs. rewrite map_app. apply in_or_app. left. eapply (i_drop _ _ _ _ I). exact Hv. }
  assert (Aest : forall v, p_est p = Some v -> In v (map fst rs) /\ p_cs p = cause_of A rs).
  { intros v Hv. rewrite N4. apply J3. destruct N7 as [X|(_ & X)]; rewrite X in Hv; [exact Hv|discriminate]. }
  assert (Aalr : p_alr0 p <> None -> p_alr1 p = None) by (rewrite N2, N3, P5, P6; exact A6).
  assert (Ain : in_alr p = match alr with Some _ => true | None => false end).
  { rewrite <- A5. unfold in_alr. rewrite N2, N3, P5, P6. reflexivity. }
  (* no probing *)
  destruct probe.
  2: { specialize (N11 eq_refl). destruct N11 as (N11 & N12).
       { rewrite K1, K2, K3. apply (i_off _ _ _ _ I). }
       inversion Et as [Hc Hk Ho|g r He Hc Hg Hk Ho|d e q oo He]; try congruence. subst og. split; [exact Logic.I|].
       destruct Hc as (H1 & H2 & H3 & H4 & H5 & H6). unfold core in Hk. injection Hk as G1 G2 G3 G4 G5 G6.
       constructor; cbn [b_pc b_desired b_upd]; rewrite ?ER.
       - exact Ade.
       - split; [apply J3|]. cbn [b_pc]. rewrite H2, H3. exact Aest.
       - rewrite G5. exact Apest.
       - rewrite G6. exact Adrop.
       - rewrite G2, G3. auto.
       - unfold lst. rewrite G3, N12, G2, N11. split; [|reflexivity]. apply none_off. exact Logic.I.
       - rewrite H4, H5. exact Aalr. }
  destruct (N10 eq_refl) as (N12 & N13 & N14). clear N10 N11.
  destruct N7 as [N7|(N7 & _)]; [|discriminate].
  assert (Lp : lst B A h rs p).
  { eapply lst_reports; [apply (i_lst _ _ _ _ I)| | | |].
    - rewrite N13, K3. reflexivity.
    - rewrite N12, K2. reflexivity.
    - rewrite N7. destruct P3 as [P3|P3]; [left|right; exact P3]. rewrite P3. rewrite A2, D2. reflexivity.
    - exact P4. }
  assert (Noff : forall yy, ~ off (o, yy)) by (intros yy X; exact X).
  assert (Ades : forall d, p_des p = Some d -> d = desired h (ZERO A)).
  { intros d Hd. rewrite N14, P7, A4 in Hd. apply D4 in Hd. rewrite Hd. apply (i_des _ _ _ _ I). }
  inversion Et as [Hc Hk Ho|g r He Hc Hg Hk Ho|d e q oo He Hc Hg Hd Hes Pm Hq Hl Hn Hpe Hdr Hpd Hno].
  - (* quiet *)
    subst og. split; [exact Logic.I|].
    destruct Hc as (H1 & H2 & H3 & H4 & H5 & H6). unfold core in Hk. injection Hk as G1 G2 G3 G4 G5 G6.
    constructor; cbn [b_pc b_desired b_upd]; rewrite ?ER.
    + exact Ade.
    + split; [apply J3|]. cbn [b_pc]. rewrite H2, H3. exact Aest.
    + rewrite G5. exact Apest.
    + rewrite G6. exact Adrop.
    + rewrite G1, N1. discriminate.
    + eapply lst_snoc; [exact Lp|apply Noff|reflexivity|auto|auto|auto].
    + rewrite H4, H5. exact Aalr.
  - (* the second probe of a decision *)
    subst og. destruct Hc as (H1 & H2 & H3 & H4 & H5 & H6). unfold core in Hk. injection Hk as G1 G2 G3 G4 G5 G6.
    unfold lst in Lp. rewrite Hg in Lp. destruct (p_last p) as [l|] eqn:El; [|destruct Lp; discriminate].
    destruct Lp as (ha & alr0 & e0 & c0 & y0 & hb & n & Q1 & Q2 & Q3 & Q4 & Q5 & [(Q6 & _)|(g' & g1 & Q6 & Q7 & Q8 & Q9 & Q10 & Q11 & Q12)]);
      [discriminate|]. injection Q6 as <- ->. split.
    { right. exists ha, (l_when l), alr0, e0, c0, y0, hb, g1.
      split; [exact Q1|]. split; [exact Q2|]. split; [exact Q7|]. split; [exact Q8|]. split; [exact Q11|exact Q12]. }
    constructor; cbn [b_pc b_desired b_upd]; rewrite ?ER.
    + exact Ade.
    + split; [apply J3|]. cbn [b_pc]. rewrite H2, H3. exact Aest.
    + rewrite G5. exact Apest.
    + rewrite G6. exact Adrop.
    + rewrite G1, He. discriminate.
    + unfold lst. rewrite G3, G2, H2. exists ha, alr0, e0, c0, y0, (hb ++ [(o, OProbe (Some g) b)]), n. cbv zeta.
      split; [rewrite Q1, <- app_assoc; reflexivity|].
      split; [apply Forall_app; split; [exact Q2|constructor; [apply Noff|constructor]]|].
      split; [exact Q3|]. split; [exact Q4|]. split; [exact Q5|]. left. split; [reflexivity|].
      exists [g1], g. rewrite app_comm_cons, probes_app, Q7. split; [reflexivity|]. split; [cbn [length]; lia|].
      split; [constructor; [congruence|constructor; [congruence|constructor]]|exact Q10].
    + rewrite H4, H5. exact Aalr.
  - (* a decision *)
    subst oo. destruct Hc as (H1 & H2 & H3 & H4 & H5 & H6). pose proof (Ades d Hd) as Hdd. subst d.
    destruct (Aest e Hes) as (Hin & Hcs).
    assert (Gj : forall g, good B A p now (desired h (ZERO A)) e g -> warranted A h o g /\ spaced A h o now g).
    { intros g Hgd. eapply good_just; eauto. }
    destruct Hq as ((_ & _ & S3 & _) & Dr & Hq).
    assert (Sh : (og = None /\ p_pend p3 = [] /\ p_last p3 = p_last p)
                 \/ (exists g, og = Some g /\ p_pend p3 = [] /\ p_last p3 = Some (lp B A p now g) /\ warranted A h o g /\ spaced A h o now g)
                 \/ (exists g1 g2, og = Some g1 /\ p_pend p3 = [g2] /\ p_last p3 = Some (lp B A p now g2) /\ c_kind g1 = c_kind g2
                        /\ (warranted A h o g1 /\ spaced A h o now g1) /\ warranted A h o g2 /\ spaced A h o now g2)).
    { destruct Hq as [(X1 & X2 & X3)|[(g & X1 & X2 & X3 & X4 & X5)|(g1 & g2 & X1 & X2 & X3 & X4 & X5 & X6 & X7 & X8)]]; rewrite X1 in Hpd.
      - left. destruct og; [discriminate|]. split; [reflexivity|]. split; [auto|congruence].
      - right; left. destruct og; [|specialize (Hno eq_refl); congruence]. injection Hpd as <- <-. exists g.
        split; [reflexivity|]. split; [congruence|]. split; [congruence|]. apply Gj; exact X5.
      - right; right. destruct og; [|specialize (Hno eq_refl); congruence]. injection Hpd as <- <-. exists g1, g2.
        split; [reflexivity|]. split; [congruence|]. split; [congruence|]. split; [exact X5|]. split; apply Gj; assumption. }
    assert (Adrop3 : forall t v, p_drop p3 = Some (t, v) -> In v (map fst rs)).
    { intros t v Hv. rewrite Hdr in Hv. destruct Dr as [X|[X|(pv & X & X')]].
      - rewrite X in Hv. eauto.
      - rewrite X in Hv. discriminate.
      - rewrite X' in Hv. injection Hv as <- <-. auto. }
    split.
    { destruct Sh as [(-> & _)|[(g & -> & _ & _ & W)|(g1 & g2 & -> & _ & _ & _ & W & _)]]; [exact Logic.I|left; exact W|left; exact W]. }
    constructor; cbn [b_pc b_desired b_upd]; rewrite ?ER.
    + exact Ade.
    + split; [apply J3|]. cbn [b_pc]. rewrite H2, H3. exact Aest.
    + intros v Hv. rewrite Hpe in Hv. injection Hv as <-. exact Hin.
    + exact Adrop3.
    + rewrite H1, He. discriminate.
    + destruct Sh as [(-> & Sp & Sl)|[(g & -> & Sp & Sl & W)|(g1 & g2 & -> & Sp & Sl & Sk & W1 & W2 & W3)]].
      * eapply lst_snoc; [exact Lp|apply Noff|reflexivity|auto|congruence|auto].
      * unfold lst. rewrite Sl, Sp, H2. exists h, alr, eo, c, (OProbe (Some g) b), [], (len rs). cbv zeta. cbn [lp l_when].
        split; [reflexivity|]. split; [constructor|]. split; [exact (f_equal (fun r => len r) (eq_sym (ER (OProbe (Some g) b))))|].
        split; [lia|]. split; [left; reflexivity|]. left. split; [reflexivity|]. exists [], g.
        split; [reflexivity|]. split; [cbn; lia|]. split; [constructor; [reflexivity|constructor]|reflexivity].
      * unfold lst. rewrite Sl, Sp, H2. exists h, alr, eo, c, (OProbe (Some g1) b), [], (len rs). cbv zeta. cbn [lp l_when fst].
        split; [reflexivity|]. split; [constructor|]. split; [exact (f_equal (fun r => len r) (eq_sym (ER (OProbe (Some g1) b))))|].
        split; [lia|]. split; [left; reflexivity|]. right. exists g2, g1.
        split; [reflexivity|]. split; [reflexivity|]. split; [exact Sk|]. split; [reflexivity|]. split; [reflexivity|].
        split; assumption.
    + rewrite H4, H5. exact Aalr.
Qed.

Lemma other_step : forall h s o s' y, inv h s -> bwe_step A FAR s o = (s', y) ->
  ok_out h o y /\ inv (h ++ [(o, y)]) s'.
Proof.
  intros h s o s' y I H. destruct o as [v|now probe alr eo c|fb pr eo c|now id|].
  - injection H as <- <-. split; [exact Logic.I|]. destruct I as [I1 I2 I3 I4 I5 I6 I7].
    constructor; cbn [b_pc b_desired b_upd]; rewrite ?R_snoc; cbn [fst reports]; rewrite ?app_nil_r; auto.
    + rewrite desired_snoc. reflexivity.
    + eapply lst_snoc; [exact I6|intros X; exact X|reflexivity|reflexivity|reflexivity|reflexivity].
  - eapply timeout_step; eauto.
  - cbn [bwe_step] in H. destruct (est_feedback A (b_est s) fb) as [l res]. injection H as <- <-. split; [exact Logic.I|].
    destruct I as [I1 I2 I3 I4 I5 I6 I7]. destruct pr.
    + set (s0 := mkB (b_desired s) (b_pc s) l (b_upd s)). assert (J0 : J B A (R B h) s0) by exact I2.
      destruct (prop_spec B A (R B h) s0 eo c J0) as (J3 & P1 & P2 & _ & P3 & P4).
      remember (propagate A s0 eo c) as s1 eqn:E3. clear E3.
      assert (P5 : p_alr0 (b_pc s1) = p_alr0 (b_pc s)) by exact (f_equal (fun x => snd (fst (fst (fst (fst (fst x)))))) P1).
      assert (P6 : p_alr1 (b_pc s1) = p_alr1 (b_pc s)) by exact (f_equal (fun x => snd (fst (fst (fst (fst x))))) P1).
      apply (f_equal (fun x => fst (fst (fst (fst (fst (fst x))))))) in P1.
      change (core B (b_pc s1) = core B (b_pc s)) in P1. unfold core in P1. injection P1 as K1 K2 K3 K4 K5 K6.
      assert (ER : forall yy, R B (h ++ [(BUpdate fb true eo c, yy)]) = R B h ++ rep B eo c).
      { intros. rewrite R_snoc. cbn [fst reports]. destruct eo; reflexivity. }
      constructor; rewrite ?ER.
      * rewrite P2, desired_snoc. exact I1.
      * exact J3.
      * rewrite K5. intros v Hv. rewrite map_app. apply in_or_app. left. auto.
      * rewrite K6. intros t v Hv. rewrite map_app. apply in_or_app. left. eauto.
      * rewrite K1, K2, K3. exact I5.
      * eapply lst_snoc with (p := b_pc s1); [|intros X; exact X|reflexivity|reflexivity|reflexivity|reflexivity].
        eapply lst_reports; [exact I6|exact K3|exact K2|exact P3|exact P4].
      * rewrite P5, P6. exact I7.
    + constructor; cbn [b_pc b_desired b_upd]; rewrite ?R_snoc; cbn [fst reports]; rewrite ?app_nil_r; auto.
      * rewrite desired_snoc. exact I1.
      * eapply lst_snoc; [exact I6|intros X; exact X|reflexivity|reflexivity|reflexivity|reflexivity].
  - injection H as <- <-. split; [exact Logic.I|]. destruct I as [I1 I2 I3 I4 I5 I6 I7].
    constructor; cbn [b_pc b_desired b_upd]; rewrite ?R_snoc; cbn [fst reports]; rewrite ?app_nil_r; auto.
    + rewrite desired_snoc. exact I1.
    + eapply lst_snoc; [exact I6|intros X; exact X|reflexivity|reflexivity|reflexivity|reflexivity].
  - injection H as <- <-. split; [exact Logic.I|]. destruct I as [I1 I2 I3 I4 I5 I6 I7].
    constructor; cbn [b_pc b_desired b_upd]; rewrite ?R_snoc; cbn [fst]; try discriminate; auto.
    + rewrite desired_snoc. exact I1.
    + split; [reflexivity|]. discriminate.
    + unfold lst. cbn. split; [|reflexivity]. apply none_off. exact Logic.I.
Qed.

Lemma inv_new : inv [] (bwe_new A FAR).
Proof.
  constructor; cbn; try discriminate; auto.
  - split; [reflexivity|discriminate].
  - unfold lst. cbn. split; [|reflexivity]. exists [], []. repeat split; auto.
Qed.

(** Runs. *)
Lemma run_inv : forall ops h s s' h', inv h s -> bwe_run A FAR s ops = (s', h') ->
  inv (h ++ h') s' /\ forall h1 o y h2, h' = h1 ++ (o, y) :: h2 -> ok_out (h ++ h1) o y.
Proof.
  induction ops as [|o ops IH]; intros h s s' h' I H; cbn [bwe_run] in H.
  - injection H as <- <-. rewrite app_nil_r. split; [exact I|]. intros [|? ?] ? ? ? X; discriminate.
  - destruct (bwe_step A FAR s o) as [s1 y] eqn:E. destruct (bwe_run A FAR s1 ops) as [s2 h2] eqn:E2. injection H as <- <-.
    destruct (other_step _ _ _ _ _ I E) as (O & I1). destruct (IH _ _ _ _ I1 E2) as (I2 & IHo).
    rewrite <- app_assoc in I2. split; [exact I2|]. intros [|x h1] o' y' h3 X; cbn [app] in X.
    + injection X as <- <- <-. rewrite app_nil_r. exact O.
    + injection X as <- X. specialize (IHo _ _ _ _ X). rewrite <- app_assoc in IHo. exact IHo.
Qed.
Lemma justified_run : forall ops h1 o g b h2,
  snd (bwe_run A FAR (bwe_new A FAR) ops) = h1 ++ (o, OProbe (Some g) b) :: h2 -> justified A h1 o g.
Proof.
  intros ops h1 o g b h2 H. destruct (bwe_run A FAR (bwe_new A FAR) ops) as [s' h'] eqn:E.
  destruct (run_inv _ _ _ _ _ inv_new E) as (_ & X). exact (X _ _ _ _ H).
Qed.
End P.

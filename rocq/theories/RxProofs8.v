(** A repair packet for a number that was asked for gives the packet; whole histories. *)
From Verif Require Import Base BaseFacts SeqModel SeqProofs NackModel NackProofs NackProofs2 NackProofs3 RegisterModel MtimeModel ExtModel HeaderModel HeaderProofs TxModel RxModel RxReg RxSpec RxProofs RxProofs2 RxProofs3 RxProofs4 RxProofs5 RxProofs6 RxProofs7.

(** ** Registers: what a report names is still accepted *)
Lemma nacked_accepted n w : RG n -> In w (flat_map entry_seqs16 (snd (nack_reports n))) ->
  exists p e, max_seq n = Some e /\ 0 <= p /\ e - 100 <= p < e /\ p mod U16 = w /\ accepts (fst (nack_reports n)) p = true.
Proof.
  intros R Hw. pose proof (nack_active n R) as NA. pose proof (rg_nack n R) as R'. destruct R as (A & C & G). destruct (active n) as [[s e]|] eqn:EA.
  2:{ rewrite nack_reports_none in Hw by assumption. contradiction. }
  pose proof (nack_reports_spec n s e (proj1 G) EA) as NS. pose proof (rg_start _ _ _ (ex_intro _ A (ex_intro _ C G)) EA) as ST.
  pose proof (proj1 G) as IV. unfold Inv in IV. rewrite EA in IV. destruct IV as (I1 & I2 & I3 & I4 & I5).
  destruct (nack_reports n) as [n' l]. cbn [fst snd] in *. destruct NS as (NS1 & NS2 & NS3). rewrite NS3 in Hw. apply in_map_iff in Hw as (p & <- & Hp). apply filter_In in Hp as [Hp N]. apply zseq_in in Hp.
  assert (p <> e). { intro; subst. unfold needs, needs_nack in N. rewrite I3 in N. discriminate. }
  exists p, e. unfold max_seq. rewrite EA. split; [reflexivity|]. split; [lia|]. split; [lia|]. split; [reflexivity|].
  unfold accepts. rewrite NA. replace (p <? s) with false by lia. apply orb_true_iff. left.
  pose proof (proj1 NS2 p ltac:(lia)) as B. rewrite N in B. rewrite B. unfold needs, needs_nack in N. cbn. destruct (received (packet (packets n) p)); [discriminate|reflexivity].
Qed.

Section Classified.
Variables isrtx rtxpt : Z -> bool.
Hypothesis H0 : isrtx 0 = false.
Notation CL := (CL isrtx rtxpt). Notation GH := (GH isrtx). Notation hcl := (hcl isrtx rtxpt).

Lemma deliver_repair x D now h dec m k s p r e i raw a b rest n : WF x -> CL x -> GH x D -> hcl h -> (forall q raw, dec q = Some raw -> bytes_ok raw) -> 0 <= sequence_number h < U16 ->
  srtp x = true -> rtp_mode x = true -> isrtx (ssrc h) = true -> snd (mid_ssrc x now (ssrc h)) = Some (m, k) -> aget k (streams x) = Some s -> k <> 0 -> s_roc s = None ->
  find_param (codecs x) (payload_type h) = Some p ->
  (let rx := opt_reg (s_regx s) (rnew (aget (ssrc h) (maxseq x))) in i = extend_u16 (rmax_seq rx) (sequence_number h) /\ raccepts rx i = true) ->
  dec i = Some raw -> unpad h raw = Ok (a :: b :: rest) ->
  s_reg s = Some r -> rmax_seq r = Some e -> 0 <= n < U64 -> Z.abs (n - e) < 32768 -> n mod U16 = 256 * a + b -> raccepts r n = true ->
  exists y evs pk, handle_rtp x now h dec = Ok (y, evs) /\ pending y = Some pk /\ q_hdr pk = restored h k (p_pt p) (256 * a + b) /\ q_pay pk = rest /\ q_seq pk = n /\ q_at pk = now /\ srtp y = true.
Proof.
  intros W C G HC HD HS' Hsr Hm HK EMS ES KN ROC FP [Hi HAi] ED EU ER0 EM0 Hn HF HN HAn.
  destruct (handle_rtp_total x now h dec W HS' HD) as (y & evs & x1 & o & E1 & E2 & W1 & RC). exists y, evs.
  unfold mid_for_header in E2.
  pose proof (wf_mid_ssrc x now (ssrc h) W) as (_ & S1 & _); pose proof (sm_mid_ssrc x now (ssrc h)) as (P1 & P2 & P3); assert (codecs (fst (mid_ssrc x now (ssrc h))) = codecs x /\ maxseq (fst (mid_ssrc x now (ssrc h))) = maxseq x) as [P4 P5] by (unfold mid_ssrc; destruct (aget (ssrc h) (lookups x)); [auto|destruct (by_ssrc_or_rtx _ _); auto]).
  destruct (mid_ssrc x now (ssrc h)) as [x0 o0]; cbn [fst snd] in *; subst o0; inversion E2; subst x0 o; clear E2.
  assert (ssrc h <> 0) as SN by (intro Z; rewrite Z, H0 in HK; discriminate).
  assert (params_of x1 k (payload_type h) = Some p) as EP0 by (unfold params_of; replace (k =? 0) with false by lia; rewrite P4; exact FP).
  assert (negb (p_pt p =? payload_type h) = true) as REP by (rewrite (cl_find_param _ _ _ _ _ C FP); rewrite <- HK; symmetry; apply (proj2 HC); exact SN).
  assert (aget k (streams x1) = Some s) as ES1 by (rewrite S1; exact ES); pose proof (wf_str _ W1 _ _ (aget_some_in _ _ _ ES1)) as I; pose proof (wf_max _ W1) as MX.
  set (rx := opt_reg (s_regx s) (rnew (aget (ssrc h) (maxseq x)))) in *.
  assert (HE : forall s1 seq, extend_seq s h true (seq_lookup (maxseq x1)) = (s1, seq) -> seq = i /\ s1 = set_regs s (s_roc s) (s_reg s) (Some rx) /\ SRI k s1 /\ 0 <= i < U64).
  { intros s1 seq EE; pose proof (extend_seq_ok k s h true (seq_lookup (maxseq x1)) s1 seq I (fun q Q => MX _ _ Q) HS' EE) as XX; cbn zeta in XX; destruct XX as (Y1 & Y2 & _ & Es1 & EQ & _).
    cbn [reg_of] in *. unfold seq_lookup in *. rewrite P5 in *. fold rx in EQ, Es1. rewrite EQ in * by auto. rewrite <- Hi in *. auto. }
  destruct RC as [SK|s' p' s1 seq rep E0 E1' E2 E3 E4 Dj|s' p' s1 seq rep raw' s2 t2 new2 E0 E1' E2 E3 E4 EN ED' EU' ER EUp|s' p' s1 seq rep raw' data' s2 t2 new2 s3 h3 seq3 t3 new3 data3 mx3 E0 E1' E2 E3 E4 EN ED' EU' EUp IN K0|s' p' s1 seq rep raw' data' s2 t2 new2 s3 h3 seq3 t3 new3 data3 mx3 s4 pk E0 E1' E2 E3 E4 EN ED' EU' EUp IN K0 EP];
    [exfalso; destruct SK; congruence|..]; assert (s' = s) by congruence; assert (p' = p) by congruence; subst s' p'; rewrite REP in E3; subst rep; destruct (HE _ _ E4) as (-> & Es1 & I1 & Qi); clear HE;
    try discriminate; try contradiction.
  - exfalso; destruct Dj as [Dj|[Dj|(raw' & Dj & Dj')]]; [unfold is_new_packet in Dj; rewrite Es1 in Dj; cbn in Dj; rewrite HAi in Dj; discriminate|congruence|assert (raw' = raw) by congruence; subst; congruence].
  - exfalso. assert (raw' = raw) by congruence. congruence.
  - assert (raw' = raw) by congruence; subst raw'; assert (data' = a :: b :: rest) by congruence; subst data'.
    assert (bytes_ok (a :: b :: rest)) as BD by (eapply unpad_bytes; [exact (HD _ _ ED)|exact EU]).
    destruct (rxb_update k s1 now h (p_clock p) true i s2 t2 new2 rx I1 Qi) as (R2 & N2 & _ & Rn2); [rewrite Es1; reflexivity|exact EUp|]. cbn [reg_of negb] in Rn2.
    assert (s_reg s2 = Some r) as Er2 by (rewrite Rn2, Es1; exact ER0).
    assert (s_roc s2 = None) as Roc2.
    { unfold update_register in EUp. rewrite Es1 in EUp. cbn [s_regx set_regs s_reg] in EUp. destruct (rupdate rx i). pose proof (f_equal (fun z => match z with Ok (q, _, _) => s_roc q | _ => None end) EUp) as Z. cbn in Z. congruence. }
    destruct (inner_true _ _ _ _ _ _ _ _ _ _ _ _ _ _ _ _ _ IN) as (s5 & HU & HEx & EX & EMX). pose proof (rb_sri _ _ _ _ R2) as I2.
    assert (max_ok (update_max_seq (maxseq x1) (ssrc h) i)) as MX2 by (apply umax_ok; [exact MX|exact Qi]).
    assert (h3 = restored h k (p_pt p) (256 * a + b) /\ data3 = rest) as [EH3 ED3].
    { unfold un_rtx, read_osn in HU. pose proof (f_equal fst HU) as A1; pose proof (f_equal snd HU) as A2; cbn in A1, A2. unfold rd16 in A1. unfold restored. rewrite <- A1, (sri_key _ _ I2). split; [f_equal; lia|symmetry; exact A2]. }
    assert (0 <= sequence_number h3 < U16) as HS3 by (rewrite EH3; cbn [sequence_number restored]; pose proof (Forall_inv BD) as B1; pose proof (Forall_inv (Forall_inv_tail BD)) as B2; unfold byte_ok, U16 in *; lia).
    pose proof (extend_seq_ok k s2 h3 false _ s5 seq3 I2 (fun q Q => MX2 _ _ Q) HS3 HEx) as XX; cbn zeta in XX; destruct XX as (I5 & Q5 & _ & Es5 & EQ5 & _). cbn [reg_of] in *. rewrite Er2 in *. cbn [opt_reg] in *.
    rewrite EQ5 in * by auto. rewrite EM0 in *.
    assert (extend_u16 (Some e) (sequence_number h3) = n) as EN3.
    { rewrite EH3. cbn [sequence_number restored]. rewrite <- HN. apply (extend_fresh isrtx rtxpt H0); [exact Hn| |discriminate]. intros e' X; inversion X; subst e'. split; [|lia]. pose proof (sri_reg _ _ I2) as Z. rewrite Er2 in Z. cbn in Z. destruct Z as [Z1 Z2]. split; [eapply rg_max_nonneg; [apply (proj1 Z1)|exact EM0]|apply Z2; exact EM0]. }
    rewrite EN3 in *.
    destruct (rxb_update k s5 now h3 (p_clock p) false n s3 t3 new3 r I5 Hn) as (R5 & N5 & _); [rewrite Es5; reflexivity|exact EX|].
    pose proof (srx_rtp_ok k s3 now h3 data3 n t3 (rb_sri _ _ _ _ R5)) as Z; cbn zeta in Z; rewrite EP in Z; cbn [fst snd] in Z; destruct Z as (_ & _ & _ & _ & _ & _ & _ & Z8 & Z9 & Z10 & Z11 & _).
    exists pk; split; [exact E1|]. split; [cbn; rewrite P2, Hm, N5, HAn; reflexivity|]. split; [rewrite Z9; exact EH3|]. split; [rewrite Z10; exact ED3|]. split; [exact Z8|]. split; [exact Z11|]. exact E0.
Qed.
End Classified.

(** ** The feedback of one call *)
Lemma feedback_nack k s now sender dn rep s' fb sd q es : SRI k s -> srx_feedback s now sender dn rep = Ok (s', fb) -> In (FbNack sd q es) fb ->
  q = k /\ exists r r', s_reg s = Some r /\ s_reg s' = Some r' /\ RG (rnack r) /\ es = snd (nack_reports (rnack r)) /\ rnack r' = fst (nack_reports (rnack r)).
Proof.
  intro I. unfold srx_feedback. destruct (mk_keyframe s sender) as [s1 a] eqn:E1.
  assert (s_ssrc s1 = s_ssrc s /\ s_reg s1 = s_reg s /\ ~ In (FbNack sd q es) a) as (A1 & A2 & A3).
  { unfold mk_keyframe in E1. destruct (s_kf s) as [[]|]; inversion E1; subst; cbn; (split; [reflexivity|split; [reflexivity|]]); intros H; repeat destruct H as [H|H]; try discriminate H; exact H. }
  destruct (mk_remb s1 sender) as [s2 b] eqn:E2.
  assert (s_ssrc s2 = s_ssrc s /\ s_reg s2 = s_reg s /\ ~ In (FbNack sd q es) b) as (B1 & B2 & B3).
  { unfold mk_remb in E2. destruct (s_remb s1); inversion E2; subst; cbn; (split; [congruence|split; [congruence|]]); intros H; repeat destruct H as [H|H]; try discriminate H; exact H. }
  destruct (if rep then mk_rr s2 now sender else Ok (s2, [])) as [[s3 c]| |] eqn:E3; cbn [bind]; [|discriminate|discriminate].
  assert (s_ssrc s3 = s_ssrc s /\ (forall r3, s_reg s3 = Some r3 -> exists r, s_reg s = Some r /\ rnack r3 = rnack r /\ RG (rnack r)) /\ ~ In (FbNack sd q es) c) as (C1 & C2 & C3).
  { assert (forall r, s_reg s = Some r -> RR r) as RS. { intros r Er. pose proof (sri_reg _ _ I) as Z. rewrite Er in Z. apply Z. }
    destruct rep; [|inversion E3; subst; split; [congruence|split; [|intros []]]; rewrite B2; intros r3 E; exists r3; split; [exact E|split; [reflexivity|]]; apply (RS _ E)].
    unfold mk_rr in E3. destruct (s_reg s2) as [r|] eqn:ER.
    - assert (s_reg s = Some r) as ES by congruence. pose proof (rr_report r (RS _ ES)) as (R1 & R2 & R3). destruct (reception_report r) as [r' x]. cbn [fst snd] in *.
      destruct x as [rp| |]; [| |discriminate]; inversion E3; subst; cbn; (split; [congruence|]); (split; [|intros H; repeat destruct H as [H|H]; try discriminate H; exact H]).
      + intros r3 E. inversion E; subst. exists r. split; [exact ES|]. split; [exact R3|]. apply (RS _ ES).
      + intros r3 E. exists r3. rewrite ER in E. split; [congruence|]. split; [reflexivity|]. apply RS. congruence.
    - inversion E3; subst; cbn. split; [congruence|]. split; [|intros H; repeat destruct H as [H|H]; try discriminate H; exact H]. rewrite ER. discriminate. }
  destruct (if dn then mk_nack s3 sender else (s3, [])) as [s4 d] eqn:E4. intros E H. inversion E; subst; clear E.
  apply in_app_or in H as [H|H]; [contradiction|]. apply in_app_or in H as [H|H]; [contradiction|]. apply in_app_or in H as [H|H]; [contradiction|].
  destruct dn; [|inversion E4; subst; contradiction]. unfold mk_nack in E4. destruct (s_supp s3); [inversion E4; subst; contradiction|]. destruct (s_reg s3) as [r3|] eqn:E5; [|inversion E4; subst; contradiction].
  destruct (C2 _ eq_refl) as (r & Er & Er2 & RGr). destruct (nack_reports (rnack r3)) as [n l] eqn:EN. destruct l as [|e0 l0]; [inversion E4; subst; contradiction|].
  inversion E4; subst; clear E4. destruct H as [H|[]]. inversion H; subst.
  split; [rewrite C1; apply (sri_key _ _ I)|]. exists r. eexists. split; [exact Er|]. split; [unfold srx_timeout; destruct (s_check _); [destruct (now <? _)|]; cbn; reflexivity|]. rewrite <- Er2. rewrite EN. cbn. split; [rewrite Er2; exact RGr|]. auto.
Qed.
Lemma all_feedback_nack l now sender dn mids l' fb sd q es : (forall k s, In (k, s) l -> SRI k s) -> all_feedback l now sender dn mids = Ok (l', fb) -> In (FbNack sd q es) fb ->
  exists s s' r r', In (q, s) l /\ In (q, s') l' /\ s_reg s = Some r /\ s_reg s' = Some r' /\ RG (rnack r) /\ es = snd (nack_reports (rnack r)) /\ rnack r' = fst (nack_reports (rnack r)).
Proof.
  revert l' fb. induction l as [|[k s] l IH]; intros l' fb H E HI; [cbn in E; inversion E; subst; contradiction|]. cbn [all_feedback] in E.
  destruct (srx_feedback s now sender dn _) as [[s' a]| |] eqn:E1; cbn [bind] in E; [|discriminate|discriminate]. destruct (all_feedback l now sender dn mids) as [[r' b]| |] eqn:E2; cbn [bind] in E; [|discriminate|discriminate].
  inversion E; subst; clear E. apply in_app_or in HI as [HI|HI].
  - destruct (feedback_nack k _ _ _ _ _ _ _ _ _ _ (H _ _ (or_introl eq_refl)) E1 HI) as (-> & r & r2 & Q). exists s, s', r, r2. split; [left; reflexivity|]. split; [left; reflexivity|]. exact Q.
  - destruct (IH _ _ (fun k s h => H k s (or_intror h)) eq_refl HI) as (t & t' & r & r2 & A & B & Q). exists t, t', r, r2. split; [right; exact A|]. split; [right; exact B|]. exact Q.
Qed.
(** after a report naming [w] the stream still takes a packet numbered [w] *)
Lemma timeout_nack x now sender iva ivv y fb sd k es w : WF x -> rxstep x (RTimeout now sender iva ivv) = Ok (y, OFeedback fb) -> In (FbNack sd k es) fb -> In w (flat_map entry_seqs16 es) ->
  exists s r e n, aget k (streams y) = Some s /\ s_reg s = Some r /\ rmax_seq r = Some e /\ 0 <= n /\ e - 100 <= n < e /\ n mod U16 = w /\ raccepts r n = true.
Proof.
  intros W E HI HW. destruct (wf_step x (RTimeout now sender iva ivv) W Logic.I) as (y' & a' & E' & W'). rewrite E in E'. inversion E'; subst y' a'. clear E'.
  cbn [rxstep] in E. unfold sess_timeout, nack_at, rx_timeout in E. cbn [streams set_nack] in E.
  destruct (all_feedback (streams x) now sender _ _) as [[l f]| |] eqn:EA; cbn [bind] in E; [|discriminate|discriminate].
  assert (f = fb /\ streams y = l) as [-> EL] by (inversion E; subst; split; [reflexivity|]; cbn; destruct (_ <? now); reflexivity).
  destruct (all_feedback_nack _ _ _ _ _ _ _ _ _ _ (wf_str _ W) EA HI) as (s & s' & r & r' & A & B & C & D & G & -> & R).
  destruct (nacked_accepted _ _ G HW) as (n & e & M & P & Q & <- & ACC).
  exists s', r', e, n. split; [rewrite EL; apply aget_in; [rewrite <- EL; apply (wf_nodup _ W')|exact B]|]. split; [exact D|].
  unfold rmax_seq, raccepts. rewrite R. unfold max_seq. rewrite nack_active by exact G. auto.
Qed.

(** ** Histories where every packet is polled at once *)
Section Classified2.
Variables isrtx rtxpt : Z -> bool.
Hypothesis H0 : isrtx 0 = false.
Notation CL := (CL isrtx rtxpt). Notation GH := (GH isrtx).

Lemma drains_tail o ops : drains (o :: ops) -> drains ops.
Proof. intros D a now h dec b E. apply (D (o :: a) now h dec b). cbn. congruence. Qed.
Lemma run_drained n : forall ops, (length ops <= n)%nat -> forall x E y l, WF x -> CL x -> GH x E -> pending x = None -> rtp_mode x = true -> ops_fine x ops -> Forall (op_class isrtx rtxpt) ops -> drains ops ->
  rxrun x ops = Ok (y, l) -> WF y /\ CL y /\ GH y (rev (map pid (polled l)) ++ E) /\ pending y = None /\ rtp_mode y = true.
Proof.
  induction n as [|n IH]; intros [|o ops] HL x E y l W C G P M OF K DR R; try (cbn in R; inversion R; subst; cbn; auto 10; fail); [cbn in HL; lia|].
  cbn [rxrun ops_fine] in *. destruct OF as [O1 O2]. inversion K as [|? ? K1 K2]; subst. destruct (rxstep x o) as [[x1 a]| |] eqn:ES; cbn [bind] in R; [|discriminate|discriminate].
  destruct (rxrun x1 ops) as [[z l']| |] eqn:ER; cbn [bind] in R; [|discriminate|discriminate]. inversion R; subst; clear R.
  destruct (inv_step isrtx rtxpt H0 x o x1 a _ W C G O1 K1 ES) as (W1 & C1 & D' & G1 & SG). destruct (step_pending _ _ _ _ W O1 ES) as (M1 & _). rewrite M in M1.
  assert (forall (Q : quiet a /\ D' = E /\ pending x1 = pending x), WF y /\ CL y /\ GH y (rev (map pid (polled (a :: l'))) ++ E) /\ pending y = None /\ rtp_mode y = true) as QUIET.
  { intros (Q1 & -> & Q2). replace (polled (a :: l')) with (polled l') by (destruct a; try reflexivity; contradiction).
    apply (IH ops ltac:(cbn in HL; lia) x1 E y l' W1 C1 G1 ltac:(congruence) M1 O2 K2 (drains_tail _ _ DR) ER). }
  destruct o as [now h dec| |k rtx m r supp|k|m|m r|m|c| |m|k roc|k fir|k b|k b|m r b|k d|now k ntp rtp|now sender iva ivv| | |k]; cbn [step_ghost] in SG; try (apply QUIET; exact SG).
  - destruct SG as [Q OC]. destruct (DR [] now h dec ops eq_refl) as (c & ->).
    replace (polled (a :: l')) with (polled l') by (destruct a; try reflexivity; contradiction).
    cbn [rxrun ops_fine] in *. destruct O2 as [_ O3]. inversion K2 as [|? ? _ K4]; subst. destruct (rxstep x1 RPollPacket) as [[x2 a2]| |] eqn:ES2; cbn [bind] in ER; [|discriminate|discriminate].
    destruct (rxrun x2 c) as [[z2 l2]| |] eqn:ER2; cbn [bind] in ER; [|discriminate|discriminate]. inversion ER; subst; clear ER.
    destruct (inv_step isrtx rtxpt H0 x1 RPollPacket x2 a2 _ W1 C1 G1 Logic.I Logic.I ES2) as (W2 & C2 & D2 & G2 & SG2). destruct (step_pending _ _ _ _ W1 (Logic.I : op_fine x1 RPollPacket) ES2) as (M2 & _). rewrite M1 in M2.
    cbn [step_ghost] in SG2. destruct SG2 as [-> SG2].
    assert (pending x2 = None /\ polled [a2] = match pending x1 with Some p => [p] | None => [] end) as [P2 Q2].
    { cbn [rxstep] in ES2. destruct OC as [[_ OC]|(pk & _ & _ & OC & SR & _)].
      - destruct SG2 as [[-> B]|[-> B]]; (split; [congruence|]); rewrite OC, P; reflexivity.
      - rewrite M in OC. rewrite SR, M1 in ES2. cbn [andb] in ES2. inversion ES2; subst. cbn. rewrite OC. auto. }
    assert (GH x2 (rev (map pid (polled [a2])) ++ E)) as G3.
    { rewrite Q2. destruct OC as [[-> OC]|(pk & -> & _ & OC & _)]; rewrite OC; [rewrite P; exact G2|]. rewrite M. exact G2. }
    change (a2 :: l2) with ([a2] ++ l2). unfold polled at 1. rewrite flat_map_app. fold (polled [a2]) (polled l2). rewrite map_app, rev_app_distr, <- app_assoc.
    apply (IH c ltac:(cbn in HL; lia) x2 _ y l2 W2 C2 G3 P2 M2 O3 K4 (drains_tail _ _ (drains_tail _ _ DR)) ER2).
  - destruct SG as [-> SG]. assert (pending x1 = None /\ polled [a] = []) as [P1 Q1] by (destruct SG as [[-> B]|[-> B]]; [rewrite P; auto|split; [congruence|reflexivity]]).
    change (a :: l') with ([a] ++ l'). unfold polled at 1. rewrite flat_map_app. fold (polled [a]) (polled l'). rewrite Q1. cbn [app].
    apply (IH ops ltac:(cbn in HL; lia) x1 E y l' W1 C1 G1 P1 M1 O2 K2 (drains_tail _ _ DR) ER).
Qed.
End Classified2.

From Verif Require Import Base BaseFacts SeqModel NackModel RegisterModel MtimeModel ExtModel HeaderModel TxModel RxModel RxSpec RxProofs RxReg RxProofs2 RxProofs3 RxProofs4 RxProofs6 RxProofs7 RxFbSpec RxFbProofs RxFbProofs2.

(** ** Requests over a history *)
Lemma served_run k m : forall ops x y outs s, WF x -> ops_fine x ops -> Forall (keeps k m) ops -> rxrun x ops = Ok (y, outs) -> aget k (streams x) = Some s -> s_mid s = m ->
  all_served k m (wants s) ops outs.
Proof.
  induction ops as [|o ops IH]; intros x y outs s W F K R G M; cbn [rxrun] in R; [injection R as <- <-; exact I|].
  cbn [ops_fine] in F. destruct F as [F1 F2]. inversion K as [|? ? K1 K2]; subst. destruct (wf_step x o W F1) as (x1 & a & E & W1). rewrite E in R, F2. cbn [bind] in R.
  destruct (rxrun x1 ops) as [[z l]| |] eqn:R1; cbn [bind] in R; try discriminate. injection R as <- <-.
  destruct (step_stream k (s_mid s) x o x1 a s W F1 K1 E G eq_refl) as (s1 & G1 & M1 & W2 & S & _). cbn [all_served]. split; [exact S|]. rewrite <- W2. eapply IH; eauto.
Qed.

(** ** A packet handed on was heard *)
Definition woke (now : Z) (s s' : srx) : Prop := s_check s' = Some (now + s_thr s) /\ s_paused s' = false /\ s_need s' = s_paused s || s_need s /\ s_thr s' = s_thr s.
Lemma woke_calm now a b c : woke now a b -> calm now b c -> woke now a c.
Proof.
  intros (A1 & A2 & A3 & A4) [_ _ _ B4 B5]. destruct B5 as [(B1 & B2 & B3 & B5)|(B1 & B2 & B3 & B5)]; unfold woke.
  - repeat split; congruence.
  - rewrite A4 in B2. rewrite A2, A3 in B5. cbn [orb] in B5. repeat split; congruence.
Qed.
Lemma calm_woke now a b c : calm now a b -> woke now b c -> woke now a c.
Proof.
  intros [_ _ _ B4 B5] (A1 & A2 & A3 & A4). destruct B5 as [(B1 & B2 & B3 & B5)|(B1 & B2 & B3 & B5)]; unfold woke; rewrite B4 in *.
  - repeat split; congruence.
  - rewrite B3, B5 in A3. cbn [orb] in A3. repeat split; congruence.
Qed.
Lemma heard_woke now s h rate rep q s2 t n : update_register s now h rate rep q = Ok (s2, t, n) -> woke now s s2.
Proof.
  unfold update_register. destruct (if rep then s_regx s else s_reg s) as [r|]; [|discriminate]. destruct (rupdate r q) as [r' b]. intro E. injection E as <- <- <-.
  destruct rep; unfold woke; cbn; repeat split; destruct (s_paused s); reflexivity.
Qed.
Definition handed (x y : sess) (evs : list rxev) (p : rxpkt) : Prop := (pending x = None /\ pending y = Some p) \/ exists m r, In (EvDepay m r p) evs.
Lemma tw_nodepay h m r p : ~ In (EvDepay m r p) (tw_of h).
Proof. unfold tw_of. destruct (transport_cc (ext_vals h)); cbn; intuition discriminate. Qed.
Lemma rxcase_woke x now h dec m j y evs p : WF x -> rxcase x now h dec m j y evs -> handed x y evs p ->
  exists s s', aget j (streams x) = Some s /\ streams y = aset j s' (streams x) /\ woke now s s' /\ j <> 0 /\
    (ssrc (q_hdr p) = j \/ (q_hdr p = h /\ exists c, find_param (codecs x) (payload_type h) = Some c /\ p_pt c = payload_type h)).
Proof.
  intros W C H.
  destruct C as [|s c s1 q rep _ ES _ _ E1 _|s c s1 q rep raw s2 t2 n2 _ ES _ _ E1 _ _ _ _ E2|s c s1 q rep raw d s2 t2 n2 s3 h3 q3 t3 n3 d3 mx3 _ ES _ _ E1 _ _ _ E2 E3 _|s c s1 q rep raw d s2 t2 n2 s3 h3 q3 t3 n3 d3 mx3 s4 pk _ ES EP ER E1 _ _ _ E2 E3 J0 E4].
  - exfalso. destruct H as [[H1 H2]|(m' & r & [])]. congruence.
  - exfalso. destruct H as [[H1 H2]|(m' & r & [])]. cbn in H2. congruence.
  - exfalso. destruct H as [[H1 H2]|(m' & r & H)]; [cbn in H2; congruence|exact (tw_nodepay _ _ _ _ H)].
  - exfalso. destruct H as [[H1 H2]|(m' & r & H)]; [cbn in H2; congruence|exact (tw_nodepay _ _ _ _ H)].
  - assert (p = pk) as ->.
    { destruct H as [[H1 H2]|(m' & r & H)].
      - cbn [pending set_pending] in H2. destruct (rtp_mode x); [|congruence]. destruct n3; congruence.
      - apply in_app_or in H as [H|H]; [exfalso; exact (tw_nodepay _ _ _ _ H)|]. destruct (rtp_mode x); [destruct H|]. destruct H as [H|[]]. congruence. }
    exists s, s4. split; [exact ES|]. split; [reflexivity|].
    pose proof (heard_woke _ _ _ _ _ _ _ _ _ E2) as W2. pose proof (calm_extend now _ _ _ _ _ _ E1) as C1.
    assert (s_ssrc s = j) as KJ by (apply sri_key, (wf_str _ W), aget_some_in; exact ES).
    destruct (heard _ _ _ _ _ _ _ _ _ E2) as (C2 & P2 & U2). destruct (calm_inner _ _ _ _ _ _ _ _ _ _ _ _ _ _ _ _ _ _ E3 P2 U2) as (C3 & _). destruct (calm_rtp _ _ _ _ _ _ _ _ E4) as (C4 & _).
    split; [eapply woke_calm; [eapply woke_calm; [eapply calm_woke; [exact C1|exact W2]|exact C3]|exact C4]|]. split; [exact J0|].
    assert (q_hdr pk = h3) as QH by (unfold srx_rtp in E4; injection E4 as _ <-; reflexivity). rewrite QH.
    assert (s_ssrc s2 = s_ssrc s1) as S2. { clear - E2. unfold update_register in E2. destruct (if rep then s_regx s1 else s_reg s1) as [g|]; [|discriminate]. destruct (rupdate g q). injection E2 as <- _ _. destruct rep; reflexivity. }
    assert (s_ssrc s1 = s_ssrc s) as S1. { clear - E1. unfold extend_seq in E1. destruct rep; [|destruct (s_roc s)]; injection E1 as <- _; reflexivity. }
    destruct E3 as [|h' d' s5 q' s6 t6 n6 _ UN _ _].
    + right. split; [reflexivity|]. unfold params_of in EP. replace (j =? 0) with false in EP by lia. exists c. split; [exact EP|]. lia.
    + left. rewrite (proj1 (un_rtx_fields _ _ _ _ _ _ UN)). congruence.
Qed.
Lemma woke_dec now s s' : {woke now s s'} + {~ woke now s s'}.
Proof.
  unfold woke. assert (forall a b : option Z, {a = b} + {a <> b}) as OD by (decide equality; apply Z.eq_dec).
  destruct (OD (s_check s') (Some (now + s_thr s))); [|right; tauto]. destruct (Bool.bool_dec (s_paused s') false); [|right; tauto]. destruct (Bool.bool_dec (s_need s') (s_paused s || s_need s)); [|right; tauto].
  destruct (Z.eq_dec (s_thr s') (s_thr s)); [left|right]; tauto.
Qed.
Section Classified.
Variables isrtx rtxpt : Z -> bool.
Hypothesis Z0 : isrtx 0 = false.
Local Notation CL := (CL isrtx rtxpt).
Local Notation GH := (GH isrtx).
Lemma rtp_heard k m0 x now h dec y evs s : WF x -> CL x -> pkt_class isrtx rtxpt h -> op_fine x (RRtp now h dec) -> keeps k m0 (RRtp now h dec) -> aget k (streams x) = Some s -> s_mid s = m0 ->
  handle_rtp x now h dec = Ok (y, evs) -> (exists p, handed x y evs p /\ ssrc (q_hdr p) = k) -> exists s', aget k (streams y) = Some s' /\ woke now s s'.
Proof.
  intros W C HC [HS HD] K G M E (p & HP & SK). destruct (handle_rtp_total x now h dec W HS HD) as (y' & evs' & x1 & o & E' & EM & W1 & CC). rewrite E in E'. injection E' as <- <-.
  assert (In k (keys (streams x))) as IK by (apply aget_some_in in G; apply (in_map fst) in G; exact G).
  pose proof (there_header now k m0 x h x1 o W (fun s0 H0 => ltac:(congruence)) K IK EM) as T.
  destruct (sm_mid_for_header _ _ _ _ _ EM) as (SP & _ & _). destruct (cl_mid_for_header isrtx rtxpt Z0 x now h x1 o W C HC EM) as (C1 & _ & KK).
  destruct (T s G) as (s1 & G1 & CA). destruct o as [[m j]|].
  2:{ destruct CC as [-> ->]. exfalso. destruct HP as [[H1 H2]|(m' & r & [])]. congruence. }
  assert (handed x1 y evs p) as HP1 by (destruct HP as [[H1 H2]|H]; [left; split; congruence|right; exact H]).
  destruct (rxcase_woke _ _ _ _ _ _ _ _ _ W1 CC HP1) as (t & t' & G2 & EY & WK & J0 & WH).
  assert (j = k) as JK.
  { destruct WH as [WH|(WH & c & FP & PT)]; [congruence|]. rewrite WH in SK. rewrite <- SK. apply (KK m j eq_refl). destruct (Z.eq_dec (ssrc h) 0) as [Q|Q]; [rewrite Q; exact Z0|].
    destruct HC as [_ HC]. destruct (HC Q) as (HC1 & _). rewrite HC1. rewrite <- (cl_find_param isrtx rtxpt _ _ _ C1 FP). lia. }
  subst j. rewrite G1 in G2. injection G2 as <-. exists t'. split; [rewrite EY, aset_get, Z.eqb_refl; reflexivity|]. eapply calm_woke; eassumption.
Qed.
(** ** Pauses over a history *)
Definition PV (s : srx) (v : pview) : Prop := s_thr s = v_thr v /\ s_check s = v_until v /\ s_paused s = is_paused v /\ (s_need s = false -> v_told v = s_paused s).
Lemma told_run k m : k <> 0 -> forall ops x y outs s v D, WF x -> CL x -> GH x D -> ops_fine x ops -> Forall (op_class isrtx rtxpt) ops -> Forall (keeps k m) ops -> rxrun x ops = Ok (y, outs) ->
  aget k (streams x) = Some s -> s_mid s = m -> PV s v ->
  forall drained, (drained = true -> srtp x && rtp_mode x = true -> pending x = None) -> exists hs, all_told k drained v ops outs hs.
Proof.
  intro KN. induction ops as [|o ops IH]; intros x y outs s v D W C GG F CLS K R G M P drained DR; cbn [rxrun] in R; [injection R as <- <-; exists []; exact I|].
  cbn [ops_fine] in F. destruct F as [F1 F2]. inversion K as [|? ? K1 K2]; subst. inversion CLS as [|? ? L1 L2]; subst. destruct (wf_step x o W F1) as (x1 & a & E & W1). rewrite E in R, F2. cbn [bind] in R.
  destruct (rxrun x1 ops) as [[z l]| |] eqn:R1; cbn [bind] in R; try discriminate. injection R as <- <-.
  destruct (inv_step isrtx rtxpt Z0 x o x1 a D W C GG F1 L1 E) as (_ & C1 & D1 & GG1 & _).
  destruct (step_stream k (s_mid s) x o x1 a s W F1 K1 E G eq_refl) as (s1 & G1 & M1 & _ & _ & PS & OP).
  assert (forall h, PV s1 (pview_next k v o a h) -> tells k v o a -> (hands_on k drained a ops l -> h = true) -> exists hs, all_told k drained v (o :: ops) (a :: l) hs) as DONE.
  { intros h P1 T HO. destruct (IH x1 z l s1 (pview_next k v o a h) D1 W1 C1 GG1 F2 L2 K2 R1 G1 M1 P1 (match o with RPollPacket => true | _ => false end)) as (hs & A).
    { destruct o; try discriminate. intros _ Q. cbn [rxstep] in E. destruct (srtp x && rtp_mode x) eqn:QQ; injection E as <- <-; [reflexivity|]. rewrite Q in QQ. discriminate. }
    exists (h :: hs). cbn [all_told]. auto. }
  destruct P as (P1 & P2 & P3 & P4).
  destruct o as [now h dec| |j rtx m' r supp|j|m'|m' r|m'|c| |m'|j roc|j fir|j b|j b|m' r b|j d|now j ntp rtp|now sender iva ivv| | |j]; cbn [pause_step] in PS;
  try (assert (pz s1 = pz s) as PZ by exact PS; unfold pz in PZ; injection PZ as _ Q2 Q3 Q4 Q5; apply (DONE false); [unfold PV; cbn [pview_next]; repeat split; try congruence; intro; rewrite Q3; apply P4; congruence|destruct a; cbn [tells]; try exact I; cbn [only_poll] in OP; contradiction|destruct a; cbn [hands_on]; try contradiction; cbn [only_poll] in OP; contradiction]; fail).
  - destruct PS as (b & PS). cbn [rxstep] in E. destruct (handle_rtp x now h dec) as [[y' evs]| |] eqn:H; cbn [bind] in E; try discriminate. injection E as -> <-.
    destruct (woke_dec now s s1) as [WK|WK].
    + destruct WK as (A1 & A2 & A3 & A4). apply (DONE true); [|exact I|auto]. unfold PV. cbn [pview_next v_thr v_until v_told is_paused]. rewrite A1, A2, A3, A4, P1. repeat split. intro Q. apply orb_false_iff in Q as [Q1 Q2]. rewrite P4, Q1 by exact Q2. reflexivity.
    + assert (hears now s s1 false) as (A1 & A2 & A3 & A4) by (destruct b; [exfalso; apply WK; exact PS|exact PS]).
      apply (DONE false); [unfold PV; cbn [pview_next]; repeat split; try congruence; intro; rewrite A2; apply P4; congruence|exact I|]. intro HO. exfalso. apply WK.
      assert (exists p, handed x x1 evs p /\ ssrc (q_hdr p) = k) as HX.
      { cbn [hands_on] in HO. destruct HO as [(m & r & p & HI & HS)|(HD & HO)]; [exists p; split; [right; eauto|exact HS]|].
        destruct ops as [|[] ops']; try contradiction. destruct l as [|[] l']; try contradiction. destruct p as [p|]; [|contradiction]. exists p. split; [left|exact HO].
        cbn [rxrun rxstep] in R1. destruct (srtp x1 && rtp_mode x1) eqn:SR; cbn [bind] in R1; [|destruct (rxrun x1 ops') as [[? ?]| |]; cbn [bind] in R1; discriminate].
        destruct (rxrun (set_pending x1 (bytes_rx x1) None) ops') as [[? ?]| |]; cbn [bind] in R1; try discriminate. injection R1 as _ R1 _. split; [|exact R1].
        apply DR; [exact HD|]. assert (srtp x1 = srtp x /\ rtp_mode x1 = rtp_mode x) as [<- <-]; [|exact SR].
        destruct F1 as [HS HD']. destruct (handle_rtp_total x now h dec W HS HD') as (y' & evs' & x2 & o & E' & EM & W2 & CC). rewrite H in E'. injection E' as <- <-. destruct (sm_mid_for_header _ _ _ _ _ EM) as (_ & SM1 & SM2).
        destruct o as [[m j]|]; [|destruct CC; subst; auto]. destruct (rxcase_taken _ _ _ _ _ _ _ _ W2 HS HD' CC) as (_ & _ & T1 & T2). split; congruence. }
      destruct (rtp_heard k (s_mid s) x now h dec x1 evs s W C L1 F1 K1 G eq_refl H HX) as (s' & G' & WK'). congruence.
  - apply (DONE false).
    + unfold PV. cbn [pview_next]. destruct (j =? k); [destruct PS as (Q2 & Q3 & Q4 & Q5)|unfold pz in PS; injection PS as _ Q2 Q3 Q4 Q5]; cbn [v_thr v_until v_told]; (repeat split; try congruence; first [rewrite Q3, P3; reflexivity|intro; rewrite Q3; apply P4; congruence]).
    + destruct a; cbn [tells]; try exact I; cbn [only_poll] in OP; contradiction.
    + destruct a; cbn [hands_on]; try contradiction; cbn [only_poll] in OP; contradiction.
  - apply (DONE false).
    + unfold PV. cbn [pview_next]. unfold srx_timeout in PS. rewrite P2 in PS. destruct (v_until v) as [t|] eqn:U.
      * destruct (now <? t) eqn:Q; [replace (t <=? now) with false by lia|replace (t <=? now) with true by lia]; unfold pz in PS; injection PS as _ Q2 Q3 Q4 Q5; cbn [v_thr v_until v_told is_paused set_pause s_check s_paused s_need s_thr] in *.
        -- rewrite U. repeat split; try congruence. intro; rewrite Q3; apply P4; congruence.
        -- repeat split; congruence.
      * unfold pz in PS; injection PS as _ Q2 Q3 Q4 Q5. rewrite U. repeat split; try congruence. intro; rewrite Q3; apply P4; congruence.
    + destruct a; cbn [tells]; try exact I; cbn [only_poll] in OP; contradiction.
    + destruct a; cbn [hands_on]; try contradiction; cbn [only_poll] in OP; contradiction.
  - specialize (PS KN). destruct a as [| | |j p| |]; try contradiction.
    + apply (DONE false); [| |intros []]; cbn [pview_next tells].
      * destruct (j =? k) eqn:Q; [destruct PS as (Q1 & Q2 & Q3 & Q4 & Q5)|unfold pz in PS; injection PS as _ Q2 Q3 Q4 Q5]; unfold PV; cbn [v_thr v_until v_told].
        -- repeat split; try congruence. rewrite Q3, P3. reflexivity.
        -- repeat split; try congruence. intro; rewrite Q3; apply P4; congruence.
      * intros ->. rewrite Z.eqb_refl in PS. destruct PS as (-> & _). exact P3.
    + destruct PS as [PN PS]. apply (DONE false); [| |intros []]; cbn [pview_next tells].
      * unfold pz in PS; injection PS as _ Q2 Q3 Q4 Q5. unfold PV. repeat split; try congruence. intro; rewrite Q3; apply P4; congruence.
      * rewrite (P4 PN). exact P3.
Qed.
End Classified.

(** ** Reports that are due *)
Lemma report_given g : RR g -> first g <> None -> exists r, snd (reception_report g) = Ok r.
Proof.
  intros [G F] H. unfold reception_report. destruct (first g) as [f|]; [|contradiction]. destruct (F f eq_refl) as (e & -> & L). unfold expected. replace (e <? f) with false by lia. cbn [snd]. eauto.
Qed.
Lemma due_in x now iva ivv k s : aget k (streams x) = Some s -> need_rr s now iva ivv = true -> existsb (leqb (s_mid s)) (due_mids x now iva ivv) = true.
Proof.
  intros G N. apply existsb_exists. exists (s_mid s). split; [|apply leqb_refl]. unfold due_mids. apply in_map_iff. exists (k, s). split; [reflexivity|]. apply filter_In. split; [apply aget_some_in; exact G|exact N].
Qed.
Lemma feedback_min x iva ivv t : feedback_at x iva ivv = Some t -> exists k s, In (k, s) (streams x) /\ t = report_at s iva ivv.
Proof.
  unfold feedback_at. revert t. induction (streams x) as [|[k s] l IH]; intros t H; [discriminate|]. cbn [fold_right snd] in H. destruct (fold_right _ None l) as [u|] eqn:E.
  - injection H as <-. destruct (Z.min_spec (report_at s iva ivv) u) as [[_ ->]|[_ ->]]; [exists k, s; split; [left|]; reflexivity|]. destruct (IH u eq_refl) as (k' & s' & H1 & H2). exists k', s'. split; [right; exact H1|exact H2].
  - injection H as <-. exists k, s. split; [left|]; reflexivity.
Qed.

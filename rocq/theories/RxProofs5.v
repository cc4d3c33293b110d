(** A packet, with the classification and the packets taken so far. *)
From Verif Require Import Base BaseFacts SeqModel SeqProofs NackModel RegisterModel MtimeModel ExtModel HeaderModel HeaderProofs TxModel RxModel RxReg RxSpec RxProofs RxProofs2 RxProofs3 RxProofs4.

Lemma not_accepted_le r q : RR r -> raccepts r q = false -> exists e, rmax_seq r = Some e /\ q <= e.
Proof.
  intros [G _] A. unfold raccepts, accepts in A. unfold rmax_seq, max_seq. destruct (active (rnack r)) as [[s e]|] eqn:E; [|discriminate].
  exists e. split; [reflexivity|]. destruct (rg_start _ _ _ G E) as [X _]. destruct (q <? s) eqn:Q; [lia|]. apply orb_false_iff in A as [_ A]. lia.
Qed.
Lemma raccepts_update r p q : 0 <= p -> RR r -> raccepts r q = false -> raccepts (fst (rupdate r p)) q = false.
Proof. intros P [G _] A. unfold raccepts. rewrite rupdate_nack. apply shut_update; assumption. Qed.
Lemma raccepts_self r q : 0 <= q -> RR r -> raccepts (fst (rupdate r q)) q = false.
Proof. intros P [G _]. unfold raccepts. rewrite rupdate_nack. apply shut_self; assumption. Qed.
Lemma rmax_update r q : RR r -> rmax_seq (fst (rupdate r q)) = Some (match rmax_seq r with Some e => Z.max e q | None => q end).
Proof. intros [G _]. unfold rmax_seq. rewrite rupdate_nack. apply upd_max. exact G. Qed.
Lemma umax_get mx k q j : aget j (update_max_seq mx k q) = if j =? k then Some (match aget k mx with Some c => Z.max c q | None => q end) else aget j mx.
Proof.
  unfold update_max_seq. destruct (aget k mx) as [c|] eqn:E; [destruct (c <? q) eqn:L|]; rewrite ?aset_get; destruct (j =? k) eqn:J; try reflexivity.
  - f_equal. lia.
  - apply Z.eqb_eq in J. subst. rewrite E. f_equal. lia.
Qed.

Lemma inner_true now rate pt s2 h seq t new data mx s3 h3 seq3 t3 new3 data3 mx3 :
  inner now rate pt s2 h seq t new data mx true s3 h3 seq3 t3 new3 data3 mx3 ->
  exists s5, un_rtx s2 h data pt = (h3, data3) /\ extend_seq s2 h3 false (seq_lookup mx) = (s5, seq3) /\
    update_register s5 now h3 rate false seq3 = Ok (s3, t3, new3) /\ mx3 = update_max_seq mx (ssrc h3) seq3.
Proof. intro IN. inversion IN; subst. eauto. Qed.
Lemma inner_false now rate pt s2 h seq t new data mx s3 h3 seq3 t3 new3 data3 mx3 :
  inner now rate pt s2 h seq t new data mx false s3 h3 seq3 t3 new3 data3 mx3 ->
  s3 = s2 /\ h3 = h /\ seq3 = seq /\ t3 = t /\ new3 = new /\ data3 = data /\ mx3 = mx.
Proof. intro IN. inversion IN; subst. auto 10. Qed.

Section Classified.
Variables isrtx rtxpt : Z -> bool.
Hypothesis H0 : isrtx 0 = false.
Notation CL := (CL isrtx rtxpt). Notation GH := (GH isrtx). Notation hcl := (hcl isrtx rtxpt).

Lemma gh_ext x y D : streams y = streams x -> maxseq y = maxseq x -> GH x D -> GH y D.
Proof. intros E1 E2 [N L T R S]. constructor; rewrite ?E1, ?E2; auto. Qed.
Lemma gh_put_same x k s s' D : WF x -> aget k (streams x) = Some s -> s_reg s' = s_reg s -> GH x D -> GH (put k s' x) D.
Proof.
  intros W E ER. apply gh_keep. split; [reflexivity|]. split; [reflexivity|]. split; [reflexivity|]. cbn. intros j t r. rewrite aset_in by apply (wf_nodup _ W). intros [[-> ->]|[_ H]] Er; [|eauto].
  exists s. split; [apply aget_some_in; exact E|congruence].
Qed.
(** the registers of stream 0 do not matter *)
Lemma gh_put_zero x s' D : WF x -> GH x D -> GH (put 0 s' x) D.
Proof.
  intros W [N L T R S]. constructor; cbn; auto.
  - intros k s r K. rewrite aset_in by apply (wf_nodup _ W). intros [[-> _]|[_ H]]; [contradiction|]. eauto.
  - intros k s r q Q. rewrite aset_in by apply (wf_nodup _ W). intros [[-> _]|[_ H]]; [|eauto]. destruct (L _ _ Q) as [Z _]. contradiction.
Qed.
Lemma gh_max_other x j q D : (j = 0 \/ isrtx j = true) -> GH x D -> (forall s r, In (j, s) (streams x) -> s_reg s = Some r -> j = 0) -> GH (set_maxseq x (update_max_seq (maxseq x) j q)) D.
Proof.
  intros J [N L T R S] HN. assert (forall k, k <> 0 -> isrtx k = false -> aget k (update_max_seq (maxseq x) j q) = aget k (maxseq x)) as E.
  { intros k K1 K2. rewrite umax_get. destruct (k =? j) eqn:X; [|reflexivity]. apply Z.eqb_eq in X. subst. destruct J; congruence. }
  constructor; cbn; auto.
  - intros k i H. destruct (L k i H) as (A & B & C). rewrite E by assumption. auto.
  - intros k mx A B. rewrite E by assumption. auto.
  - intros k s r K H Er. rewrite umax_get. destruct (k =? j) eqn:X; [|eauto]. apply Z.eqb_eq in X. subst. exfalso. apply K. eapply HN; eassumption.
Qed.
Lemma gh_extend x k s s1 D : WF x -> k <> 0 -> aget k (streams x) = Some s -> s_reg s1 = Some (opt_reg (s_reg s) (rnew (aget k (maxseq x)))) -> GH x D -> GH (put k s1 x) D.
Proof.
  intros W K E ER [N L T R S]. pose proof (aget_some_in _ _ _ E) as HE. constructor; cbn; auto.
  - intros j t r J. rewrite aset_in by apply (wf_nodup _ W). intros [[-> ->]|[_ H]] Er; [|eauto]. rewrite ER in Er. inversion Er; subst. destruct (s_reg s) as [r0|] eqn:E0; cbn [opt_reg]; [eauto|apply rnew_max].
  - intros j t r q Q. rewrite aset_in by apply (wf_nodup _ W). intros [[-> ->]|[_ H]] Er; [|eauto]. rewrite ER in Er. inversion Er; subst. destruct (s_reg s) as [r0|] eqn:E0; cbn [opt_reg]; [eauto|].
    destruct (L _ _ Q) as (_ & _ & mx & -> & Lq). unfold raccepts, rnew. cbn [rnack]. apply shut_new. exact Lq.
Qed.
Lemma gh_update x k s s2 r seq D : WF x -> k <> 0 -> isrtx k = false -> aget k (streams x) = Some s -> s_reg s = Some r -> RR r -> 0 <= seq ->
  s_reg s2 = Some (fst (rupdate r seq)) -> GH x D ->
  GH (set_maxseq (put k s2 x) (update_max_seq (maxseq x) k seq)) (if raccepts r seq then (k, seq) :: D else D) /\ (raccepts r seq = true -> ~ In (k, seq) D).
Proof.
  intros W K HK E ER RRr Q E2 [N L T R S]. pose proof (aget_some_in _ _ _ E) as HE. pose proof (R _ _ _ K HE ER) as EM.
  assert (raccepts r seq = true -> ~ In (k, seq) D) as NI by (intros A H; rewrite (S _ _ _ _ H HE ER) in A; discriminate).
  split; [|exact NI]. constructor; cbn.
  - destruct (raccepts r seq); [constructor; auto|exact N].
  - assert (forall j i, In (j, i) D -> j <> 0 /\ isrtx j = false /\ (exists mx, aget j (update_max_seq (maxseq x) k seq) = Some mx /\ i <= mx)) as X.
    { intros j i H. destruct (L j i H) as (A & B & mx & C & F). split; [exact A|]. split; [exact B|]. rewrite umax_get. destruct (j =? k) eqn:J; [|eauto]. apply Z.eqb_eq in J. subst. rewrite C. eexists. split; [reflexivity|]. lia. }
    intros j i H. destruct (raccepts r seq); [|auto]. destruct H as [H|H]; [|auto]. inversion H; subst. split; [exact K|]. split; [exact HK|]. rewrite umax_get, Z.eqb_refl. eexists. split; [reflexivity|]. destruct (aget j (maxseq x)); lia.
  - intros j mx A B. rewrite umax_get. destruct (j =? k) eqn:J.
    + apply Z.eqb_eq in J. subst j. intro X. inversion X; subst mx. destruct (raccepts r seq) eqn:AC.
      * destruct (aget k (maxseq x)) as [c|] eqn:EC; [|left; reflexivity]. destruct (Z.max_spec c seq) as [[_ ->]|[_ ->]]; [left; reflexivity|right; auto].
      * destruct (not_accepted_le r seq RRr AC) as (e & Ee & Le). rewrite EM in Ee. rewrite Ee. replace (Z.max e seq) with e by lia. auto.
    + intro X. destruct (raccepts r seq); [right|]; auto.
  - intros j t r0 J. rewrite aset_in by apply (wf_nodup _ W). intros [[-> ->]|[Hn H]] Er.
    + rewrite E2 in Er. inversion Er; subst. rewrite rmax_update by exact RRr. rewrite umax_get, Z.eqb_refl, EM. reflexivity.
    + rewrite umax_get. destruct (j =? k) eqn:X; [apply Z.eqb_eq in X; contradiction|]. eauto.
  - intros j t r0 i Hi. rewrite aset_in by apply (wf_nodup _ W). intros [[-> ->]|[Hn H]] Er.
    + rewrite E2 in Er. inversion Er; subst. assert (In (k, i) D -> raccepts (fst (rupdate r seq)) i = false) as Y by (intro Y; apply raccepts_update; [exact Q|exact RRr|]; eapply S; eassumption).
      destruct (raccepts r seq); [|auto]. destruct Hi as [Hi|Hi]; [|auto]. inversion Hi; subst. apply raccepts_self; assumption.
    + destruct (raccepts r seq); [|eauto]. destruct Hi as [Hi|Hi]; [inversion Hi; subst; contradiction|eauto].
Qed.
Lemma cl_put x k s s' : WF x -> aget k (streams x) = Some s -> s_rtx s' = s_rtx s -> CL x -> CL (put k s' x).
Proof.
  intros W E ER C. apply cl_sub; [exact C| |auto]. intros j t. rewrite aset_in by apply (wf_nodup _ W). intros [[-> ->]|[_ H]]; [|eauto]. exists s. split; [apply aget_some_in; exact E|exact ER].
Qed.

(** where the packet comes from *)
Lemma inner_made now rate pt k s2 h seq t new data mx rep s3 h3 seq3 t3 new3 data3 mx3 : SRI k s2 -> max_ok mx -> bytes_ok data -> seq mod U16 = sequence_number h ->
  inner now rate pt s2 h seq t new data mx rep s3 h3 seq3 t3 new3 data3 mx3 ->
  forall p, q_hdr p = h3 -> q_pay p = data3 -> q_seq p = seq3 -> made_from h seq data p.
Proof.
  intros I MX B HM IN p E1 E2 E3. split; [exact HM|]. inversion IN; subst; clear IN.
  - left. auto.
  - right. match goal with HU : un_rtx _ _ _ _ = _, HE : extend_seq _ _ _ _ = _ |- _ =>
      pose proof (un_rtx_fields _ _ _ _ _ _ HU) as (U1 & U2 & _); pose proof (extend_seq_ok k _ _ _ _ _ _ I (fun q Q => MX _ _ Q) (U2 B) HE) as Z; rename HU into HUN end. cbn zeta in Z. destruct Z as (_ & _ & Z & _).
    unfold un_rtx, read_osn in HUN. destruct data as [|a [|b l]]; [contradiction| |]; pose proof (f_equal fst HUN) as A1; pose proof (f_equal snd HUN) as A2; cbn [fst snd] in A1, A2; rewrite <- A1 in Z; cbn [sequence_number] in Z.
    + right. exists (s_ssrc s2), pt, a. split; [reflexivity|]. split; [symmetry; exact A1|]. split; [symmetry; exact A2|]. exact Z.
    + left. exists (s_ssrc s2), pt, a, b, l. split; [reflexivity|]. unfold rd16 in *. replace (256 * a + b) with (a * 256 + b) by lia. split; [symmetry; exact A1|]. split; [symmetry; exact A2|]. exact Z.
Qed.

Definition outcome (x : sess) now h dec (y : sess) (D D' : list (Z * Z)) : Prop :=
  (D' = D /\ pending y = pending x) \/
  (exists pk, D' = pid pk :: D /\ ~ In (pid pk) D /\ pending y = (if rtp_mode x then Some pk else pending x) /\ srtp y = true /\ taken now h dec pk).

Lemma gh_rxcase x now h dec m k y evs D : WF x -> CL x -> GH x D -> hcl h -> 0 <= sequence_number h < U16 -> (forall q raw, dec q = Some raw -> bytes_ok raw) ->
  isrtx k = false -> (isrtx (ssrc h) = false -> k = ssrc h) -> rxcase x now h dec m k y evs ->
  CL y /\ exists D', GH y D' /\ outcome x now h dec y D D'.
Proof.
  intros W C G HC HS HD HK HM RC. pose proof (wf_max _ W) as MX.
  assert (CLY : CL y).
  { destruct (rxcase_shape _ _ _ _ _ _ _ _ W HS HD RC) as (_ & E1 & _ & E2 & _ & _ & _ & E3). destruct C as [c1 c2 c3 c4]. destruct E3 as [E3|(s & s' & E4 & R & E3)].
    - constructor; rewrite ?E1, ?E2, ?E3; auto.
    - constructor; rewrite ?E1, ?E2; auto; rewrite E3.
      + intros j t. rewrite aset_in by apply (wf_nodup _ W). intros [[-> _]|[_ H]]; eauto.
      + intros j t q. rewrite aset_in by apply (wf_nodup _ W). intros [[-> ->]|[_ H]]; [|eauto]. rewrite (rb_rtx _ _ _ _ R). apply c3 with (k := k). apply aget_some_in. exact E4. }
  split; [exact CLY|]. clear CLY.
  assert (REP : forall p, k <> 0 -> params_of x k (payload_type h) = Some p -> negb (p_pt p =? payload_type h) = isrtx (ssrc h)).
  { intros p K E. unfold params_of in E. replace (k =? 0) with false in E by lia. rewrite (cl_find_param _ _ _ _ _ C E). symmetry.
    destruct (Z.eq_dec (ssrc h) 0) as [Z0|Z0]; [exfalso; rewrite Z0 in HM; apply K, HM, H0|]. apply (proj2 HC Z0). }
  (* k = 0 changes nothing *)
  assert (ZERO : forall s' mx', k = 0 -> (exists q, mx' = update_max_seq (maxseq x) (ssrc h) q \/ exists q', mx' = update_max_seq (update_max_seq (maxseq x) (ssrc h) q) 0 q') -> GH (set_maxseq (put k s' x) mx') D).
  { intros s' mx' -> HQ. assert (ssrc h = 0 \/ isrtx (ssrc h) = true) as HZ by (destruct (isrtx (ssrc h)) eqn:X; [auto|left; symmetry; auto]).
    assert (forall q, GH (set_maxseq (put 0 s' x) (update_max_seq (maxseq x) (ssrc h) q)) D) as G1.
    { intro q. apply (gh_max_other (put 0 s' x) (ssrc h) q D HZ (gh_put_zero _ _ _ W G)). intros s0 r H _. destruct HZ as [HZ|HZ]; [exact HZ|]. exfalso.
      cbn in H. rewrite aset_in in H by apply (wf_nodup _ W). destruct H as [[H _]|[_ H]]; [congruence|]. apply (cl_key _ _ _ C) in H. congruence. }
    destruct HQ as (q & [->|(q' & ->)]); [apply G1|]. pose proof (gh_max_other _ 0 q' D (or_introl eq_refl) (G1 q)) as G2. cbn in G2. apply G2. auto. }
  destruct RC as [SK|s p s1 seq rep E0 E1 E2 E3 E4 Dj|s p s1 seq rep raw s2 t2 new2 E0 E1 E2 E3 E4 EN ED EU ER EUp|s p s1 seq rep raw data s2 t2 new2 s3 h3 seq3 t3 new3 data3 mx3 E0 E1 E2 E3 E4 EN ED EU EUp IN K0|s p s1 seq rep raw data s2 t2 new2 s3 h3 seq3 t3 new3 data3 mx3 s4 pk E0 E1 E2 E3 E4 EN ED EU EUp IN K0 EP];
  [exists D; split; [exact G|left; auto]|..]; pose proof (wf_str _ W _ _ (aget_some_in _ _ _ E1)) as I; pose proof (extend_seq_ok k _ _ _ _ _ _ I (fun q Q => MX _ _ Q) HS E4) as XX; cbn zeta in XX; destruct XX as (I1 & Q1 & M1 & ES & _);
  set (r := opt_reg (reg_of rep s) (rnew (seq_lookup (maxseq x) (ssrc h)))) in *; assert (reg_of rep s1 = Some r) as ER1 by (rewrite ES; destruct rep; reflexivity).
  - exists D. split; [|left; auto]. destruct (Z.eq_dec k 0) as [->|K]; [apply gh_put_zero; assumption|]. destruct rep.
    + apply (gh_put_same x k s); try assumption. rewrite ES. reflexivity.
    + apply (gh_extend x k s); try assumption. rewrite ES. cbn [s_reg set_regs]. unfold r, reg_of, seq_lookup. rewrite (REP p K E2) in E3. rewrite (HM (eq_sym E3)). reflexivity.
  - exists D. split; [|left; auto]. destruct (Z.eq_dec k 0) as [K|K]; [apply ZERO; eauto|]. rewrite (REP p K E2) in E3. rewrite ER in E3.
    destruct (rxb_update k _ _ _ _ _ _ _ _ _ _ I1 Q1 ER1 EUp) as (R2 & _ & _ & Rn). rewrite ER in Rn. cbn [negb reg_of] in Rn.
    assert (s_reg s2 = s_reg s) as RS by (rewrite Rn, ES, ER; reflexivity).
    apply (gh_max_other (put k s2 x) (ssrc h) seq D); [right; congruence|apply (gh_put_same x k s); assumption|]. intros s0 r0 H _. exfalso. cbn in H. rewrite aset_in in H by apply (wf_nodup _ W). destruct H as [[H _]|[_ H]]; [congruence|]. apply (cl_key _ _ _ C) in H. congruence.
  - exists D. split; [|left; auto]. apply ZERO; [exact K0|]. inversion IN; subst; [eauto|]. exists seq. right. eexists.
    match goal with HU : un_rtx _ _ _ _ = _ |- _ => pose proof (un_rtx_fields _ _ _ _ _ _ HU) as (U1 & _) end.
    destruct (rxb_update 0 _ _ _ _ _ _ _ _ _ _ I1 Q1 ER1 EUp) as (R2 & _). rewrite U1, (sri_key _ _ (rb_sri _ _ _ _ R2)). reflexivity.
  - rewrite (REP p K0 E2) in E3. destruct (rxb_update k _ _ _ _ _ _ _ _ _ _ I1 Q1 ER1 EUp) as (R2 & N2 & Rg2 & Rn2). pose proof (rb_sri _ _ _ _ R2) as I2.
    pose proof (umax_ok _ (ssrc h) _ MX Q1) as MX2. pose proof (unpad_bytes _ _ _ (HD _ _ ED) EU) as BD.
    destruct (inner_ok _ _ _ k _ _ _ _ _ _ _ _ _ _ _ _ _ _ _ I2 Q1 MX2 BD IN) as (R3 & M3 & Q3).
    pose proof (srx_rtp_ok k s3 now h3 data3 seq3 t3 (rb_sri _ _ _ _ R3)) as Z. cbn zeta in Z. rewrite EP in Z. cbn [fst snd] in Z. destruct Z as (Z1 & Z2 & Z3 & Z4 & Z5 & Z6 & Z7 & Z8 & Z9 & Z10 & Z11 & _).
    assert (TK : taken now h dec pk). { split; [exact Z11|]. exists seq, raw, data. split; [exact ED|]. split; [exact EU|]. exact (inner_made _ _ _ k _ _ _ _ _ _ _ _ _ _ _ _ _ _ _ I2 MX2 BD M1 IN pk Z9 Z10 Z8). }
    assert (ssrc h3 = k /\ exists D', GH (set_maxseq (put k s3 x) mx3) D' /\ ((new3 = false /\ D' = D) \/ (new3 = true /\ D' = (k, seq3) :: D /\ ~ In (k, seq3) D))) as (EK & D' & GD & DD).
    { destruct rep; cbn [reg_of negb] in *.
      - (* repair *)
        destruct (inner_true _ _ _ _ _ _ _ _ _ _ _ _ _ _ _ _ _ IN) as (s5 & HU & HE & EX & EMX).
        pose proof (un_rtx_fields _ _ _ _ _ _ HU) as (U1 & U2 & _). rewrite (sri_key _ _ I2) in U1. split; [exact U1|].
        pose proof (extend_seq_ok k _ _ _ _ _ _ I2 (fun q Q => MX2 _ _ Q) (U2 BD) HE) as YY; cbn zeta in YY; destruct YY as (I3 & Q4 & _ & ES3 & _).
        rewrite U1 in EMX, ES3. set (mx2 := update_max_seq (maxseq x) (ssrc h) seq) in *.
        assert (s_reg s2 = s_reg s) as RS by (rewrite Rn2, ES; reflexivity).
        assert (GH (set_maxseq (put k s2 x) mx2) D) as G2.
        { apply (gh_max_other (put k s2 x) (ssrc h) seq D); [right; congruence|apply (gh_put_same x k s); assumption|]. intros s0 r0 H _. exfalso. cbn in H. rewrite aset_in in H by apply (wf_nodup _ W). destruct H as [[H _]|[_ H]]; [congruence|]. apply (cl_key _ _ _ C) in H. congruence. }
        assert (WF (set_maxseq (put k s2 x) mx2)) as W2 by (apply wf_maxseq; [eapply wf_put; [exact W|exact E1|exact I2|rewrite (rb_mid _ _ _ _ R2), ES; reflexivity]|exact MX2]).
        assert (aget k (streams (set_maxseq (put k s2 x) mx2)) = Some s2) as A2 by (cbn; rewrite aset_get, Z.eqb_refl; reflexivity).
        cbn [reg_of] in ES3. set (r3 := opt_reg (s_reg s2) (rnew (seq_lookup mx2 k))) in *.
        assert (s_reg s5 = Some r3) as ER3 by (rewrite ES3; reflexivity).
        pose proof (gh_extend _ k s2 s5 D W2 K0 A2 ER3 G2) as G3.
        assert (WF (put k s5 (set_maxseq (put k s2 x) mx2))) as W3 by (eapply wf_put; [exact W2|exact A2|exact I3|rewrite ES3; reflexivity]).
        destruct (rxb_update k s5 now h3 (p_clock p) false seq3 s3 t3 new3 r3 I3 Q4 ER3 EX) as (R5 & N5 & Rg5 & _).
        assert (RR r3) as RR3 by (pose proof (sri_reg _ _ I3) as X; rewrite ER3 in X; apply X).
        pose proof (gh_update _ k s5 s3 r3 seq3 D W3 K0 HK ltac:(cbn; rewrite aset_get, Z.eqb_refl; reflexivity) ER3 RR3 (proj1 Q4) Rg5 G3) as [G4 NI].
        eexists. split; [eapply gh_ext; [| |exact G4]|].
        + cbn. rewrite !aset_aset. reflexivity.
        + cbn. exact EMX.
        + rewrite <- N5 in *. destruct new3; [right|left]; auto.
      - destruct (inner_false _ _ _ _ _ _ _ _ _ _ _ _ _ _ _ _ _ IN) as (F1 & F2 & F3 & F4 & F5 & F6 & F7).
        assert (k = ssrc h) as EKH by (apply HM; congruence). split; [congruence|].
        assert (s_reg s1 = Some (opt_reg (s_reg s) (rnew (aget k (maxseq x))))) as ER3 by (rewrite ER1; unfold r, reg_of, seq_lookup; rewrite EKH; reflexivity).
        pose proof (gh_extend _ k s s1 D W K0 E1 ER3 G) as G3.
        assert (WF (put k s1 x)) as W3 by (eapply wf_put; [exact W|exact E1|exact I1|rewrite ES; reflexivity]).
        assert (RR r) as RR3 by (pose proof (sri_reg _ _ I1) as X; rewrite ER1 in X; apply X).
        pose proof (gh_update _ k s1 s2 r seq D W3 K0 HK ltac:(cbn; rewrite aset_get, Z.eqb_refl; reflexivity) ER1 RR3 (proj1 Q1) Rg2 G3) as [G4 NI].
        eexists. split; [eapply gh_ext; [| |exact G4]|].
        + cbn. rewrite F1, !aset_aset. reflexivity.
        + cbn. rewrite F7, EKH. reflexivity.
        + rewrite F5, F3, N2 in *. destruct (raccepts r seq); [right|left]; auto. }
    assert (PK : pid pk = (k, seq3)) by (unfold pid; rewrite Z8, Z9, EK; reflexivity).
    exists D'. split.
    { refine (gh_ext _ _ _ _ _ (gh_put_same (set_maxseq (put k s3 x) mx3) k s3 s4 D' _ _ Z6 GD)).
      - cbn. rewrite aset_aset. reflexivity.
      - reflexivity.
      - apply wf_maxseq; [|exact M3]. eapply wf_put; [exact W|exact E1|apply R3|]. rewrite (rb_mid _ _ _ _ R3), (rb_mid _ _ _ _ R2), ES. destruct rep; reflexivity.
      - cbn. rewrite aset_get, Z.eqb_refl. reflexivity. }
    destruct DD as [[-> ->]|[-> [-> NI]]]; [left|right].
    + split; [reflexivity|]. cbn. destruct (rtp_mode x); reflexivity.
    + exists pk. rewrite PK. split; [reflexivity|]. split; [exact NI|]. split; [reflexivity|]. split; [exact E0|exact TK].
Qed.
End Classified.

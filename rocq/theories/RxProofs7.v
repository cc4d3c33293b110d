(** What is handed out is authentic; what is fresh is handed out. *)
From Verif Require Import Base BaseFacts SeqModel SeqProofs NackModel RegisterModel MtimeModel ExtModel HeaderModel HeaderProofs TxModel RxModel RxReg RxSpec RxProofs RxProofs2 RxProofs3 RxProofs4 RxProofs5 RxProofs6.

(** ** Authenticity, for any peer *)
Definition SM (x y : sess) : Prop := pending y = pending x /\ rtp_mode y = rtp_mode x /\ srtp y = srtp x.
Lemma sm_refl x : SM x x. Proof. split; auto. Qed.
Lemma sm_trans x y z : SM x y -> SM y z -> SM x z. Proof. intros (A & B & C) (A' & B' & C'). repeat split; congruence. Qed.
Lemma sm_mid_ssrc x now k : SM x (fst (mid_ssrc x now k)).
Proof. unfold mid_ssrc. destruct (aget k (lookups x)); [split; auto|]. destruct (by_ssrc_or_rtx _ _); split; auto. Qed.
Lemma sm_map_finish x m r main rtx b y : map_finish x m r main rtx b = Ok y -> SM x y.
Proof.
  unfold map_finish. destruct (by_midrid (streams x) m r) as [s|]; cbn [bind]; [|intro E; inversion E; split; auto].
  assert (forall y0, (if s_ssrc s =? main then Ok x else do z <- change_rx_ssrc x (s_ssrc s) main; Ok (fst z)) = Ok y0 -> SM x y0) as HY.
  { intros y0. destruct (s_ssrc s =? main); [intro E; inversion E; apply sm_refl|]. unfold change_rx_ssrc. destruct (aget _ _); [|discriminate]. destruct (change_ssrc _ _); cbn; intro E; inversion E; split; auto. }
  destruct (if s_ssrc s =? main then _ else _) as [y0| |]; cbn [bind]; [|discriminate|discriminate]. specialize (HY y0 eq_refl). intro E. inversion E.
  eapply sm_trans; [exact HY|]. destruct (s_rtx s); [destruct rtx as [q|]; [destruct (z =? q)|]|]; split; auto.
Qed.
Lemma sm_map_dynamic x h y : map_dynamic x h = Ok y -> SM x y.
Proof.
  unfold map_dynamic. destruct (mid (ext_vals h)); [|intro E; inversion E; apply sm_refl]. destruct (find_media _ _); [|intro E; inversion E; apply sm_refl]. destruct (find_param _ _); [|intro E; inversion E; apply sm_refl].
  cbn zeta. set (rid_ := match rid (ext_vals h) with Some a => Some a | None => _ end). destruct (match rid_ with Some a => _ | None => _ end); [|intro E; inversion E; apply sm_refl].
  destruct (map_pair _ _ _ _ _) as [[? ?]|]; [apply sm_map_finish|intro E; inversion E; apply sm_refl].
Qed.
Lemma sm_mid_for_header x now h y o : mid_for_header x now h = Ok (y, o) -> SM x y.
Proof.
  unfold mid_for_header. pose proof (sm_mid_ssrc x now (ssrc h)) as A. destruct (mid_ssrc x now (ssrc h)) as [x1 o1]. cbn [fst] in A. destruct o1; [intro E; inversion E; subst; exact A|].
  destruct (map_dynamic x1 h) as [x2| |] eqn:E2; cbn [bind]; [|discriminate|discriminate]. pose proof (sm_map_dynamic _ _ _ E2) as B. pose proof (sm_mid_ssrc x2 now (ssrc h)) as C. destruct (mid_ssrc x2 now (ssrc h)) as [x3 o3]. cbn [fst] in C.
  pose proof (sm_trans _ _ _ A (sm_trans _ _ _ B C)) as Z. destruct o3; [intro E; inversion E; subst; exact Z|]. destruct (ssrc h =? 0); intro E; inversion E; subst; [|exact Z]. destruct Z as (Z1 & Z2 & Z3). split; auto.
Qed.
Lemma rxcase_taken x now h dec m k y evs : WF x -> 0 <= sequence_number h < U16 -> (forall q raw, dec q = Some raw -> bytes_ok raw) -> rxcase x now h dec m k y evs ->
  (pending y = pending x \/ exists p, pending y = Some p /\ taken now h dec p) /\ (forall a b p, In (EvDepay a b p) evs -> taken now h dec p) /\ rtp_mode y = rtp_mode x /\ srtp y = srtp x.
Proof.
  intros W HS HD RC. destruct (rxcase_shape _ _ _ _ _ _ _ _ W HS HD RC) as (_ & _ & _ & _ & EM & ESR & _). split; [|split; [|auto]].
  - destruct RC as [SK|s p s1 seq rep E0 E1 E2 E3 E4 Dj|s p s1 seq rep raw s2 t2 new2 E0 E1 E2 E3 E4 EN ED EU ER EUp|s p s1 seq rep raw data s2 t2 new2 s3 h3 seq3 t3 new3 data3 mx3 E0 E1 E2 E3 E4 EN ED EU EUp IN K0|s p s1 seq rep raw data s2 t2 new2 s3 h3 seq3 t3 new3 data3 mx3 s4 pk E0 E1 E2 E3 E4 EN ED EU EUp IN K0 EP]; try (left; reflexivity).
    cbn. destruct (rtp_mode x); [|auto]. destruct new3; [|auto]. right. exists pk. split; [reflexivity|].
    pose proof (wf_max _ W) as MX. pose proof (wf_str _ W _ _ (aget_some_in _ _ _ E1)) as I. pose proof (extend_seq_ok k _ _ _ _ _ _ I (fun q Q => MX _ _ Q) HS E4) as XX; cbn zeta in XX; destruct XX as (I1 & Q1 & M1 & ES & _).
    set (r := opt_reg (reg_of rep s) (rnew (seq_lookup (maxseq x) (ssrc h)))) in *; assert (reg_of rep s1 = Some r) as ER1 by (rewrite ES; destruct rep; reflexivity).
    destruct (rxb_update k _ _ _ _ _ _ _ _ _ _ I1 Q1 ER1 EUp) as (R2 & _). pose proof (rb_sri _ _ _ _ R2) as I2. pose proof (umax_ok _ (ssrc h) _ MX Q1) as MX2. pose proof (unpad_bytes _ _ _ (HD _ _ ED) EU) as BD.
    destruct (inner_ok _ _ _ k _ _ _ _ _ _ _ _ _ _ _ _ _ _ _ I2 Q1 MX2 BD IN) as (R3 & M3 & Q3).
    pose proof (srx_rtp_ok k s3 now h3 data3 seq3 t3 (rb_sri _ _ _ _ R3)) as Z. cbn zeta in Z. rewrite EP in Z. cbn [fst snd] in Z. destruct Z as (_ & _ & _ & _ & _ & _ & _ & Z8 & Z9 & Z10 & Z11 & _).
    split; [exact Z11|]. exists seq, raw, data. split; [exact ED|]. split; [exact EU|]. exact (inner_made (fun _ => false) (fun _ => false) eq_refl _ _ _ k _ _ _ _ _ _ _ _ _ _ _ _ _ _ _ I2 MX2 BD M1 IN pk Z9 Z10 Z8).
  - intros a b pp HI. destruct RC as [SK|s p s1 seq rep E0 E1 E2 E3 E4 Dj|s p s1 seq rep raw s2 t2 new2 E0 E1 E2 E3 E4 EN ED EU ER EUp|s p s1 seq rep raw data s2 t2 new2 s3 h3 seq3 t3 new3 data3 mx3 E0 E1 E2 E3 E4 EN ED EU EUp IN K0|s p s1 seq rep raw data s2 t2 new2 s3 h3 seq3 t3 new3 data3 mx3 s4 pk E0 E1 E2 E3 E4 EN ED EU EUp IN K0 EP]; try contradiction;
    try (unfold tw_of in HI; destruct (transport_cc (ext_vals h)); [destruct HI as [HI|[]]; discriminate HI|contradiction]).
    apply in_app_or in HI as [HI|HI]; [unfold tw_of in HI; destruct (transport_cc (ext_vals h)); [destruct HI as [HI|[]]; discriminate HI|contradiction]|].
    destruct (rtp_mode x); [contradiction|]. destruct HI as [HI|[]]. inversion HI; subst pp. clear HI.
    pose proof (wf_max _ W) as MX. pose proof (wf_str _ W _ _ (aget_some_in _ _ _ E1)) as I. pose proof (extend_seq_ok k _ _ _ _ _ _ I (fun q Q => MX _ _ Q) HS E4) as XX; cbn zeta in XX; destruct XX as (I1 & Q1 & M1 & ES & _).
    set (r := opt_reg (reg_of rep s) (rnew (seq_lookup (maxseq x) (ssrc h)))) in *; assert (reg_of rep s1 = Some r) as ER1 by (rewrite ES; destruct rep; reflexivity).
    destruct (rxb_update k _ _ _ _ _ _ _ _ _ _ I1 Q1 ER1 EUp) as (R2 & _). pose proof (rb_sri _ _ _ _ R2) as I2. pose proof (umax_ok _ (ssrc h) _ MX Q1) as MX2. pose proof (unpad_bytes _ _ _ (HD _ _ ED) EU) as BD.
    destruct (inner_ok _ _ _ k _ _ _ _ _ _ _ _ _ _ _ _ _ _ _ I2 Q1 MX2 BD IN) as (R3 & M3 & Q3).
    pose proof (srx_rtp_ok k s3 now h3 data3 seq3 t3 (rb_sri _ _ _ _ R3)) as Z. cbn zeta in Z. rewrite EP in Z. cbn [fst snd] in Z. destruct Z as (_ & _ & _ & _ & _ & _ & _ & Z8 & Z9 & Z10 & Z11 & _).
    split; [exact Z11|]. exists seq, raw, data. split; [exact ED|]. split; [exact EU|]. exact (inner_made (fun _ => false) (fun _ => false) eq_refl _ _ _ k _ _ _ _ _ _ _ _ _ _ _ _ _ _ _ I2 MX2 BD M1 IN pk Z9 Z10 Z8).
Qed.
Lemma step_pending x o y a : WF x -> op_fine x o -> rxstep x o = Ok (y, a) ->
  rtp_mode y = rtp_mode x /\
  (forall p, pending y = Some p -> pending x = Some p \/ from_ops [o] p) /\
  (forall p, In p (polled [a]) -> pending x = Some p) /\ (forall p, In p (assembled [a]) -> from_ops [o] p).
Proof.
  intros W O E. destruct o as [now h dec| |k rtx m r supp|k|m|m r|m|c| |m|k roc|k fir|k b|k b|m r b|k d|now k ntp rtp|now sender iva ivv| | |k]; cbn [rxstep op_fine] in *;
  try (inversion E; subst; cbn; (split; [reflexivity|split; [auto|split; intros p []]]); fail);
  try (inversion E; subst; cbn; unfold on_stream; destruct (aget k (streams x)); cbn; (split; [reflexivity|split; [auto|split; intros p []]]); fail).
  - destruct O as [HS HD]. destruct (handle_rtp_total x now h dec W HS HD) as (y0 & evs & x1 & o & E1 & E2 & W1 & RC). rewrite E1 in E. cbn [bind] in E. inversion E; subst; clear E.
    destruct (sm_mid_for_header _ _ _ _ _ E2) as (P1 & P2 & P3). assert (forall p, taken now h dec p -> from_ops [RRtp now h dec] p) as TK by (intros p T; exists now, h, dec; split; [left; reflexivity|exact T]).
    destruct o as [[m k]|].
    + destruct (rxcase_taken _ _ _ _ _ _ _ _ W1 HS HD RC) as (A & B & C & _). split; [congruence|]. split; [|split].
      * intros p Hp. destruct A as [A|(q & A & T)]; [left; congruence|]. right. apply TK. congruence.
      * intros p [].
      * intros p Hp. cbn in Hp. rewrite app_nil_r in Hp. apply in_flat_map in Hp as (e & He & Hp). destruct e; [contradiction|]. destruct Hp as [->|[]]. apply TK. eapply B. exact He.
    + destruct RC as [-> ->]. split; [congruence|]. split; [intros p Hp; left; congruence|]. split; intros p [].
  - destruct (srtp x && rtp_mode x); inversion E; subst; cbn; (split; [reflexivity|]); (split; [intros p Hp; auto; discriminate|]); (split; [|intros p []]); intros p Hp; [|contradiction].
    destruct (pending x); [|contradiction]. destruct Hp as [->|[]]. reflexivity.
  - destruct (find_media _ _); inversion E; subst. cbn. repeat split; auto; intros p [].
  - unfold sess_timeout, nack_at, rx_timeout in E. destruct (all_feedback _ _ _ _ _) as [[l fb]| |]; cbn [bind] in E; [|discriminate|discriminate]. inversion E; subst. cbn.
    split; [destruct (_ <? now); reflexivity|]. split; [intros p Hp; left; destruct (_ <? now); exact Hp|]. split; intros p [].
  - destruct (poll_first _ _) as [[l [s b]]|]; inversion E; subst; cbn; repeat split; auto; intros p [].
  - destruct (poll_first _ _) as [[l [s b]]|]; inversion E; subst; cbn; repeat split; auto; intros p [].
Qed.
Lemma from_app1 o ops p : from_ops [o] p -> from_ops (o :: ops) p.
Proof. intros (n & h & d & [H|[]] & T). exists n, h, d. split; [left; exact H|exact T]. Qed.
Lemma run_taken ops : forall x y l, WF x -> ops_fine x ops -> rxrun x ops = Ok (y, l) ->
  (forall p, In p (polled l) -> pending x = Some p \/ from_ops ops p) /\ (forall p, In p (assembled l) -> from_ops ops p).
Proof.
  induction ops as [|o ops IH]; intros x y l W OF R; [cbn in R; inversion R; subst; split; intros p []|].
  cbn [rxrun ops_fine] in *. destruct OF as [O1 O2]. destruct (wf_step x o W O1) as (x1 & a & E & W1). rewrite E in *. cbn [bind] in R.
  destruct (rxrun x1 ops) as [[z l']| |] eqn:ER; cbn [bind] in R; [|discriminate|discriminate]. inversion R; subst. destruct (step_pending _ _ _ _ W O1 E) as (_ & P1 & P2 & P3). destruct (IH _ _ _ W1 O2 ER) as [Q1 Q2]. split.
  - intros p Hp. change (a :: l') with ([a] ++ l') in Hp. unfold polled in Hp. rewrite flat_map_app in Hp. apply in_app_or in Hp as [Hp|Hp]; [left; apply P2; exact Hp|].
    destruct (Q1 p Hp) as [X|X]; [|right; apply from_more; exact X]. destruct (P1 p X) as [Y|Y]; [auto|right; apply from_app1; exact Y].
  - intros p Hp. change (a :: l') with ([a] ++ l') in Hp. unfold assembled in Hp. rewrite flat_map_app in Hp. apply in_app_or in Hp as [Hp|Hp]; [apply from_app1, P3; exact Hp|apply from_more, Q2; exact Hp].
Qed.

(** ** A fresh packet is handed out *)
Section Classified.
Variables isrtx rtxpt : Z -> bool.
Hypothesis H0 : isrtx 0 = false.
Notation CL := (CL isrtx rtxpt). Notation GH := (GH isrtx). Notation hcl := (hcl isrtx rtxpt).

Lemma extend_fresh o i : 0 <= i < U64 -> (forall e, o = Some e -> 0 <= e < U64 /\ Z.abs (i - e) < 32768) -> (o = None -> i < U16) -> extend_u16 o (i mod U16) = i.
Proof.
  intros Hi He Hn. destruct o as [e|].
  - destruct (He e eq_refl) as [A B]. apply (extend_exact 16); [unfold width; lia|exact A|exact Hi|exact B].
  - rewrite extend16_none. specialize (Hn eq_refl). unfold U16 in *. rewrite !Z.mod_small; lia.
Qed.
Lemma mid_ssrc_known x now k s : WF x -> CL x -> isrtx k = false -> aget k (streams x) = Some s -> snd (mid_ssrc x now k) = Some (s_mid s, k) \/ exists m, snd (mid_ssrc x now k) = Some (m, k).
Proof.
  intros W C HK E. right. unfold mid_ssrc. destruct (aget k (lookups x)) as [l|] eqn:EL.
  - exists (l_mid l). cbn. rewrite (cl_lk _ _ _ C _ _ (aget_some_in _ _ _ EL) HK). reflexivity.
  - destruct (by_ssrc_or_rtx (streams x) k) as [t|] eqn:F.
    + exists (s_mid t). unfold by_ssrc_or_rtx in F. apply find_stream_in in F as (k0 & F1 & F2). cbn. apply orb_true_iff in F2 as [F2|F2]; [apply Z.eqb_eq in F2; rewrite F2; reflexivity|].
      exfalso. unfold ozeqb in F2. destruct (s_rtx t) as [q|] eqn:Eq; [|discriminate]. apply Z.eqb_eq in F2. subst. rewrite (cl_rtx _ _ _ C _ _ _ F1 Eq) in HK. discriminate.
    + exfalso. unfold by_ssrc_or_rtx in F. pose proof (find_stream_none _ _ F k s (aget_some_in _ _ _ E)) as X. cbn in X. rewrite (sri_key _ _ (wf_str _ W _ _ (aget_some_in _ _ _ E))), Z.eqb_refl in X. discriminate.
Qed.
Lemma deliver_main x D now h dec s p i raw data : WF x -> CL x -> GH x D -> hcl h -> (forall q raw, dec q = Some raw -> bytes_ok raw) ->
  srtp x = true -> rtp_mode x = true -> ssrc h <> 0 -> isrtx (ssrc h) = false -> aget (ssrc h) (streams x) = Some s -> s_roc s = None ->
  find_param (codecs x) (payload_type h) = Some p ->
  0 <= i < U64 -> sequence_number h = i mod U16 -> dec i = Some raw -> unpad h raw = Ok data ->
  (forall mx, aget (ssrc h) (maxseq x) = Some mx -> mx < i < mx + 32768) -> (aget (ssrc h) (maxseq x) = None -> i < U16) ->
  exists y evs pk, handle_rtp x now h dec = Ok (y, evs) /\ pending y = Some pk /\ q_hdr pk = h /\ q_pay pk = data /\ q_seq pk = i /\ q_at pk = now /\ srtp y = true.
Proof.
  intros W C G HC HD Hsr Hm KN HK ES ROC FP Hi HS ED EU HF HN. set (k := ssrc h) in *.
  assert (0 <= sequence_number h < U16) as HS' by (rewrite HS; apply Z.mod_pos_bound; reflexivity).
  destruct (handle_rtp_total x now h dec W HS' HD) as (y & evs & x1 & o & E1 & E2 & W1 & RC). exists y, evs.
  unfold mid_for_header in E2. fold k in E2. destruct (mid_ssrc_known x now k s W C HK ES) as [X|(m & X)]; [assert (exists m, snd (mid_ssrc x now k) = Some (m, k)) as (m & X') by eauto; clear X; rename X' into X|].
  all: pose proof (wf_mid_ssrc x now k W) as (_ & S1 & _); pose proof (sm_mid_ssrc x now k) as (P1 & P2 & P3); assert (codecs (fst (mid_ssrc x now k)) = codecs x /\ maxseq (fst (mid_ssrc x now k)) = maxseq x) as [P4 P5] by (unfold mid_ssrc; destruct (aget k (lookups x)); [auto|destruct (by_ssrc_or_rtx _ _); auto]).
  all: destruct (mid_ssrc x now k) as [x0 o0]; cbn [fst snd] in *; subst o0; inversion E2; subst x0 o; clear E2.
  all: assert (params_of x1 k (payload_type h) = Some p) as EP0 by (unfold params_of; replace (k =? 0) with false by lia; rewrite P4; exact FP).
  all: assert (negb (p_pt p =? payload_type h) = false) as REP by (rewrite (cl_find_param _ _ _ _ _ C FP); rewrite <- HK; symmetry; apply (proj2 HC); exact KN).
  all: assert (aget k (streams x1) = Some s) as ES1 by (rewrite S1; exact ES); pose proof (wf_str _ W1 _ _ (aget_some_in _ _ _ ES1)) as I; pose proof (wf_max _ W1) as MX.
  all: set (r := opt_reg (s_reg s) (rnew (aget k (maxseq x1)))) in *.
  all: assert (rmax_seq r = aget k (maxseq x1)) as RM by (unfold r; destruct (s_reg s) as [r0|] eqn:E0; cbn [opt_reg]; [rewrite P5; apply (gh_reg _ _ _ G k s); [exact KN|apply aget_some_in; exact ES|exact E0]|apply rnew_max]).
  all: assert (RR r) as RRr by (pose proof (sri_reg _ _ I) as Y; unfold r; destruct (s_reg s); cbn [opt_reg]; [apply Y|apply rr_new; intros q Q; apply MX in Q; lia]).
  all: assert (raccepts r i = true) as AC by (destruct (raccepts r i) eqn:A; [reflexivity|exfalso]; destruct (not_accepted_le r i RRr A) as (e & Ee & Le); rewrite RM, P5 in Ee; apply HF in Ee; lia).
  all: assert (HE : forall s1 seq, extend_seq s h false (seq_lookup (maxseq x1)) = (s1, seq) -> seq = i /\ s_reg s1 = Some r)
    by (intros s1 seq EE; pose proof (extend_seq_ok k s h false (seq_lookup (maxseq x1)) s1 seq I (fun q Q => MX _ _ Q) HS' EE) as XX; cbn zeta in XX; destruct XX as (_ & _ & _ & Es1 & EQ & _);
        split; [rewrite EQ by auto; cbn [reg_of]; unfold seq_lookup; fold k; fold r; rewrite RM, HS; apply extend_fresh; [exact Hi| |rewrite P5; exact HN]; intros e Ee; split; [apply MX in Ee; exact Ee|rewrite P5 in Ee; apply HF in Ee; lia]|rewrite Es1; reflexivity]).
  all: destruct RC as [SK|s' p' s1 seq rep E0 E1' E2 E3 E4 Dj|s' p' s1 seq rep raw' s2 t2 new2 E0 E1' E2 E3 E4 EN ED' EU' ER EUp|s' p' s1 seq rep raw' data' s2 t2 new2 s3 h3 seq3 t3 new3 data3 mx3 E0 E1' E2 E3 E4 EN ED' EU' EUp IN K0|s' p' s1 seq rep raw' data' s2 t2 new2 s3 h3 seq3 t3 new3 data3 mx3 s4 pk E0 E1' E2 E3 E4 EN ED' EU' EUp IN K0 EP];
    [exfalso; destruct SK; congruence|..]; assert (s' = s) by congruence; assert (p' = p) by congruence; subst s' p'; rewrite REP in E3; subst rep; destruct (HE _ _ E4) as [-> ER1]; clear HE;
    try discriminate; try contradiction.
  1,3: exfalso; destruct Dj as [Dj|[Dj|(raw' & Dj & Dj')]]; [unfold is_new_packet in Dj; rewrite ER1, AC in Dj; discriminate|congruence|assert (raw' = raw) by congruence; subst; congruence].
  all: destruct (inner_false _ _ _ _ _ _ _ _ _ _ _ _ _ _ _ _ _ IN) as (F1 & F2 & F3 & F4 & F5 & F6 & F7); pose proof (extend_seq_ok k s h false (seq_lookup (maxseq x1)) s1 i I (fun q Q => MX _ _ Q) HS' E4) as XX; cbn zeta in XX; destruct XX as (I1 & _).
  all: destruct (rxb_update k s1 now h _ false i s2 t2 new2 r I1 Hi ER1 EUp) as (R2 & N2 & _).
  all: assert (raw' = raw) by congruence; subst raw'; assert (data' = data) by congruence; subst data'.
  all: assert (SRI k s3) as I3 by (rewrite F1; apply R2); pose proof (srx_rtp_ok k s3 now h3 data3 seq3 t3 I3) as Z; cbn zeta in Z; rewrite EP in Z; cbn [fst snd] in Z; destruct Z as (_ & _ & _ & _ & _ & _ & _ & Z8 & Z9 & Z10 & Z11 & _).
  all: exists pk; split; [exact E1|]; cbn; rewrite P2, Hm, F5, N2, AC; repeat split; congruence.
Qed.
End Classified.

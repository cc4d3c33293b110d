From Verif Require Import Base BaseFacts SeqModel NackModel RegisterModel MtimeModel ExtModel HeaderModel TxModel RxModel RxSpec RxProofs RxReg RxProofs2 RxProofs3 RxFbSpec RxFbProofs.

(** ** The feedback of one stream *)
Definition pz (s : srx) := (s_used s, s_check s, s_paused s, s_need s, s_thr s).
Lemma requests_app k a b : requests k (a ++ b) = requests k a ++ requests k b.
Proof. apply filter_app. Qed.
Lemma nack_quiet s sender s' d : mk_nack s sender = (s', d) -> wants s' = wants s /\ s_mid s' = s_mid s /\ s_rr s' = s_rr s /\ pz s' = pz s /\
  (d = [] \/ exists es, d = [FbNack sender (s_ssrc s) es]).
Proof.
  unfold mk_nack. destruct (s_supp s); [intro E; injection E as <- <-; auto 10|]. destruct (s_reg s) as [r|]; [|intro E; injection E as <- <-; auto 10].
  destruct (nack_reports (rnack r)) as [n es]. destruct es; intro E; injection E as <- <-; repeat split; eauto.
Qed.
Lemma feedback_stream s now sender dn rep s' fb : srx_feedback s now sender dn rep = Ok (s', fb) ->
  s_mid s' = s_mid s /\ wants s' = mkWant None (match s_kf s with Some true => (s_fir s + 1) mod 256 | _ => s_fir s end) None (sr_of s) /\
  s_rr s' = (if rep then now else s_rr s) /\ pz s' = pz (srx_timeout s now) /\
  (forall k, requests k fb = if s_ssrc s =? k then want_out k sender (wants s) else []) /\
  (forall k sd r lsr dlsr, In (FbRr sd (Some (k, r, lsr, dlsr))) fb -> k = s_ssrc s /\ sd = sender /\ report_times now (wants s) lsr dlsr) /\
  (rep = true -> forall g r, s_reg s = Some g -> snd (reception_report g) = Ok r -> exists lsr dlsr, In (FbRr sender (Some (s_ssrc s, r, lsr, dlsr))) fb).
Proof.
  intro E. unfold srx_feedback in E.
  destruct (mk_keyframe s sender) as [s1 a] eqn:E1.
  assert (s_mid s1 = s_mid s /\ s_ssrc s1 = s_ssrc s /\ s_remb s1 = s_remb s /\ s_info s1 = s_info s /\ s_reg s1 = s_reg s /\ s_rr s1 = s_rr s /\ pz s1 = pz s /\ s_kf s1 = None /\
          s_fir s1 = (match s_kf s with Some true => (s_fir s + 1) mod 256 | _ => s_fir s end) /\
          a = match s_kf s with Some true => [FbFir sender (s_ssrc s) (s_fir s)] | Some false => [FbPli sender (s_ssrc s)] | None => [] end) as (M1 & K1 & B1 & I1 & G1 & R1 & P1 & F1 & N1 & A1).
  { unfold mk_keyframe in E1. destruct (s_kf s) as [[|]|] eqn:Q; injection E1 as <- <-; cbn; auto 12. }
  destruct (mk_remb s1 sender) as [s2 b] eqn:E2.
  assert (s_mid s2 = s_mid s /\ s_ssrc s2 = s_ssrc s /\ s_remb s2 = None /\ s_info s2 = s_info s /\ s_reg s2 = s_reg s /\ s_rr s2 = s_rr s /\ pz s2 = pz s /\ s_kf s2 = None /\
          s_fir s2 = s_fir s1 /\ b = match s_remb s with Some b => [FbRemb sender b (s_ssrc s)] | None => [] end) as (M2 & K2 & B2 & I2 & G2 & R2 & P2 & F2 & N2 & A2).
  { unfold mk_remb in E2. rewrite B1 in E2. destruct (s_remb s) as [v|] eqn:Q; injection E2 as <- <-; cbn; rewrite ?K1; auto 12. }
  assert (exists s3 c, (if rep then mk_rr s2 now sender else Ok (s2, [])) = Ok (s3, c) /\ s_mid s3 = s_mid s /\ s_ssrc s3 = s_ssrc s /\ s_remb s3 = None /\ s_info s3 = s_info s /\ s_kf s3 = None /\
     s_fir s3 = s_fir s1 /\ s_rr s3 = (if rep then now else s_rr s) /\ pz s3 = pz s /\ (forall k, requests k c = []) /\
     (forall k sd r lsr dlsr, In (FbRr sd (Some (k, r, lsr, dlsr))) c -> k = s_ssrc s /\ sd = sender /\ report_times now (wants s) lsr dlsr) /\
     (rep = true -> forall g r, s_reg s = Some g -> snd (reception_report g) = Ok r -> exists lsr dlsr, In (FbRr sender (Some (s_ssrc s, r, lsr, dlsr))) c)) as (s3 & c & E3 & M3 & K3 & B3 & I3 & F3 & N3 & R3 & P3 & Q3 & T3 & D3).
  { destruct rep; [|exists s2, []; repeat split; auto; try (intros; contradiction); intros; discriminate].
    destruct (mk_rr s2 now sender) as [[s3 c]| |] eqn:Q; [|cbn in E; discriminate|cbn in E; discriminate]. exists s3, c. split; [reflexivity|].
    unfold mk_rr in Q. destruct (s_reg s2) as [g|] eqn:ER.
    - destruct (reception_report g) as [g' [r| |]] eqn:RR; [| |discriminate]; injection Q as <- <-; cbn; rewrite ?N2; repeat (split; [auto; fail|]).
      + split.
        * intros k sd r0 lsr dlsr [H|[H|[]]]; [|discriminate]. inversion H; subst. repeat split; auto. unfold report_times, wants, sr_of. cbn [w_sr]. rewrite I2. destruct (s_info s) as [i|]; cbn; auto.
        * intros _ g0 r0 H0 H1. rewrite <- G2 in H0. injection H0 as <-. rewrite RR in H1. injection H1 as <-. rewrite K2. eauto.
      + split; [intros k sd r0 lsr dlsr [H|[H|[]]]; discriminate|]. intros _ g0 r0 H0 H1. rewrite <- G2 in H0. injection H0 as <-. rewrite RR in H1. discriminate.
    - injection Q as <- <-; cbn; rewrite ?N2; repeat (split; [auto; fail|]). split; [intros k sd r0 lsr dlsr [H|[H|[]]]; discriminate|]. intros _ g0 r0 H0 H1. congruence. }
  rewrite E3 in E. cbn [bind] in E. destruct (if dn then mk_nack s3 sender else (s3, [])) as [s4 d] eqn:E4.
  assert (wants s4 = wants s3 /\ s_mid s4 = s_mid s3 /\ s_rr s4 = s_rr s3 /\ pz s4 = pz s3 /\ (d = [] \/ exists es, d = [FbNack sender (s_ssrc s3) es])) as (W4 & M4 & R4 & P4 & D4).
  { destruct dn; [apply nack_quiet; exact E4|]. injection E4 as <- <-. auto 10. }
  injection E as <- <-.
  assert (s_mid (srx_timeout s4 now) = s_mid s4 /\ wants (srx_timeout s4 now) = wants s4 /\ s_rr (srx_timeout s4 now) = s_rr s4) as (M5 & W5 & R5).
  { unfold srx_timeout. destruct (s_check s4); [destruct (now <? _)|]; auto. }
  split; [congruence|]. split. { rewrite W5, W4. unfold wants. rewrite F3, N3, N1, B3. unfold sr_of. rewrite I3. reflexivity. }
  split; [congruence|]. split.
  { rewrite P3 in P4. clear - P4. unfold pz in *. injection P4 as A B C D F. unfold srx_timeout. rewrite B. destruct (s_check s) eqn:Q; [destruct (now <? z)|]; cbn; congruence. }
  split. { intro k. rewrite !requests_app. rewrite Q3. assert (requests k d = []) as -> by (destruct D4 as [-> | (es & ->)]; reflexivity).
    cbn [app]. rewrite app_nil_r. subst a b. unfold want_out, wants. cbn [w_kf w_remb w_fir]. destruct (s_ssrc s =? k) eqn:Q.
    - apply Z.eqb_eq in Q. subst k. destruct (s_kf s) as [[|]|], (s_remb s); cbn; rewrite ?Z.eqb_refl; reflexivity.
    - destruct (s_kf s) as [[|]|], (s_remb s); cbn; rewrite ?Q; reflexivity. }
  split.
  { intros k sd r lsr dlsr H. apply in_app_or in H as [H|H]; [exfalso; subst a; destruct (s_kf s) as [[|]|]; cbn in H; intuition discriminate|].
    apply in_app_or in H as [H|H]; [exfalso; subst b; destruct (s_remb s); cbn in H; intuition discriminate|]. apply in_app_or in H as [H|H]; [eapply T3; exact H|].
    exfalso. destruct D4 as [-> | (es & ->)]; cbn in H; intuition discriminate. }
  intros HR g r H0 H1. destruct (D3 HR g r H0 H1) as (lsr & dlsr & H). exists lsr, dlsr. apply in_or_app. right. apply in_or_app. right. apply in_or_app. left. exact H.
Qed.
Lemma all_feedback_stream l now sender dn mids : forall l' fb k s, (forall j s, In (j, s) l -> SRI j s) -> NoDup (keys l) ->
  all_feedback l now sender dn mids = Ok (l', fb) -> aget k l = Some s ->
  exists s' b, aget k l' = Some s' /\ srx_feedback s now sender dn (existsb (leqb (s_mid s)) mids) = Ok (s', b) /\
    requests k fb = requests k b /\ (forall sd r lsr dlsr, In (FbRr sd (Some (k, r, lsr, dlsr))) fb <-> In (FbRr sd (Some (k, r, lsr, dlsr))) b).
Proof.
  assert (forall l l' fb k, (forall j s, In (j, s) l -> SRI j s) -> all_feedback l now sender dn mids = Ok (l', fb) -> ~ In k (keys l) ->
          requests k fb = [] /\ (forall sd r lsr dlsr, ~ In (FbRr sd (Some (k, r, lsr, dlsr))) fb)) as NONE.
  { clear. induction l as [|[j s] r IH]; intros l' fb k HI E N; cbn [all_feedback] in E; [injection E as <- <-; split; [reflexivity|intros ? ? ? ? []]|].
    destruct (srx_feedback s now sender dn (existsb (leqb (s_mid s)) mids)) as [[s' a]| |] eqn:F; cbn [bind] in E; try discriminate.
    destruct (all_feedback r now sender dn mids) as [[r' b]| |] eqn:R; cbn [bind] in E; try discriminate. injection E as <- <-.
    destruct (IH _ _ k (fun j s h => HI j s (or_intror h)) eq_refl (fun h => N (or_intror h))) as [I1 I2].
    destruct (feedback_stream _ _ _ _ _ _ _ F) as (_ & _ & _ & _ & Q & T & _). assert (s_ssrc s <> k) as NE. { intro A. apply N. left. cbn. rewrite (sri_key _ _ (HI j s (or_introl eq_refl))) in A. exact A. }
    rewrite requests_app, Q, I1. replace (s_ssrc s =? k) with false by lia. split; [reflexivity|]. intros sd r0 lsr dlsr H. apply in_app_or in H as [H|H]; [|eapply I2; exact H]. apply T in H as [H _]. congruence. }
  induction l as [|[j s0] r IH]; intros l' fb k s HI ND E G; [discriminate|]. cbn [all_feedback] in E.
  destruct (srx_feedback s0 now sender dn (existsb (leqb (s_mid s0)) mids)) as [[s' a]| |] eqn:F; cbn [bind] in E; try discriminate.
  destruct (all_feedback r now sender dn mids) as [[r' b]| |] eqn:R; cbn [bind] in E; try discriminate. injection E as <- <-. cbn [keys map fst] in ND. inversion ND as [|? ? N1 N2]; subst.
  cbn [aget] in *. destruct (j =? k) eqn:Q.
  - injection G as <-. apply Z.eqb_eq in Q. subst j. exists s', a. split; [reflexivity|]. split; [exact F|]. destruct (NONE _ _ _ k (fun j s h => HI j s (or_intror h)) R N1) as [X1 X2].
    rewrite requests_app, X1, app_nil_r. split; [reflexivity|]. intros. rewrite in_app_iff. split; [intros [H|H]; [exact H|exfalso; eapply X2; exact H]|auto].
  - destruct (IH _ _ k s (fun j s h => HI j s (or_intror h)) N2 eq_refl G) as (s1 & b1 & A1 & A2 & A3 & A4). exists s1, b1. split; [exact A1|]. split; [exact A2|].
    destruct (feedback_stream _ _ _ _ _ _ _ F) as (_ & _ & _ & _ & QQ & T & _). assert (s_ssrc s0 <> k) as NE by (rewrite (sri_key _ _ (HI j s0 (or_introl eq_refl))); lia).
    rewrite requests_app, QQ. replace (s_ssrc s0 =? k) with false by lia. split; [exact A3|]. intros. rewrite in_app_iff, A4. split; [intros [H|H]; [apply T in H as [H _]; congruence|exact H]|auto].
Qed.
Definition due_mids (x : sess) now iva ivv := map (fun p => s_mid (snd p)) (filter (fun p => need_rr (snd p) now iva ivv) (streams x)).
Lemma timeout_stream x now sender iva ivv y fb k s : WF x -> sess_timeout x now sender iva ivv = Ok (y, fb) -> aget k (streams x) = Some s ->
  exists s' dn b, aget k (streams y) = Some s' /\ srx_feedback s now sender dn (existsb (leqb (s_mid s)) (due_mids x now iva ivv)) = Ok (s', b) /\
    requests k fb = requests k b /\ (forall sd r lsr dlsr, In (FbRr sd (Some (k, r, lsr, dlsr))) fb <-> In (FbRr sd (Some (k, r, lsr, dlsr))) b).
Proof.
  intros W E G. unfold sess_timeout, nack_at in E. cbn [fst snd] in E. set (dn := match (if any_nack x then Some _ else None) with Some t => t <=? now | None => false end) in E. clearbody dn.
  unfold rx_timeout in E. cbn [streams lookups set_nack cleanup] in E.
  fold (due_mids x now iva ivv) in E. destruct (all_feedback (streams x) now sender dn (due_mids x now iva ivv)) as [[l f]| |] eqn:A; cbn [bind] in E; try discriminate. injection E as <- <-.
  destruct (all_feedback_stream _ _ _ _ _ _ _ k s (wf_str _ W) (wf_nodup _ W) A G) as (s' & b & A1 & A2 & A3 & A4). exists s', dn, b. split; [|auto].
  destruct (cleanup x + CLEANUP <? now); exact A1.
Qed.

(** ** One step, one stream *)
Lemma poll_first_get {A} (f : srx -> option (srx * A)) l l' s a k t : NoDup (keys l) -> poll_first f l = Some (l', (s, a)) -> aget k l = Some t ->
  exists j, In (j, s) l' /\ if j =? k then aget k l' = Some s /\ f t = Some (s, a) else aget k l' = Some t.
Proof.
  revert l'. induction l as [|[j s0] r IH]; intros l' ND E G; [discriminate|]. cbn [map fst] in ND. inversion ND as [|? ? N1 N2]; subst. cbn [poll_first] in E. cbn [aget] in G. destruct (f s0) as [[s1 b]|] eqn:F.
  - injection E as <- <- <-. exists j. split; [left; reflexivity|]. cbn [aget]. destruct (j =? k) eqn:Q; [|exact G]. injection G as <-. auto.
  - destruct (poll_first f r) as [[r' z]|] eqn:R; [|discriminate]. injection E as <- ->. cbn [aget]. destruct (j =? k) eqn:Q.
    + injection G as <-. assert (exists i, In (i, s) r' /\ In i (keys r)) as (i & H & HK). { clear - R. revert r' R. induction r as [|[i u] r IH]; intros r' R; [discriminate|]. cbn [poll_first] in R. destruct (f u) as [[u' c]|]; [injection R as <- <- <-; exists i; split; left; reflexivity|].
        destruct (poll_first f r) as [[r1 z]|]; [|discriminate]. injection R as <- ->. destruct (IH _ eq_refl) as (i' & H & HK). exists i'. split; right; assumption. }
      exists i. split; [right; exact H|]. replace (i =? k) with false; [reflexivity|]. symmetry. apply Z.eqb_neq. intros ->. apply Z.eqb_eq in Q. subst. contradiction.
    + destruct (IH r' N2 eq_refl G) as (i & H1 & H2). exists i. split; [right; exact H1|exact H2].
Qed.
Lemma poll_first_none {A} (f : srx -> option (srx * A)) l k t : poll_first f l = None -> aget k l = Some t -> f t = None.
Proof.
  induction l as [|[j s0] r IH]; intros E G; [discriminate|]. cbn [poll_first] in E. cbn [aget] in G. destruct (f s0) as [[s1 b]|] eqn:F; [discriminate|]. destruct (poll_first f r) as [[r' z]|]; [discriminate|].
  destruct (j =? k); [injection G as <-; exact F|auto].
Qed.
Lemma aget_filter {A} (f : Z * A -> bool) l k a : aget k l = Some a -> f (k, a) = true -> NoDup (keys l) -> aget k (filter f l) = Some a.
Proof.
  intros G F N. apply (aget_in _ _ _ (filter_nodup f l N)). apply filter_In. split; [apply aget_some_in; exact G|exact F].
Qed.
Definition hears (now : Z) (s s' : srx) (b : bool) : Prop :=
  if b then s_check s' = Some (now + s_thr s) /\ s_paused s' = false /\ s_need s' = s_paused s || s_need s /\ s_thr s' = s_thr s
  else s_check s' = s_check s /\ s_paused s' = s_paused s /\ s_need s' = s_need s /\ s_thr s' = s_thr s.
(** the pause state after a step; [b]: a packet was heard *)
Definition pause_step (k : Z) (s : srx) (o : rop) (a : rout) (s' : srx) : Prop :=
  match o with
  | RRtp now _ _ => exists b, hears now s s' b
  | RTimeout now _ _ _ => pz s' = pz (srx_timeout s now)
  | RThreshold j d => if j =? k then s_check s' = s_check s /\ s_paused s' = s_paused s /\ s_need s' = s_need s /\ s_thr s' = d else pz s' = pz s
  | RPollPaused => k <> 0 -> match a with
                   | OPaused j p => if j =? k then p = s_paused s /\ s_check s' = s_check s /\ s_paused s' = s_paused s /\ s_need s' = false /\ s_thr s' = s_thr s else pz s' = pz s
                   | ONone => s_need s = false /\ pz s' = pz s
                   | _ => False end
  | _ => pz s' = pz s
  end.
Definition only_poll (o : rop) (a : rout) : Prop := match a with OPaused _ _ => match o with RPollPaused => True | _ => False end | OFeedback _ => match o with RTimeout _ _ _ _ => True | _ => False end | ORtp _ => match o with RRtp _ _ _ => True | _ => False end | _ => True end.
Lemma on_get x j f k s : aget k (streams x) = Some s -> aget k (streams (on_stream x j f)) = Some (if j =? k then f s else s).
Proof.
  intro G. unfold on_stream. destruct (aget j (streams x)) as [t|] eqn:E.
  - cbn [streams set_streams]. rewrite aset_get, Z.eqb_sym. destruct (j =? k) eqn:Q; [|exact G]. apply Z.eqb_eq in Q. subst. congruence.
  - rewrite G. destruct (j =? k) eqn:Q; [|reflexivity]. apply Z.eqb_eq in Q. subst. congruence.
Qed.
Lemma step_stream k m0 x o y a s : WF x -> op_fine x o -> keeps k m0 o -> rxstep x o = Ok (y, a) -> aget k (streams x) = Some s -> s_mid s = m0 ->
  exists s', aget k (streams y) = Some s' /\ s_mid s' = m0 /\ wants s' = want_next k m0 (wants s) o /\ serves k (wants s) o a /\ pause_step k s o a s' /\ only_poll o a.
Proof.
  intros W O K E G M.
  assert (forall s', aget k (streams y) = Some s' -> s' = s -> want_next k m0 (wants s) o = wants s -> serves k (wants s) o a -> pause_step k s o a s -> only_poll o a ->
     exists s', aget k (streams y) = Some s' /\ s_mid s' = m0 /\ wants s' = want_next k m0 (wants s) o /\ serves k (wants s) o a /\ pause_step k s o a s' /\ only_poll o a) as SAMEC.
  { intros s' H -> A B C D. exists s. rewrite A. auto 10. }
  destruct o as [now h dec| |j rtx m r supp|j|m|m r|m|c| |m|j roc|j fir|j b|j b|m r b|j d|now j ntp rtp|now sender iva ivv| | |j]; cbn [rxstep] in E.
  - destruct (handle_rtp x now h dec) as [[y' evs]| |] eqn:H; cbn [bind] in E; try discriminate. injection E as <- <-.
    assert (In k (keys (streams x))) as IK by (apply aget_some_in in G; apply (in_map fst) in G; exact G).
    pose proof (there_rtp now k m0 x h dec y' evs W (fun s0 H0 => ltac:(congruence)) K O IK H) as T. destruct (T s G) as (s' & G' & [C1 C2 C3 C4 C5]).
    exists s'. split; [exact G'|]. split; [congruence|]. split; [exact C2|]. split; [exact I|]. split; [|exact I]. cbn [pause_step].
    destruct C5 as [(A1 & A2 & A3 & A4)|(A1 & A2 & A3 & A4)]; [exists false|exists true]; cbn; auto.
  - eapply SAMEC; try reflexivity; try exact I; destruct (srtp x && rtp_mode x); injection E as <- <-; try exact I; try exact G.
  - destruct (find_media (medias x) m); [|discriminate]. injection E as <- <-. destruct (there_expect 0 k x j rtx m r supp s G) as (s' & G' & _).
    assert (pz s' = pz s /\ s_mid s' = s_mid s /\ wants s' = wants s) as (P & Q & R).
    { clear - G G'. unfold expect_rx in G'. cbn [streams set_nack set_streams] in G'. rewrite aset_get in G'. destruct (k =? j) eqn:Q; [|assert (s' = s) by congruence; subst; auto].
      apply Z.eqb_eq in Q. subst j. rewrite G in G'. injection G' as <-. destruct rtx; [|auto]. unfold maybe_reset_rtx. destruct (match s_rtx s with Some c => c =? z | None => false end); auto. }
    exists s'. split; [exact G'|]. split; [congruence|]. split; [exact R|]. split; [exact I|]. split; [exact P|exact I].
  - injection E as <- <-. eapply SAMEC; try reflexivity; try exact I. cbn [streams set_streams remove_rx]. unfold remove_rx. cbn [streams set_streams]. unfold adel. apply aget_filter; [exact G| |apply (wf_nodup _ W)]. cbn in *. lia.
  - injection E as <- <-. eapply SAMEC; try reflexivity; try exact I. exact G.
  - injection E as <- <-. eapply SAMEC; try reflexivity; try exact I. exact G.
  - injection E as <- <-. eapply SAMEC; try reflexivity; try exact I. unfold remove_by_mid. cbn [streams set_streams set_medias]. apply aget_filter; [exact G| |apply (wf_nodup _ W)]. cbn [snd]. rewrite M.
    destruct (leqb m0 m) eqn:Q; [|reflexivity]. apply leqb_eq in Q. cbn in K. congruence.
  - injection E as <- <-. eapply SAMEC; try reflexivity; try exact I. exact G.
  - injection E as <- <-. eapply SAMEC; try reflexivity; try exact I. exact G.
  - injection E as <- <-. cbn [streams set_streams].
    exists (if leqb (s_mid s) m then srx_reset s (seq_lookup (maxseq x)) else s). split.
    { clear - G. induction (streams x) as [|[j t] l IH]; [discriminate|]. cbn [map fst snd aget] in *. destruct (j =? k) eqn:Q; [injection G as ->; destruct (leqb (s_mid s) m); cbn [aget fst]; rewrite Q; reflexivity|].
      destruct (leqb (s_mid t) m); cbn [aget fst]; rewrite Q; auto. }
    rewrite M. destruct (leqb m0 m) eqn:Q; cbn [want_next pause_step serves only_poll]; rewrite Q; unfold wants, pz; cbn; auto 10.
  - injection E as <- <-. rewrite (on_get _ _ _ _ _ G). eexists. split; [reflexivity|]. destruct (j =? k); cbn; unfold wants, pz; cbn; auto 10.
  - injection E as <- <-. rewrite (on_get _ _ _ _ _ G). eexists. split; [reflexivity|]. cbn [want_next]. destruct (j =? k); cbn; unfold wants, pz; cbn; auto 10.
  - injection E as <- <-. rewrite (on_get _ _ _ _ _ G). eexists. split; [reflexivity|]. cbn [want_next]. destruct (j =? k); cbn; unfold wants, pz; cbn; auto 10.
  - injection E as <- <-. rewrite (on_get _ _ _ _ _ G). eexists. split; [reflexivity|]. destruct (j =? k); cbn; unfold wants, pz; cbn; auto 10.
  - injection E as <- <-. cbn [streams set_nack set_streams]. rewrite upd_first_get by apply (wf_nodup _ W). rewrite G.
    destruct (match find _ _ with Some _ => _ | None => false end); eexists; (split; [reflexivity|]); cbn; unfold wants, pz; cbn; auto 10.
  - injection E as <- <-. rewrite (on_get _ _ _ _ _ G). eexists. split; [reflexivity|]. cbn [pause_step]. destruct (j =? k); cbn; unfold wants, pz; cbn; auto 10.
  - injection E as <- <-. rewrite (on_get _ _ _ _ _ G). eexists. split; [reflexivity|]. cbn [want_next]. destruct (j =? k); cbn; unfold wants, pz, sr_of; cbn; auto 10.
  - destruct (sess_timeout x now sender iva ivv) as [[y' fb]| |] eqn:T; cbn [bind] in E; try discriminate. injection E as <- <-.
    destruct (timeout_stream _ _ _ _ _ _ _ _ _ W T G) as (s' & dn & b & G' & F & Q1 & Q2). exists s'. split; [exact G'|].
    destruct (feedback_stream _ _ _ _ _ _ _ F) as (F1 & F2 & F3 & F4 & F5 & F6 & _). split; [congruence|]. split; [exact F2|]. split; [|split; [exact F4|exact I]].
    cbn [serves]. rewrite Q1, F5. rewrite (sri_key _ _ (wf_str _ W _ _ (aget_some_in _ _ _ G))), Z.eqb_refl. split; [reflexivity|]. intros sd rep lsr dlsr HI. apply Q2 in HI. apply F6 in HI as (_ & HI). exact HI.
  - destruct (poll_first poll_paused (streams x)) as [[l [t b]]|] eqn:P; injection E as <- <-.
    + destruct (poll_first_get _ _ _ _ _ _ _ (wf_nodup _ W) P G) as (j & HI & HJ).
      assert (WF (set_streams x l (lookups x))) as WY by (apply wf_inplace; [exact W|eapply poll_first_ok; [exact ip_paused|exact P]|auto|apply (wf_lkn _ W)]).
      pose proof (sri_key _ _ (wf_str _ WY j t HI)) as KT. cbn [streams set_streams] in *. destruct (j =? k) eqn:Q.
      * destruct HJ as [HJ1 HJ2]. apply Z.eqb_eq in Q. subst j. exists t. split; [exact HJ1|]. unfold poll_paused in HJ2. destruct (s_ssrc s =? 0); [discriminate|]. destruct (s_need s); [|discriminate]. injection HJ2 as <- <-.
        cbn [serves want_next pause_step only_poll]. cbn [s_ssrc set_pause] in KT |- *. rewrite KT, Z.eqb_refl. cbn. auto 12.
      * exists s. split; [exact HJ|]. cbn [serves want_next pause_step only_poll]. rewrite KT, Q. auto 10.
    + exists s. cbn [serves want_next pause_step only_poll]. repeat (split; [auto; fail|]). split; [|exact I]. intro KN. split; [|reflexivity].
      pose proof (poll_first_none _ _ _ _ P G) as PN. unfold poll_paused in PN. rewrite (sri_key _ _ (wf_str _ W _ _ (aget_some_in _ _ _ G))) in PN. replace (k =? 0) with false in PN by lia. destruct (s_need s); [discriminate|reflexivity].
  - destruct (poll_first poll_info (streams x)) as [[l [t b]]|] eqn:P; injection E as <- <-; [|eapply SAMEC; try reflexivity; try exact I; exact G].
    destruct (poll_first_get _ _ _ _ _ _ _ (wf_nodup _ W) P G) as (j & HI & HJ). cbn [streams set_streams] in *. destruct (j =? k).
    + destruct HJ as [HJ1 HJ2]. exists t. split; [exact HJ1|]. unfold poll_info in HJ2. destruct (s_info s) as [i|] eqn:SI; [|discriminate]. destruct (i_emitted i); [discriminate|]. injection HJ2 as <- <-. cbn. unfold wants, pz, sr_of. rewrite SI. cbn. auto 10.
    + eapply SAMEC; try reflexivity; try exact I. exact HJ.
  - injection E as <- <-. eapply SAMEC; try reflexivity; try exact I. destruct (aget j (streams x)) as [t|] eqn:Q; [|exact G]. cbn [streams set_streams aget]. destruct (j =? k) eqn:QQ; [apply Z.eqb_eq in QQ; subst; congruence|].
    unfold adel. apply aget_filter; [exact G| |apply (wf_nodup _ W)]. cbn. lia.
Qed.

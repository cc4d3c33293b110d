From Verif Require Import Base BaseFacts SeqModel NackModel RegisterModel MtimeModel ExtModel HeaderModel TxModel RxModel RxSpec RxProofs RxReg RxProofs2 RxProofs3 RxFbSpec RxFbProofs RxFbProofs2 RxFbProofs3 RxProps RxFbProps.

(** C46: what a sender says in its reports is told to the application, each report once. *)

(** The sender report about stream [k] that was not told yet: arrival and NTP time. *)
Definition sr_next (k : Z) (d : option (Z * Z)) (o : rop) (a : rout) : option (Z * Z) :=
  match o, a with
  | RSr now j ntp _, _ => if j =? k then Some (now, ntp) else d
  | RPollSr, OSr j _ => if j =? k then None else d
  | _, _ => d
  end.
(** What is told about [k] is the last report, and only if it was not told before; when there is nothing to tell,
    nothing about [k] is left. *)
Definition sr_tells (k : Z) (d : option (Z * Z)) (o : rop) (a : rout) : Prop :=
  match o, a with
  | RPollSr, OSr j i => j = k -> d = Some (i_at i, i_ntp i)
  | RPollSr, ONone => d = None
  | RPollSr, _ => False
  | _, OSr _ _ => False
  | _, _ => True
  end.
Fixpoint all_reported (k : Z) (d : option (Z * Z)) (os : list rop) (outs : list rout) : Prop :=
  match os, outs with
  | [], [] => True
  | o :: os, a :: outs => sr_tells k d o a /\ all_reported k (sr_next k d o a) os outs
  | _, _ => False
  end.

Definition due (s : srx) : option (Z * Z) := match s_info s with Some i => if i_emitted i then None else Some (i_at i, i_ntp i) | None => None end.
Definition csr (now : Z) (s s' : srx) : Prop := due s' = due s /\ s_mid s' = s_mid s.
Lemma csr_refl now s : csr now s s.
Proof. split; reflexivity. Qed.
Lemma csr_trans now a b c : csr now a b -> csr now b c -> csr now a c.
Proof. unfold csr. intros [A1 A2] [B1 B2]. split; congruence. Qed.
Lemma csr_extend now s h rep lk s1 q : extend_seq s h rep lk = (s1, q) -> csr now s s1.
Proof. unfold extend_seq. intro E. destruct rep; [|destruct (s_roc s)]; injection E as <- <-; split; reflexivity. Qed.
Lemma csr_heard now s h rate rep q s2 t n : update_register s now h rate rep q = Ok (s2, t, n) -> csr now s s2.
Proof.
  unfold update_register. destruct (if rep then s_regx s else s_reg s) as [r|]; [|discriminate]. destruct (rupdate r q) as [r' b]. intro E. injection E as <- <- <-.
  destruct rep; split; reflexivity.
Qed.
Lemma csr_rtp now s h pay q t s' p : srx_rtp s now h pay q t = (s', p) -> csr now s s'.
Proof.
  unfold srx_rtp. intro E. injection E as <- _. destruct (match s_clock s with Some (pt, _) => pt =? payload_type h | None => false end); [split; reflexivity|].
  split; [|reflexivity]. unfold due. cbn. destruct (s_info s); reflexivity.
Qed.
Lemma csr_inner now rate pt s2 h q t n d mx rep s3 h3 q3 t3 n3 d3 mx3 : inner now rate pt s2 h q t n d mx rep s3 h3 q3 t3 n3 d3 mx3 -> csr now s2 s3.
Proof.
  intros I. destruct I as [|h' d' s3 q' s4 t4 n4 _ _ E1 E2]; [apply csr_refl|]. eapply csr_trans; [eapply csr_extend; exact E1|eapply csr_heard; exact E2].
Qed.
Lemma rxcase_csr x now h dec m j y evs : rxcase x now h dec m j y evs ->
  (streams y = streams x) \/ exists s s', aget j (streams x) = Some s /\ streams y = aset j s' (streams x) /\ csr now s s' /\ True.
Proof.
  intro C. destruct C as [|s p s1 q rep _ ES _ _ E1 _|s p s1 q rep raw s2 t2 n2 _ ES _ _ E1 _ _ _ _ E2|s p s1 q rep raw d s2 t2 n2 s3 h3 q3 t3 n3 d3 mx3 _ ES _ _ E1 _ _ _ E2 E3 _|s p s1 q rep raw d s2 t2 n2 s3 h3 q3 t3 n3 d3 mx3 s4 pk _ ES _ _ E1 _ _ _ E2 E3 _ E4];
    [left; reflexivity|right; exists s..].
  - exists s1. split; [exact ES|]. split; [reflexivity|]. split; [eapply csr_extend; exact E1|auto].
  - apply (csr_heard now) in E2 || apply csr_heard in E2. exists s2. split; [exact ES|]. split; [reflexivity|]. split; [|auto]. eapply csr_trans; [eapply csr_extend; exact E1|exact E2].
  - apply csr_heard in E2. apply csr_inner in E3.
    exists s3. split; [exact ES|]. split; [reflexivity|]. split; [|auto]. eapply csr_trans; [eapply csr_extend; exact E1|]. eapply csr_trans; eassumption.
  - apply csr_heard in E2. apply csr_inner in E3. apply csr_rtp in E4.
    exists s4. split; [exact ES|]. split; [reflexivity|]. split; [|auto]. eapply csr_trans; [eapply csr_extend; exact E1|]. eapply csr_trans; [exact E2|]. eapply csr_trans; eassumption.
Qed.
Lemma csr_reset_rtx now s q : csr now s (maybe_reset_rtx s q).
Proof. unfold maybe_reset_rtx. destruct (match s_rtx s with Some c => c =? q | None => false end); [apply csr_refl|]. split; reflexivity. Qed.
Definition tsr (now : Z) (k : Z) (x y : sess) : Prop := forall s, aget k (streams x) = Some s -> exists s', aget k (streams y) = Some s' /\ csr now s s'.
Lemma tsr_refl now k x : tsr now k x x.
Proof. intros s E. exists s. split; [exact E|apply csr_refl]. Qed.
Lemma tsr_trans now k x y z : tsr now k x y -> tsr now k y z -> tsr now k x z.
Proof. intros A B s E. destruct (A s E) as (s1 & E1 & C1). destruct (B s1 E1) as (s2 & E2 & C2). exists s2. split; [exact E2|]. eapply csr_trans; eassumption. Qed.
Lemma tsr_eq now k x y : streams y = streams x -> tsr now k x y.
Proof. intros E s H. exists s. rewrite E. split; [exact H|apply csr_refl]. Qed.
Lemma tsr_expect now k x j rtx m r supp : tsr now k x (expect_rx x j rtx m r supp).
Proof.
  intros s E. unfold expect_rx. cbn [streams set_nack set_streams]. rewrite aset_get. destruct (k =? j) eqn:Q; [|exists s; split; [exact E|apply csr_refl]].
  apply Z.eqb_eq in Q. subst j. rewrite E. eexists. split; [reflexivity|]. destruct rtx; [apply csr_reset_rtx|apply csr_refl].
Qed.
Lemma tsr_change_rtx now k x a b : NoDup (keys (streams x)) -> tsr now k x (change_rx_rtx x a b).
Proof.
  intros N s E. unfold change_rx_rtx. cbn [streams set_nack set_streams]. rewrite upd_first_get by exact N. rewrite E.
  destruct (match find _ _ with Some _ => _ | None => false end); eexists; (split; [reflexivity|]); [apply csr_reset_rtx|apply csr_refl].
Qed.
Lemma tsr_change now k x a b y d : change_rx_ssrc x a b = Ok (y, d) -> a <> k -> b <> k -> tsr now k x y.
Proof.
  unfold change_rx_ssrc. destruct (aget a (streams x)) as [s0|]; [|discriminate]. destruct (change_ssrc s0 b) as [s1|]; intros E A B; injection E as <- <-; [|apply tsr_refl].
  intros s H. exists s. cbn [streams set_streams]. rewrite aset_get. replace (k =? b) with false by lia. split; [|apply csr_refl].
  clear - H A. unfold adel. induction (streams x) as [|[j t] l IH]; [discriminate|]. cbn [aget filter fst] in *. destruct (j =? k) eqn:Q.
  - replace (j =? a) with false by lia. cbn [negb aget]. rewrite Q. exact H.
  - destruct (negb (j =? a)); [cbn [aget]; rewrite Q|]; apply IH; exact H.
Qed.
Lemma tsr_dynamic now k m0 x h y : WF x -> (forall s, aget k (streams x) = Some s -> s_mid s = m0) -> mid (ext_vals h) <> Some m0 -> ssrc h <> k -> map_dynamic x h = Ok y -> tsr now k x y.
Proof.
  intros W HM NM NS E. assert (aget k (streams x) = None \/ exists s, aget k (streams x) = Some s) as [N|(s & HS)] by (destruct (aget k (streams x)); eauto).
  { intros s H. congruence. }
  specialize (HM s HS). unfold map_dynamic in E. destruct (mid (ext_vals h)) as [m|]; [|injection E as <-; apply tsr_refl]. assert (m <> m0) as NE by congruence.
  destruct (find_media (medias x) m) as [md|]; [|injection E as <-; apply tsr_refl]. destruct (find_param (codecs x) (payload_type h)) as [p|]; [|injection E as <-; apply tsr_refl].
  cbv zeta in E. destruct (match (match rid (ext_vals h) with Some a => Some a | None => rid_repair (ext_vals h) end) with Some a => rids_contains (m_rids md) a | None => negb (rids_specific (m_rids md)) end); [|injection E as <-; apply tsr_refl].
  set (rid_ := match rid (ext_vals h) with Some a => Some a | None => rid_repair (ext_vals h) end) in *. clearbody rid_.
  match type of E with context [map_pair x (ssrc h) m rid_ ?b] => set (im := b) in * end. clearbody im.
  destruct (map_pair x (ssrc h) m rid_ im) as [[main rtx]|] eqn:MP; [|injection E as <-; apply tsr_refl].
  unfold map_pair in MP. unfold map_finish in E. destruct (by_midrid (streams x) m rid_) as [s0|] eqn:F.
  - destruct (by_midrid_in _ _ _ _ W F) as [Hs Em]. apply (aget_in _ _ _ (wf_nodup _ W)) in Hs.
    assert (s_ssrc s0 <> k) as NK. { intro Q. rewrite Q in Hs. congruence. }
    assert (main <> k) as MK by (destruct im; inversion MP; subst; assumption).
    assert (exists y1, (if s_ssrc s0 =? main then Ok x else do z <- change_rx_ssrc x (s_ssrc s0) main; Ok (fst z)) = Ok y1 /\ tsr now k x y1 /\ NoDup (keys (streams y1))) as (y1 & E1 & T1 & N1).
    { destruct (s_ssrc s0 =? main) eqn:Q; [exists x; split; [reflexivity|]; split; [apply tsr_refl|apply wf_nodup; exact W]|].
      destruct (change_rx_ssrc x (s_ssrc s0) main) as [[z d]| |] eqn:C.
      - exists z. split; [reflexivity|]. split; [eapply tsr_change; eassumption|]. unfold change_rx_ssrc in C. rewrite Hs in C. destruct (change_ssrc s0 main); injection C as <- <-; [|apply wf_nodup; exact W].
        cbn [streams set_streams]. apply aset_nodup, adel_nodup, wf_nodup. exact W.
      - exfalso. unfold change_rx_ssrc in C. rewrite Hs in C. destruct (change_ssrc s0 main); discriminate.
      - exfalso. unfold change_rx_ssrc in C. rewrite Hs in C. destruct (change_ssrc s0 main); discriminate. }
    rewrite E1 in E. cbn [bind] in E. injection E as <-. eapply tsr_trans; [exact T1|]. eapply tsr_trans; [|apply tsr_expect].
    destruct (s_rtx s0) as [a|]; [|apply tsr_refl]. destruct rtx as [b|]; [|apply tsr_refl]. destruct (a =? b); [apply tsr_refl|apply tsr_change_rtx; exact N1].
  - cbn [bind] in E. injection E as <-. apply tsr_expect.
Qed.
Lemma tsr_header now k m0 x h y o : WF x -> (forall s, aget k (streams x) = Some s -> s_mid s = m0) -> (mid (ext_vals h) = Some m0 -> ssrc h = k) -> In k (keys (streams x)) -> mid_for_header x now h = Ok (y, o) -> tsr now k x y.
Proof.
  intros W HM Q IK E. unfold mid_for_header in E. destruct (wf_mid_ssrc x now (ssrc h) W) as (W1 & S1 & M1 & F1 & N1).
  destruct (mid_ssrc x now (ssrc h)) as [x1 o1]. cbn [fst snd] in *. destruct o1 as [z|]; [injection E as <- <-; apply tsr_eq; exact S1|].
  destruct (N1 eq_refl) as [E1 NK]. subst x1. assert (ssrc h <> k) as NS by (intro A; apply NK; rewrite A; exact IK).
  destruct (map_dynamic x h) as [x2| |] eqn:MD; cbn [bind] in E; [|discriminate|discriminate].
  assert (tsr now k x x2) as T by (eapply tsr_dynamic; [exact W|exact HM|intro A; apply NS; apply Q; exact A|exact NS|exact MD]).
  destruct (wf_map_dynamic x h W NK) as (x2' & MD' & W2 & _). rewrite MD in MD'. injection MD' as <-.
  destruct (wf_mid_ssrc x2 now (ssrc h) W2) as (_ & S3 & _). destruct (mid_ssrc x2 now (ssrc h)) as [x3 o3]. cbn [fst] in S3.
  destruct o3 as [z|]; [injection E as <- <-; eapply tsr_trans; [exact T|apply tsr_eq; exact S3]|].
  destruct (ssrc h =? 0); [|injection E as <- <-; eapply tsr_trans; [exact T|apply tsr_eq; exact S3]].
  injection E as <- <-. eapply tsr_trans; [exact T|]. eapply tsr_trans; [|apply tsr_expect]. apply tsr_eq. exact S3.
Qed.
Lemma tsr_rtp now k m0 x h dec y evs : WF x -> (forall s, aget k (streams x) = Some s -> s_mid s = m0) -> keeps k m0 (RRtp now h dec) -> op_fine x (RRtp now h dec) -> In k (keys (streams x)) ->
  handle_rtp x now h dec = Ok (y, evs) -> tsr now k x y.
Proof.
  intros W HM Q [HS HD] IK E. destruct (handle_rtp_total x now h dec W HS HD) as (y' & evs' & x1 & o & E' & EM & W1 & C). rewrite E in E'. injection E' as <- <-.
  pose proof (tsr_header now k m0 x h x1 o W HM Q IK EM) as T. eapply tsr_trans; [exact T|]. destruct o as [[m j]|]; [|destruct C; subst; apply tsr_refl].
  apply rxcase_csr in C. destruct C as [C|(s & s' & ES & EY & CA & _)]; [apply tsr_eq; exact C|]. intros s0 E0. rewrite EY, aset_get. destruct (k =? j) eqn:Z; [|exists s0; split; [exact E0|apply csr_refl]].
  apply Z.eqb_eq in Z. subst j. assert (s0 = s) by congruence. subst s0. exists s'. split; [reflexivity|exact CA].
Qed.

Lemma due_feedback s now sender dn rep s' fb : srx_feedback s now sender dn rep = Ok (s', fb) -> due s' = due s.
Proof.
  unfold srx_feedback. intro E. destruct (mk_keyframe s sender) as [s1 a] eqn:E1. assert (due s1 = due s) as D1 by (unfold mk_keyframe in E1; destruct (s_kf s) as [[|]|]; injection E1 as <- <-; reflexivity).
  destruct (mk_remb s1 sender) as [s2 b] eqn:E2. assert (due s2 = due s1) as D2 by (unfold mk_remb in E2; destruct (s_remb s1); injection E2 as <- <-; reflexivity).
  destruct (if rep then mk_rr s2 now sender else Ok (s2, [])) as [[s3 c]| |] eqn:E3; cbn [bind] in E; try discriminate.
  assert (due s3 = due s2) as D3.
  { destruct rep; [|injection E3 as <- <-; reflexivity]. unfold mk_rr in E3. destruct (s_reg s2) as [g|]; [|injection E3 as <- <-; reflexivity].
    destruct (reception_report g) as [g' [r| |]]; [| |discriminate]; injection E3 as <- <-; reflexivity. }
  destruct (if dn then mk_nack s3 sender else (s3, [])) as [s4 d] eqn:E4.
  assert (due s4 = due s3) as D4.
  { destruct dn; [|injection E4 as <- <-; reflexivity]. unfold mk_nack in E4. destruct (s_supp s3); [injection E4 as <- <-; reflexivity|]. destruct (s_reg s3) as [r|]; [|injection E4 as <- <-; reflexivity].
    destruct (nack_reports (rnack r)) as [n es]. destruct es; injection E4 as <- <-; reflexivity. }
  injection E as <- <-. rewrite <- D1, <- D2, <- D3, <- D4. unfold srx_timeout, due. destruct (s_check s4); [destruct (now <? _)|]; reflexivity.
Qed.
Lemma due_step k m0 x o y a s : WF x -> op_fine x o -> keeps k m0 o -> rxstep x o = Ok (y, a) -> aget k (streams x) = Some s -> s_mid s = m0 ->
  exists s', aget k (streams y) = Some s' /\ due s' = sr_next k (due s) o a /\ sr_tells k (due s) o a.
Proof.
  intros W O K E G M.
  assert (aget k (streams y) = Some s -> sr_next k (due s) o a = due s -> sr_tells k (due s) o a ->
     exists s', aget k (streams y) = Some s' /\ due s' = sr_next k (due s) o a /\ sr_tells k (due s) o a) as SAMEC.
  { intros H A B. exists s. rewrite A. auto. }
  destruct o as [now h dec| |j rtx m r supp|j|m|m r|m|c| |m|j roc|j fir|j b|j b|m r b|j d|now j ntp rtp|now sender iva ivv| | |j]; cbn [rxstep] in E.
  - destruct (handle_rtp x now h dec) as [[y' evs]| |] eqn:H; cbn [bind] in E; try discriminate. injection E as <- <-.
    assert (In k (keys (streams x))) as IK by (apply aget_some_in in G; apply (in_map fst) in G; exact G).
    pose proof (tsr_rtp now k m0 x h dec y' evs W (fun s0 H0 => ltac:(congruence)) K O IK H) as T. destruct (T s G) as (s' & G' & [C1 _]).
    exists s'. cbn. auto.
  - destruct (srtp x && rtp_mode x); injection E as <- <-; apply SAMEC; try reflexivity; try exact I; exact G.
  - destruct (find_media (medias x) m); [|discriminate]. injection E as <- <-. destruct (tsr_expect 0 k x j rtx m r supp s G) as (s' & G' & [C1 _]). exists s'. cbn. auto.
  - injection E as <- <-. apply SAMEC; try reflexivity; try exact I. unfold remove_rx. cbn [streams set_streams]. unfold adel. apply aget_filter; [exact G| |apply (wf_nodup _ W)]. cbn in *. lia.
  - injection E as <- <-. apply SAMEC; try reflexivity; try exact I. exact G.
  - injection E as <- <-. apply SAMEC; try reflexivity; try exact I. exact G.
  - injection E as <- <-. apply SAMEC; try reflexivity; try exact I. unfold remove_by_mid. cbn [streams set_streams set_medias]. apply aget_filter; [exact G| |apply (wf_nodup _ W)]. cbn [snd]. rewrite M.
    destruct (leqb m0 m) eqn:Q; [|reflexivity]. apply leqb_eq in Q. cbn in K. congruence.
  - injection E as <- <-. apply SAMEC; try reflexivity; try exact I. exact G.
  - injection E as <- <-. apply SAMEC; try reflexivity; try exact I. exact G.
  - injection E as <- <-. cbn [streams set_streams].
    exists (if leqb (s_mid s) m then srx_reset s (seq_lookup (maxseq x)) else s). split.
    { clear - G. induction (streams x) as [|[j t] l IH]; [discriminate|]. cbn [map fst snd aget] in *. destruct (j =? k) eqn:Q; [injection G as ->; destruct (leqb (s_mid s) m); cbn [aget fst]; rewrite Q; reflexivity|].
      destruct (leqb (s_mid t) m); cbn [aget fst]; rewrite Q; auto. }
    destruct (leqb (s_mid s) m); cbn; auto.
  - injection E as <- <-. rewrite (on_get _ _ _ _ _ G). eexists. split; [reflexivity|]. destruct (j =? k); cbn; auto.
  - injection E as <- <-. rewrite (on_get _ _ _ _ _ G). eexists. split; [reflexivity|]. destruct (j =? k); cbn; auto.
  - injection E as <- <-. rewrite (on_get _ _ _ _ _ G). eexists. split; [reflexivity|]. destruct (j =? k); cbn; auto.
  - injection E as <- <-. rewrite (on_get _ _ _ _ _ G). eexists. split; [reflexivity|]. destruct (j =? k); cbn; auto.
  - injection E as <- <-. cbn [streams set_nack set_streams]. rewrite upd_first_get by apply (wf_nodup _ W). rewrite G.
    destruct (match find _ _ with Some _ => _ | None => false end); eexists; (split; [reflexivity|]); cbn; auto.
  - injection E as <- <-. rewrite (on_get _ _ _ _ _ G). eexists. split; [reflexivity|]. destruct (j =? k); cbn; auto.
  - injection E as <- <-. rewrite (on_get _ _ _ _ _ G). eexists. split; [reflexivity|]. cbn [sr_next]. destruct (j =? k); cbn; auto.
  - destruct (sess_timeout x now sender iva ivv) as [[y' fb]| |] eqn:T; cbn [bind] in E; try discriminate. injection E as <- <-.
    destruct (timeout_stream _ _ _ _ _ _ _ _ _ W T G) as (s' & dn & b & G' & F & _). exists s'. split; [exact G'|]. apply due_feedback in F. cbn. auto.
  - destruct (poll_first poll_paused (streams x)) as [[l [t b]]|] eqn:P; injection E as <- <-; [|apply SAMEC; try reflexivity; try exact I; exact G].
    destruct (poll_first_get _ _ _ _ _ _ _ (wf_nodup _ W) P G) as (j & HI & HJ). cbn [streams set_streams] in *. destruct (j =? k).
    + destruct HJ as [HJ1 HJ2]. exists t. split; [exact HJ1|]. unfold poll_paused in HJ2. destruct (s_ssrc s =? 0); [discriminate|]. destruct (s_need s); [|discriminate]. injection HJ2 as <- <-. cbn. auto.
    + apply SAMEC; try reflexivity; try exact I. exact HJ.
  - destruct (poll_first poll_info (streams x)) as [[l [t b]]|] eqn:P; injection E as <- <-.
    + destruct (poll_first_get _ _ _ _ _ _ _ (wf_nodup _ W) P G) as (j & HI & HJ).
      assert (WF (set_streams x l (lookups x))) as WY by (apply wf_inplace; [exact W|eapply poll_first_ok; [exact ip_info|exact P]|auto|apply (wf_lkn _ W)]).
      pose proof (sri_key _ _ (wf_str _ WY j t HI)) as KT. cbn [streams set_streams] in *. cbn [sr_next sr_tells]. rewrite KT. destruct (j =? k) eqn:Q.
      * destruct HJ as [HJ1 HJ2]. exists t. split; [exact HJ1|]. unfold poll_info in HJ2. unfold due. destruct (s_info s) as [i|] eqn:SI; [|discriminate]. destruct (i_emitted i) eqn:EM; [discriminate|]. injection HJ2 as <- <-. cbn. auto.
      * exists s. split; [exact HJ|]. split; [reflexivity|]. intro Z0. lia.
    + exists s. split; [exact G|]. cbn [sr_next sr_tells]. split; [reflexivity|]. pose proof (poll_first_none _ _ _ _ P G) as PN. unfold poll_info in PN. unfold due. destruct (s_info s) as [i|]; [|reflexivity]. destruct (i_emitted i); [reflexivity|discriminate].
  - injection E as <- <-. apply SAMEC; try reflexivity; try exact I. destruct (aget j (streams x)) as [t|] eqn:Q; [|exact G]. cbn [streams set_streams aget]. destruct (j =? k) eqn:QQ; [apply Z.eqb_eq in QQ; subst; congruence|].
    unfold adel. apply aget_filter; [exact G| |apply (wf_nodup _ W)]. cbn. lia.
Qed.
Lemma reported_run k m : forall ops x y outs s, WF x -> ops_fine x ops -> Forall (keeps k m) ops -> rxrun x ops = Ok (y, outs) -> aget k (streams x) = Some s -> s_mid s = m ->
  all_reported k (due s) ops outs.
Proof.
  induction ops as [|o ops IH]; intros x y outs s W F K R G M; cbn [rxrun] in R; [injection R as <- <-; exact I|].
  cbn [ops_fine] in F. destruct F as [F1 F2]. inversion K as [|? ? K1 K2]; subst. destruct (wf_step x o W F1) as (x1 & a & E & W1). rewrite E in R, F2. cbn [bind] in R.
  destruct (rxrun x1 ops) as [[z l]| |] eqn:R1; cbn [bind] in R; try discriminate. injection R as <- <-.
  destruct (step_stream k (s_mid s) x o x1 a s W F1 K1 E G eq_refl) as (s1 & G1 & M1 & _).
  destruct (due_step k (s_mid s) x o x1 a s W F1 K1 E G eq_refl) as (s2 & G2 & D2 & T2). assert (s2 = s1) by congruence. subst s2.
  cbn [all_reported]. split; [exact T2|]. rewrite <- D2. eapply IH; eauto.
Qed.

(** C46. A receive stream is declared, and then anything happens that leaves it in place.  Polling for what senders
    report tells the arrival and NTP time of the last sender report about the stream, once, and nothing else about
    it; and when there is nothing to poll, every last report has been told. *)
Theorem C46_sender_reports_told : forall mode pre x l0 k rtx m r supp ops y outs,
  ops_fine (sess0 mode) pre -> rxrun (sess0 mode) pre = Ok (x, l0) -> aget k (streams x) = None ->
  ops_fine x (RExpect k rtx m r supp :: ops) -> Forall (keeps k m) ops ->
  rxrun x (RExpect k rtx m r supp :: ops) = Ok (y, outs) -> all_reported k None ops (tl outs).
Proof.
  intros mode pre x l0 k rtx m r supp ops y outs F0 R0 N F K R. destruct (wf_run pre _ (wf0 mode) F0) as (x' & l' & R' & W). rewrite R0 in R'. injection R' as <- <-.
  cbn [ops_fine] in F. destruct F as [F1 F2]. destruct (wf_step x _ W F1) as (x1 & a & E & W1). rewrite E in F2. cbn [rxrun] in R. rewrite E in R. cbn [bind] in R.
  destruct (rxrun x1 ops) as [[z l]| |] eqn:R1; cbn [bind] in R; try discriminate. injection R as <- <-. cbn [tl].
  cbn [rxstep] in E. destruct (find_media (medias x) m); [|discriminate]. injection E as <- <-.
  set (s := match rtx with Some q => maybe_reset_rtx (srx_new k m r supp) q | None => srx_new k m r supp end).
  assert (aget k (streams (expect_rx x k rtx m r supp)) = Some s) as G by (unfold expect_rx; cbn [streams set_nack set_streams]; rewrite N, aset_get, Z.eqb_refl; reflexivity).
  assert (s_mid s = m /\ due s = None) as [M D] by (unfold s; destruct rtx; [unfold maybe_reset_rtx; cbn|]; auto).
  rewrite <- D. eapply reported_run; eauto.
Qed.
Print Assumptions C46_sender_reports_told.

(** Two reports before the poll: the later one is told, once; a third one is told again. *)
Definition C46_sr_ops : list rop :=
  [RPollSr; RRtp 10 (C44_h 1 96 10 1000) (C44_at 10 [5]); RSr 500000 1 (3 * 2 ^ 32) 77; RSr 600000 1 (4 * 2 ^ 32) 99; RSr 600001 5 (6 * 2 ^ 32) 99; RPollSr; RPollSr; RPollSr;
   RSr 700000 1 (5 * 2 ^ 32) 111; RTimeout 1000000 9 5000000 1000000; RPollSr; RPollSr].
Example C46_sr_case : exists x l y outs, rxrun (sess0 true) C46_pre = Ok (x, l) /\ aget 1 (streams x) = None /\ rxrun x (RExpect 1 (Some 2) [48] None false :: C46_sr_ops) = Ok (y, outs) /\
  flat_map (fun a => match a with OSr j i => [(j, i_at i, i_ntp i)] | _ => [] end) outs = [(5, 600001, 6 * 2 ^ 32); (1, 600000, 4 * 2 ^ 32); (1, 700000, 5 * 2 ^ 32)].
Proof. eexists. eexists. eexists. eexists. split; [vm_compute; reflexivity|]. split; [reflexivity|]. split; [vm_compute; reflexivity|]. vm_compute. reflexivity. Qed.
Example C46_sr_case_fine : ops_fine (sess0 true) (C46_pre ++ RExpect 1 (Some 2) [48] None false :: C46_sr_ops) /\ Forall (keeps 1 [48]) C46_sr_ops.
Proof. split; [unfold C46_pre, C46_sr_ops; fine|]. unfold C46_sr_ops. repeat (apply Forall_cons; [cbn; first [exact I|congruence|reflexivity|discriminate]|]). apply Forall_nil. Qed.

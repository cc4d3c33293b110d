From Verif Require Import Base BaseFacts SeqModel NackModel RegisterModel MtimeModel ExtModel HeaderModel TxModel RxModel RxSpec RxProofs RxReg RxProofs2 RxProofs3 RxFbSpec.

(** ** Per stream *)
Definition sr_of (s : srx) : option (Z * Z) := option_map (fun i => (i_at i, i_ntp i)) (s_info s).
Definition wants (s : srx) : want := mkWant (s_kf s) (s_fir s) (s_remb s) (sr_of s).
(** what reception of a packet at [now] leaves alone, and what it does to the pause state *)
Record calm (now : Z) (s s' : srx) : Prop := {
  cm_mid : s_mid s' = s_mid s; cm_want : wants s' = wants s; cm_rr : s_rr s' = s_rr s; cm_thr : s_thr s' = s_thr s;
  cm_pause : (s_used s' = s_used s /\ s_check s' = s_check s /\ s_paused s' = s_paused s /\ s_need s' = s_need s) \/
             (s_used s' = now /\ s_check s' = Some (now + s_thr s) /\ s_paused s' = false /\ s_need s' = s_paused s || s_need s) }.
Lemma calm_refl now s : calm now s s.
Proof. constructor; auto. Qed.
Lemma calm_trans now a b c : calm now a b -> calm now b c -> calm now a c.
Proof.
  intros [A1 A2 A3 A4 A5] [B1 B2 B3 B4 B5]. constructor; try congruence. destruct B5 as [(B5 & B6 & B7 & B8)|(B5 & B6 & B7 & B8)], A5 as [(A5 & A6 & A7 & A8)|(A5 & A6 & A7 & A8)].
  - left. repeat split; congruence.
  - right. repeat split; congruence.
  - right. rewrite A4 in B6. repeat split; congruence.
  - right. rewrite A4 in B6. rewrite A7, A8 in B8. cbn [orb] in B8. repeat split; congruence.
Qed.
(** only the register fields change *)
Lemma calm_extend now s h rep lk s1 q : extend_seq s h rep lk = (s1, q) -> calm now s s1.
Proof. unfold extend_seq. intro E. destruct rep; [|destruct (s_roc s)]; injection E as <- <-; constructor; cbn; auto. Qed.
Lemma heard now s h rate rep q s2 t n : update_register s now h rate rep q = Ok (s2, t, n) ->
  calm now s s2 /\ s_paused s2 = false /\ s_used s2 = now.
Proof.
  unfold update_register. destruct (if rep then s_regx s else s_reg s) as [r|]; [|discriminate]. destruct (rupdate r q) as [r' b]. intro E. injection E as <- <- <-.
  destruct rep; (split; [|split; reflexivity]); constructor; cbn; auto; right; repeat split; destruct (s_paused s); reflexivity.
Qed.
Lemma calm_rtp now s h pay q t s' p : srx_rtp s now h pay q t = (s', p) -> calm now s s' /\ s_paused s' = s_paused s /\ s_used s' = s_used s.
Proof.
  unfold srx_rtp. intro E. injection E as <- _. destruct (match s_clock s with Some (pt, _) => pt =? payload_type h | None => false end); (split; [|split; reflexivity]); constructor; cbn; auto.
  unfold wants, sr_of. cbn. destruct (s_info s); reflexivity.
Qed.
Lemma calm_inner now rate pt s2 h q t n d mx rep s3 h3 q3 t3 n3 d3 mx3 : inner now rate pt s2 h q t n d mx rep s3 h3 q3 t3 n3 d3 mx3 -> s_paused s2 = false -> s_used s2 = now -> calm now s2 s3 /\ s_paused s3 = false /\ s_used s3 = now.
Proof.
  intros I P U. destruct I as [|h' d' s3 q' s4 t4 n4 _ _ E1 E2]; [split; [apply calm_refl|auto]|]. destruct (heard _ _ _ _ _ _ _ _ _ E2) as (C & P' & U'). split; [|auto]. eapply calm_trans; [eapply calm_extend; exact E1|exact C].
Qed.
(** a packet that reaches stream [j]: the streams afterwards *)
Lemma rxcase_calm x now h dec m j y evs : rxcase x now h dec m j y evs ->
  (streams y = streams x) \/ exists s s', aget j (streams x) = Some s /\ streams y = aset j s' (streams x) /\ calm now s s' /\ (evs = [] \/ (s_paused s' = false /\ s_used s' = now)).
Proof.
  intro C. destruct C as [|s p s1 q rep _ ES _ _ E1 _|s p s1 q rep raw s2 t2 n2 _ ES _ _ E1 _ _ _ _ E2|s p s1 q rep raw d s2 t2 n2 s3 h3 q3 t3 n3 d3 mx3 _ ES _ _ E1 _ _ _ E2 E3 _|s p s1 q rep raw d s2 t2 n2 s3 h3 q3 t3 n3 d3 mx3 s4 pk _ ES _ _ E1 _ _ _ E2 E3 _ E4];
    [left; reflexivity|right; exists s..].
  - exists s1. split; [exact ES|]. split; [reflexivity|]. split; [eapply calm_extend; exact E1|auto].
  - destruct (heard _ _ _ _ _ _ _ _ _ E2) as (C & P & U). exists s2. split; [exact ES|]. split; [reflexivity|]. split; [|auto]. eapply calm_trans; [eapply calm_extend; exact E1|exact C].
  - destruct (heard _ _ _ _ _ _ _ _ _ E2) as (C & P & U). destruct (calm_inner _ _ _ _ _ _ _ _ _ _ _ _ _ _ _ _ _ _ E3 P U) as (C3 & P3 & U3).
    exists s3. split; [exact ES|]. split; [reflexivity|]. split; [|auto]. eapply calm_trans; [eapply calm_extend; exact E1|]. eapply calm_trans; eassumption.
  - destruct (heard _ _ _ _ _ _ _ _ _ E2) as (C & P & U). destruct (calm_inner _ _ _ _ _ _ _ _ _ _ _ _ _ _ _ _ _ _ E3 P U) as (C3 & P3 & U3). destruct (calm_rtp _ _ _ _ _ _ _ _ E4) as (C4 & P4 & U4).
    exists s4. split; [exact ES|]. split; [reflexivity|]. split; [|right; split; congruence]. eapply calm_trans; [eapply calm_extend; exact E1|]. eapply calm_trans; [exact C|]. eapply calm_trans; eassumption.
Qed.
(** mapping does not touch the stream *)
Lemma calm_reset_rtx now s q : calm now s (maybe_reset_rtx s q).
Proof. unfold maybe_reset_rtx. destruct (match s_rtx s with Some c => c =? q | None => false end); [apply calm_refl|]. constructor; cbn; auto. Qed.
Definition there (now : Z) (k : Z) (x y : sess) : Prop := forall s, aget k (streams x) = Some s -> exists s', aget k (streams y) = Some s' /\ calm now s s'.
Lemma there_refl now k x : there now k x x.
Proof. intros s E. exists s. split; [exact E|apply calm_refl]. Qed.
Lemma there_trans now k x y z : there now k x y -> there now k y z -> there now k x z.
Proof. intros A B s E. destruct (A s E) as (s1 & E1 & C1). destruct (B s1 E1) as (s2 & E2 & C2). exists s2. split; [exact E2|]. eapply calm_trans; eassumption. Qed.
Lemma there_eq now k x y : streams y = streams x -> there now k x y.
Proof. intros E s H. exists s. rewrite E. split; [exact H|apply calm_refl]. Qed.
Lemma there_expect now k x j rtx m r supp : there now k x (expect_rx x j rtx m r supp).
Proof.
  intros s E. unfold expect_rx. cbn [streams set_nack set_streams]. rewrite aset_get. destruct (k =? j) eqn:Q; [|exists s; split; [exact E|apply calm_refl]].
  apply Z.eqb_eq in Q. subst j. rewrite E. eexists. split; [reflexivity|]. destruct rtx; [apply calm_reset_rtx|apply calm_refl].
Qed.
Lemma there_change_rtx now k x a b : NoDup (keys (streams x)) -> there now k x (change_rx_rtx x a b).
Proof.
  intros N s E. unfold change_rx_rtx. cbn [streams set_nack set_streams]. rewrite upd_first_get by exact N. rewrite E.
  destruct (match find _ _ with Some _ => _ | None => false end); eexists; (split; [reflexivity|]); [apply calm_reset_rtx|apply calm_refl].
Qed.
Lemma there_change now k x a b y d : change_rx_ssrc x a b = Ok (y, d) -> a <> k -> b <> k -> there now k x y.
Proof.
  unfold change_rx_ssrc. destruct (aget a (streams x)) as [s0|]; [|discriminate]. destruct (change_ssrc s0 b) as [s1|]; intros E A B; injection E as <- <-; [|apply there_refl].
  intros s H. exists s. cbn [streams set_streams]. rewrite aset_get. replace (k =? b) with false by lia. split; [|apply calm_refl].
  clear - H A. unfold adel. induction (streams x) as [|[j t] l IH]; [discriminate|]. cbn [aget filter fst] in *. destruct (j =? k) eqn:Q.
  - replace (j =? a) with false by lia. cbn [negb aget]. rewrite Q. exact H.
  - destruct (negb (j =? a)); [cbn [aget]; rewrite Q|]; apply IH; exact H.
Qed.
Lemma there_dynamic now k m0 x h y : WF x -> (forall s, aget k (streams x) = Some s -> s_mid s = m0) -> mid (ext_vals h) <> Some m0 -> ssrc h <> k -> map_dynamic x h = Ok y -> there now k x y.
Proof.
  intros W HM NM NS E. assert (aget k (streams x) = None \/ exists s, aget k (streams x) = Some s) as [N|(s & HS)] by (destruct (aget k (streams x)); eauto).
  { intros s H. congruence. }
  specialize (HM s HS). unfold map_dynamic in E. destruct (mid (ext_vals h)) as [m|]; [|injection E as <-; apply there_refl]. assert (m <> m0) as NE by congruence.
  destruct (find_media (medias x) m) as [md|]; [|injection E as <-; apply there_refl]. destruct (find_param (codecs x) (payload_type h)) as [p|]; [|injection E as <-; apply there_refl].
  cbv zeta in E. destruct (match (match rid (ext_vals h) with Some a => Some a | None => rid_repair (ext_vals h) end) with Some a => rids_contains (m_rids md) a | None => negb (rids_specific (m_rids md)) end); [|injection E as <-; apply there_refl].
  set (rid_ := match rid (ext_vals h) with Some a => Some a | None => rid_repair (ext_vals h) end) in *. clearbody rid_.
  match type of E with context [map_pair x (ssrc h) m rid_ ?b] => set (im := b) in * end. clearbody im.
  destruct (map_pair x (ssrc h) m rid_ im) as [[main rtx]|] eqn:MP; [|injection E as <-; apply there_refl].
  unfold map_pair in MP. unfold map_finish in E. destruct (by_midrid (streams x) m rid_) as [s0|] eqn:F.
  - destruct (by_midrid_in _ _ _ _ W F) as [Hs Em]. apply (aget_in _ _ _ (wf_nodup _ W)) in Hs.
    assert (s_ssrc s0 <> k) as NK. { intro Q. rewrite Q in Hs. congruence. }
    assert (main <> k) as MK by (destruct im; inversion MP; subst; assumption).
    assert (exists y1, (if s_ssrc s0 =? main then Ok x else do z <- change_rx_ssrc x (s_ssrc s0) main; Ok (fst z)) = Ok y1 /\ there now k x y1 /\ NoDup (keys (streams y1))) as (y1 & E1 & T1 & N1).
    { destruct (s_ssrc s0 =? main) eqn:Q; [exists x; split; [reflexivity|]; split; [apply there_refl|apply wf_nodup; exact W]|].
      destruct (change_rx_ssrc x (s_ssrc s0) main) as [[z d]| |] eqn:C.
      - exists z. split; [reflexivity|]. split; [eapply there_change; eassumption|]. unfold change_rx_ssrc in C. rewrite Hs in C. destruct (change_ssrc s0 main); injection C as <- <-; [|apply wf_nodup; exact W].
        cbn [streams set_streams]. apply aset_nodup, adel_nodup, wf_nodup. exact W.
      - exfalso. unfold change_rx_ssrc in C. rewrite Hs in C. destruct (change_ssrc s0 main); discriminate.
      - exfalso. unfold change_rx_ssrc in C. rewrite Hs in C. destruct (change_ssrc s0 main); discriminate. }
    rewrite E1 in E. cbn [bind] in E. injection E as <-. eapply there_trans; [exact T1|]. eapply there_trans; [|apply there_expect].
    destruct (s_rtx s0) as [a|]; [|apply there_refl]. destruct rtx as [b|]; [|apply there_refl]. destruct (a =? b); [apply there_refl|apply there_change_rtx; exact N1].
  - cbn [bind] in E. injection E as <-. apply there_expect.
Qed.
Lemma there_header now k m0 x h y o : WF x -> (forall s, aget k (streams x) = Some s -> s_mid s = m0) -> (mid (ext_vals h) = Some m0 -> ssrc h = k) -> In k (keys (streams x)) -> mid_for_header x now h = Ok (y, o) -> there now k x y.
Proof.
  intros W HM Q IK E. unfold mid_for_header in E. destruct (wf_mid_ssrc x now (ssrc h) W) as (W1 & S1 & M1 & F1 & N1).
  destruct (mid_ssrc x now (ssrc h)) as [x1 o1]. cbn [fst snd] in *. destruct o1 as [z|]; [injection E as <- <-; apply there_eq; exact S1|].
  destruct (N1 eq_refl) as [E1 NK]. subst x1. assert (ssrc h <> k) as NS by (intro A; apply NK; rewrite A; exact IK).
  destruct (map_dynamic x h) as [x2| |] eqn:MD; cbn [bind] in E; [|discriminate|discriminate].
  assert (there now k x x2) as T by (eapply there_dynamic; [exact W|exact HM|intro A; apply NS; apply Q; exact A|exact NS|exact MD]).
  destruct (wf_map_dynamic x h W NK) as (x2' & MD' & W2 & _). rewrite MD in MD'. injection MD' as <-.
  destruct (wf_mid_ssrc x2 now (ssrc h) W2) as (_ & S3 & _). destruct (mid_ssrc x2 now (ssrc h)) as [x3 o3]. cbn [fst] in S3.
  destruct o3 as [z|]; [injection E as <- <-; eapply there_trans; [exact T|apply there_eq; exact S3]|].
  destruct (ssrc h =? 0); [|injection E as <- <-; eapply there_trans; [exact T|apply there_eq; exact S3]].
  injection E as <- <-. eapply there_trans; [exact T|]. eapply there_trans; [|apply there_expect]. apply there_eq. exact S3.
Qed.
Lemma there_rtp now k m0 x h dec y evs : WF x -> (forall s, aget k (streams x) = Some s -> s_mid s = m0) -> keeps k m0 (RRtp now h dec) -> op_fine x (RRtp now h dec) -> In k (keys (streams x)) ->
  handle_rtp x now h dec = Ok (y, evs) -> there now k x y.
Proof.
  intros W HM Q [HS HD] IK E. destruct (handle_rtp_total x now h dec W HS HD) as (y' & evs' & x1 & o & E' & EM & W1 & C). rewrite E in E'. injection E' as <- <-.
  pose proof (there_header now k m0 x h x1 o W HM Q IK EM) as T. eapply there_trans; [exact T|]. destruct o as [[m j]|]; [|destruct C; subst; apply there_refl].
  apply rxcase_calm in C. destruct C as [C|(s & s' & ES & EY & CA & _)]; [apply there_eq; exact C|]. intros s0 E0. rewrite EY, aset_get. destruct (k =? j) eqn:Z; [|exists s0; split; [exact E0|apply calm_refl]].
  apply Z.eqb_eq in Z. subst j. assert (s0 = s) by congruence. subst s0. exists s'. split; [reflexivity|exact CA].
Qed.

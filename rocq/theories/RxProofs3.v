(** Every operation keeps the invariant, and none panics. *)
From Verif Require Import Base BaseFacts SeqModel SeqProofs NackModel RegisterModel MtimeModel ExtModel HeaderModel HeaderProofs TxModel RxModel RxReg RxSpec RxProofs RxProofs2.

Lemma wf_put x k s s' : WF x -> aget k (streams x) = Some s -> SRI k s' -> s_mid s' = s_mid s -> WF (put k s' x).
Proof.
  intros W E I M. apply wf_set_stream; [exact W|exact I| |].
  - intros s0 H. apply (aget_in _ _ _ (wf_nodup _ W)) in H. congruence.
  - destruct (wf_med _ W _ _ (aget_some_in _ _ _ E)) as [H|H]; [auto|]. rewrite M. auto.
Qed.
Lemma wf_maxseq x mx : WF x -> max_ok mx -> WF (set_maxseq x mx).
Proof. intros [] M. constructor; auto. Qed.
Lemma wf_pending x n p : WF x -> WF (set_pending x n p).
Proof. intros []. constructor; auto. Qed.

(** what a packet does to its stream *)
Record RXB (k : Z) (h : header) (s s' : srx) : Prop := {
  rb_sri : SRI k s'; rb_mid : s_mid s' = s_mid s; rb_rid : s_rid s' = s_rid s; rb_rtx : s_rtx s' = s_rtx s }.
Lemma rxb_extend k s h rep L s1 seq : SRI k s -> (forall q, L (ssrc h) = Some q -> 0 <= q < U64) -> 0 <= sequence_number h < U16 ->
  extend_seq s h rep L = (s1, seq) -> RXB k h s s1 /\ 0 <= seq < U64 /\ reg_of rep s1 = Some (opt_reg (reg_of rep s) (rnew (L (ssrc h)))).
Proof.
  intros I HL HS E. pose proof (extend_seq_ok _ _ _ _ _ _ _ I HL HS E) as X. cbn zeta in X. destruct X as (I1 & Q & _ & -> & _). split; [|split; [exact Q|]].
  - destruct rep; constructor; try exact I1; reflexivity.
  - destruct rep; reflexivity.
Qed.
Lemma rxb_update k s now h rate rep seq s2 t new r : SRI k s -> 0 <= seq < U64 -> reg_of rep s = Some r -> update_register s now h rate rep seq = Ok (s2, t, new) ->
  RXB k h s s2 /\ new = raccepts r seq /\ reg_of rep s2 = Some (fst (rupdate r seq)) /\ reg_of (negb rep) s2 = reg_of (negb rep) s.
Proof.
  intros I Q ER E. destruct (update_register_ok k s now h rate rep seq r I Q ER) as (s2' & t' & E' & I2 & A & B & C & D & F & G). rewrite E' in E. inversion E; subst.
  split; [constructor; assumption|]. auto.
Qed.
Lemma rxb_trans k h h' h3 s s1 s2 : RXB k h s s1 -> RXB k h' s1 s2 -> RXB k h3 s s2.
Proof. intros [] []. constructor; congruence || assumption. Qed.
Lemma inner_ok now rate pt k s2 h seq t new data mx rep s3 h3 seq3 t3 new3 data3 mx3 :
  SRI k s2 -> 0 <= seq < U64 -> max_ok mx -> bytes_ok data -> inner now rate pt s2 h seq t new data mx rep s3 h3 seq3 t3 new3 data3 mx3 ->
  RXB k h s2 s3 /\ max_ok mx3 /\ 0 <= seq3 < U64.
Proof.
  intros I Q MX B IN. inversion IN; subst; clear IN.
  - split; [constructor; auto|]. auto.
  - match goal with H : un_rtx _ _ _ _ = _ |- _ => pose proof (un_rtx_fields _ _ _ _ _ _ H) as (U1 & U2 & _) end.
    match goal with H : extend_seq _ _ _ _ = _ |- _ => destruct (rxb_extend k _ _ _ _ _ _ I (fun q Q => MX _ _ Q) (U2 B) H) as (R1 & Q1 & ER) end.
    match goal with H : update_register _ _ _ _ _ _ = _ |- _ => destruct (rxb_update k _ _ _ _ _ _ _ _ _ _ (rb_sri _ _ _ _ R1) Q1 ER H) as (R2 & _) end.
    split; [eapply rxb_trans; eassumption|]. split; [|exact Q1]. apply umax_ok; assumption.
Qed.

(** the state after a packet, whatever happened *)
Lemma rxcase_shape x now h dec m k y evs : WF x -> 0 <= sequence_number h < U16 -> (forall q raw, dec q = Some raw -> bytes_ok raw) ->
  rxcase x now h dec m k y evs ->
  WF y /\ lookups y = lookups x /\ medias y = medias x /\ codecs y = codecs x /\ rtp_mode y = rtp_mode x /\ srtp y = srtp x /\ probe y = probe x /\
  (streams y = streams x \/ exists s s', aget k (streams x) = Some s /\ RXB k h s s' /\ streams y = aset k s' (streams x)).
Proof.
  intros W HS HD RC. pose proof (wf_max _ W) as MX. destruct RC as [SK|s p s1 seq rep E0 E1 E2 E3 E4 D|s p s1 seq rep raw s2 t2 new2 E0 E1 E2 E3 E4 EN ED EU ER EUp|s p s1 seq rep raw data s2 t2 new2 s3 h3 seq3 t3 new3 data3 mx3 E0 E1 E2 E3 E4 EN ED EU EUp IN K0|s p s1 seq rep raw data s2 t2 new2 s3 h3 seq3 t3 new3 data3 mx3 s4 pk E0 E1 E2 E3 E4 EN ED EU EUp IN K0 EP];
  [auto 12|..]; pose proof (wf_str _ W _ _ (aget_some_in _ _ _ E1)) as I; destruct (rxb_extend k _ _ _ _ _ _ I (fun q Q => MX _ _ Q) HS E4) as (R1 & Q1 & ER1).
  - split; [eapply wf_put; [exact W|exact E1|apply R1|apply R1]|]. cbn. repeat (split; [reflexivity|]). right. eauto.
  - destruct (rxb_update k _ _ _ _ _ _ _ _ _ _ (rb_sri _ _ _ _ R1) Q1 ER1 EUp) as (R2 & _). pose proof (rxb_trans _ _ _ h _ _ _ R1 R2) as R.
    split; [apply wf_maxseq; [eapply wf_put; [exact W|exact E1|apply R|apply R]|apply umax_ok; assumption]|]. cbn. repeat (split; [reflexivity|]). right. eauto.
  - destruct (rxb_update k _ _ _ _ _ _ _ _ _ _ (rb_sri _ _ _ _ R1) Q1 ER1 EUp) as (R2 & _). pose proof (rxb_trans _ _ _ h _ _ _ R1 R2) as R.
    destruct (inner_ok _ _ _ k _ _ _ _ _ _ _ _ _ _ _ _ _ _ _ (rb_sri _ _ _ _ R) Q1 (umax_ok _ _ _ MX Q1) (unpad_bytes _ _ _ (HD _ _ ED) EU) IN) as (R3 & M3 & _).
    pose proof (rxb_trans _ _ _ h _ _ _ R R3) as RR.
    split; [apply wf_maxseq; [eapply wf_put; [exact W|exact E1|apply RR|apply RR]|exact M3]|]. cbn. repeat (split; [reflexivity|]). right. eauto.
  - destruct (rxb_update k _ _ _ _ _ _ _ _ _ _ (rb_sri _ _ _ _ R1) Q1 ER1 EUp) as (R2 & _). pose proof (rxb_trans _ _ _ h _ _ _ R1 R2) as R.
    destruct (inner_ok _ _ _ k _ _ _ _ _ _ _ _ _ _ _ _ _ _ _ (rb_sri _ _ _ _ R) Q1 (umax_ok _ _ _ MX Q1) (unpad_bytes _ _ _ (HD _ _ ED) EU) IN) as (R3 & M3 & _).
    pose proof (rxb_trans _ _ _ h _ _ _ R R3) as RR.
    pose proof (srx_rtp_ok k s3 now h3 data3 seq3 t3 (rb_sri _ _ _ _ RR)) as Z. cbn zeta in Z. rewrite EP in Z. cbn [fst snd] in Z. destruct Z as (Z1 & Z2 & Z3 & Z4 & _).
    assert (RXB k h s s4) as R4 by (destruct RR; constructor; congruence || assumption).
    split; [apply wf_pending, wf_maxseq; [eapply wf_put; [exact W|exact E1|apply R4|apply R4]|exact M3]|]. cbn. repeat (split; [reflexivity|]). right. eauto.
Qed.

(** ** Timeouts and polls: every stream changes in place *)
Definition SAME (s s' : srx) : Prop := s_ssrc s' = s_ssrc s /\ s_mid s' = s_mid s /\ s_rid s' = s_rid s /\ s_rtx s' = s_rtx s /\ s_roc s' = s_roc s.
(** the register can only have been reported on *)
Definition regs_kept (o o' : option rreg) : Prop :=
  match o, o' with
  | None, None => True
  | Some r, Some r' => rmax_seq r' = rmax_seq r /\ (forall q, raccepts r q = false -> raccepts r' q = false)
  | _, _ => False
  end.
Lemma kept_refl o : regs_kept o o. Proof. destruct o; cbn; auto. Qed.
Lemma kept_trans a b c : regs_kept a b -> regs_kept b c -> regs_kept a c.
Proof. destruct a, b, c; cbn; try tauto. intros [A B] [C D]. split; [congruence|]. auto. Qed.
Lemma srx_feedback_ok k s now sender dn rep : SRI k s -> exists s' fb, srx_feedback s now sender dn rep = Ok (s', fb) /\ SRI k s' /\ SAME s s' /\ regs_kept (s_reg s) (s_reg s') /\ s_regx s' = s_regx s.
Proof.
  intro I. unfold srx_feedback. destruct (mk_keyframe s sender) as [s1 a] eqn:E1.
  assert (SRI k s1 /\ SAME s s1 /\ s_reg s1 = s_reg s /\ s_regx s1 = s_regx s) as (I1 & S1 & R1 & X1).
  { unfold mk_keyframe in E1. destruct (s_kf s); inversion E1; subst; (split; [destruct I; constructor; cbn; auto|]); unfold SAME; cbn; auto 10. }
  destruct (mk_remb s1 sender) as [s2 b] eqn:E2.
  assert (SRI k s2 /\ SAME s s2 /\ s_reg s2 = s_reg s /\ s_regx s2 = s_regx s) as (I2 & S2 & R2 & X2).
  { unfold mk_remb in E2. destruct (s_remb s1); inversion E2; subst; (split; [destruct I1; constructor; cbn; auto|]); unfold SAME in *; cbn; auto 10. }
  clear E1 E2 I1 S1 R1 X1 s1.
  assert (exists s3 c, (if rep then mk_rr s2 now sender else Ok (s2, [])) = Ok (s3, c) /\ SRI k s3 /\ SAME s s3 /\ regs_kept (s_reg s) (s_reg s3) /\ s_regx s3 = s_regx s) as (s3 & c & -> & I3 & S3 & R3 & X3).
  { destruct rep; [|do 2 eexists; split; [reflexivity|]; rewrite R2; auto using kept_refl]. unfold mk_rr. destruct (s_reg s2) as [r|] eqn:ER.
    - destruct I2 as [K A B C]. rewrite ER in A. destruct A as [A AB]. destruct (rr_report r A) as (A1 & A2 & A3). destruct (reception_report r) as [r' x]. cbn [fst snd] in *.
      assert (rmax_seq r' = rmax_seq r) as EM by (unfold rmax_seq; rewrite A3; reflexivity).
      destruct x as [rep| |]; [| |contradiction]; do 2 eexists; (split; [reflexivity|]); (split; [constructor; cbn; auto|]).
      + split; [exact A1|]. rewrite EM. exact AB.
      + split; [exact S2|]. cbn. rewrite <- R2. cbn. split; [|exact X2]. split; [exact EM|]. intros q. unfold raccepts. rewrite A3. auto.
      + rewrite ER. split; auto.
      + split; [exact S2|]. cbn. rewrite ER, <- R2. split; [apply kept_refl|exact X2].
    - do 2 eexists. split; [reflexivity|]. split; [destruct I2; constructor; cbn; rewrite ?ER; cbn; auto|]. split; [exact S2|]. cbn. rewrite ER, <- R2. cbn. auto. }
  cbn [bind]. clear I2 S2 R2 X2 s2.
  assert (exists s4 d, (if dn then mk_nack s3 sender else (s3, [])) = (s4, d) /\ SRI k s4 /\ SAME s s4 /\ regs_kept (s_reg s) (s_reg s4) /\ s_regx s4 = s_regx s) as (s4 & d & -> & I4 & S4 & R4 & X4).
  { destruct dn; [|eauto 8]. unfold mk_nack. destruct (s_supp s3); [eauto 8|]. destruct (s_reg s3) as [r|] eqn:ER.
    - destruct I3 as [K A B C]. rewrite ER in A. destruct A as [A AB]. pose proof (rr_nack r A) as A'. pose proof (shut_nack (rnack r)) as SN. pose proof (nack_active (rnack r) (proj1 A)) as NA.
      destruct (nack_reports (rnack r)) as [n es]. cbn [fst] in *. destruct es; [do 2 eexists; split; [reflexivity|]; rewrite ER; split; [constructor; rewrite ?ER; auto; split; auto|auto]|].
      do 2 eexists. split; [reflexivity|]. assert (rmax_seq (mkRreg n (first r) (count r) (expected_prior r) (received_prior r)) = rmax_seq r) as EM by (unfold rmax_seq, max_seq; cbn [rnack]; rewrite NA; reflexivity).
      split; [constructor; cbn; auto; split; [exact A'|rewrite EM; exact AB]|]. split; [exact S3|]. split; [|exact X3]. cbn.
      eapply kept_trans; [exact R3|]. cbn. split; [exact EM|]. intros q. unfold raccepts. cbn [rnack]. apply SN. exact (proj1 A).
    - eexists _, _. split; [reflexivity|]. rewrite ER. auto. }
  do 2 eexists. split; [reflexivity|]. unfold srx_timeout. destruct (s_check s4) as [t|]; [|auto]. destruct (now <? t); [auto|].
  split; [destruct I4; constructor; cbn; auto|]. split; [exact S4|]. auto.
Qed.
Definition IP (p p' : Z * srx) : Prop := fst p' = fst p /\ (SRI (fst p) (snd p) -> SRI (fst p) (snd p')) /\ SAME (snd p) (snd p') /\
  (SRI (fst p) (snd p) -> regs_kept (s_reg (snd p)) (s_reg (snd p'))).
Lemma ip_refl p : IP p p.
Proof. unfold IP, SAME. auto 12 using kept_refl. Qed.
Lemma ip_keys l l' : Forall2 IP l l' -> keys l' = keys l.
Proof. induction 1 as [|a b r r' H _ IH]; [reflexivity|]. cbn [map]. destruct H as [-> _]. congruence. Qed.
Lemma ip_in l l' k s' : Forall2 IP l l' -> In (k, s') l' -> exists s, In (k, s) l /\ IP (k, s) (k, s').
Proof.
  induction 1 as [|[ka a] [kb b] r r' H _ IH]; [intros []|]. intros [E|E]; [inversion E; subst; destruct H as [H1 H2]; cbn in H1; subst; exists a; cbn; split; [auto|split; auto]|].
  destruct (IH E) as (s & ? & ?). exists s. cbn. auto.
Qed.
Lemma ip_in' l l' k s : Forall2 IP l l' -> In (k, s) l -> exists s', In (k, s') l' /\ IP (k, s) (k, s').
Proof.
  induction 1 as [|[ka a] [kb b] r r' H _ IH]; [intros []|]. intros [E|E]; [inversion E; subst; destruct H as [H1 H2]; cbn in H1; subst; exists b; cbn; split; [auto|split; auto]|].
  destruct (IH E) as (s' & ? & ?). exists s'. cbn. auto.
Qed.
Lemma wf_inplace x l' lk' : WF x -> Forall2 IP (streams x) l' -> (forall e, In e lk' -> In e (lookups x)) -> NoDup (keys lk') -> WF (set_streams x l' lk').
Proof.
  intros [N S L LN M MX] H HL HN. constructor; cbn; auto.
  - rewrite (ip_keys _ _ H). exact N.
  - intros k s' Hs. destruct (ip_in _ _ _ _ H Hs) as (s & H1 & H2). apply H2. cbn. auto.
  - intros k l Hl. destruct (L k l (HL _ Hl)) as (s & H1 & H2). destruct (ip_in' _ _ _ _ H H1) as (s' & H3 & H4). exists s'. split; [exact H3|]. destruct H4 as (_ & _ & (_ & E4 & _) & _). cbn [snd] in E4. congruence.
  - intros k s' Hs. destruct (ip_in _ _ _ _ H Hs) as (s & H1 & H2). destruct H2 as (_ & _ & (_ & E & _) & _). cbn in E. rewrite E. eauto.
Qed.
Lemma ip_refl_l l : Forall2 IP l l.
Proof. induction l; constructor; auto using ip_refl. Qed.
Lemma all_feedback_ok l now sender dn mids : (forall k s, In (k, s) l -> SRI k s) -> exists l' fb, all_feedback l now sender dn mids = Ok (l', fb) /\ Forall2 IP l l'.
Proof.
  induction l as [|[k s] r IH]; intro H; [do 2 eexists; split; [reflexivity|constructor]|]. cbn [all_feedback].
  destruct (srx_feedback_ok k s now sender dn (existsb (leqb (s_mid s)) mids) (H _ _ (or_introl eq_refl))) as (s' & a & -> & I & S & R & X). cbn [bind].
  destruct (IH (fun k s h => H k s (or_intror h))) as (r' & b & -> & F). cbn [bind]. do 2 eexists. split; [reflexivity|]. constructor; [|exact F].
  unfold IP. cbn. auto.
Qed.
Lemma poll_first_ok {A} (f : srx -> option (srx * A)) l l' s a : (forall k s s' a, f s = Some (s', a) -> IP (k, s) (k, s')) -> poll_first f l = Some (l', (s, a)) -> Forall2 IP l l'.
Proof.
  intro H. revert l'. induction l as [|[k s0] r IH]; intros l'; [discriminate|]. cbn [poll_first]. destruct (f s0) as [[s' b]|] eqn:E.
  - intro X. inversion X; subst. constructor; [eapply H; eassumption|apply ip_refl_l].
  - destruct (poll_first f r) as [[r' z]|]; [|discriminate]. intro X. inversion X; subst. constructor; [apply ip_refl|]. apply IH. reflexivity.
Qed.
Lemma ip_paused k s s' a : poll_paused s = Some (s', a) -> IP (k, s) (k, s').
Proof.
  unfold poll_paused. destruct (s_ssrc s =? 0); [discriminate|]. destruct (s_need s); [|discriminate]. intro E. inversion E; subst. unfold IP, SAME. cbn. split; [reflexivity|].
  split; [intros []; constructor; cbn; auto|]. auto 10 using kept_refl.
Qed.
Lemma ip_info k s s' a : poll_info s = Some (s', a) -> IP (k, s) (k, s').
Proof.
  unfold poll_info. destruct (s_info s) as [i|]; [|discriminate]. destruct (i_emitted i); [discriminate|]. intro E. inversion E; subst. unfold IP, SAME. cbn. split; [reflexivity|].
  split; [intros []; constructor; cbn; auto|]. auto 10 using kept_refl.
Qed.

(** ** Every operation *)
(** What the API guarantees: packets come from the parser, SRTP gives bytes. *)
Lemma wf_on x k f : WF x -> (forall s, SRI k s -> SRI k (f s) /\ s_mid (f s) = s_mid s) -> WF (on_stream x k f).
Proof.
  intros W H. unfold on_stream. destruct (aget k (streams x)) as [s|] eqn:E; [|exact W]. destruct (H s (wf_str _ W _ _ (aget_some_in _ _ _ E))). eapply wf_put; eassumption.
Qed.
Lemma wf_medias x l : WF x -> (forall m, find_media (medias x) m <> None -> find_media l m <> None) -> WF (set_medias x l).
Proof. intros [N S L LN M MX] H. constructor; cbn; auto. intros k s E. destruct (M k s E); [auto|]. right. apply H. assumption. Qed.
Lemma wf_rids x m r : WF x -> WF (set_medias x (map (fun a => if leqb (m_mid a) m then mkMedia (m_mid a) r else a) (medias x))).
Proof.
  intro W. apply wf_medias; [exact W|]. intros m' H. apply find_media_some in H. apply find_media_some. rewrite map_map. apply in_map_iff in H as (a & <- & H). apply in_map_iff. exists a. split; [|exact H].
  destruct (leqb (m_mid a) m); reflexivity.
Qed.
Lemma sri_reset k s L : SRI k s -> (forall j q, L j = Some q -> 0 <= q < U64) -> SRI k (srx_reset s L).
Proof.
  intros [K A B C] H. unfold srx_reset. constructor; cbn; auto.
  - destruct (s_reg s); [|exact I]. apply oreg_new. intros q E. eapply H. exact E.
  - destruct (s_regx s); [|exact I]. apply oreg_new. intros q E. destruct (s_rtx s); [|discriminate]. eapply H. exact E.
Qed.
Lemma wf_reset x m : WF x -> WF (set_streams x (map (fun p => if leqb (s_mid (snd p)) m then (fst p, srx_reset (snd p) (seq_lookup (maxseq x))) else p) (streams x)) (lookups x)).
Proof.
  intros [N S L LN M MX]. set (f := fun p : Z * srx => if leqb (s_mid (snd p)) m then (fst p, srx_reset (snd p) (seq_lookup (maxseq x))) else p).
  assert (forall p, fst (f p) = fst p /\ s_mid (snd (f p)) = s_mid (snd p)) as F by (intro p; unfold f; destruct (leqb _ _); auto).
  constructor; cbn; auto.
  - rewrite map_map. rewrite (map_ext _ fst); [exact N|]. intro p. apply F.
  - intros k s H. apply in_map_iff in H as ([k0 s0] & E & H). unfold f in E. cbn [fst snd] in E. destruct (leqb (s_mid s0) m); inversion E; subst; auto. apply sri_reset; [auto|]. intros j q Q. exact (MX j q Q).
  - intros k l H. destruct (L k l H) as (s & H1 & H2). exists (snd (f (l_main l, s))). split; [|rewrite (proj2 (F _)); exact H2].
    apply in_map_iff. exists (l_main l, s). split; [|exact H1]. destruct (F (l_main l, s)) as [F1 _]. cbn [fst] in F1. destruct (f (l_main l, s)). cbn in *. congruence.
  - intros k s H. apply in_map_iff in H as (p & E & H). destruct (F p) as [F1 F2]. rewrite E in F1, F2. cbn [fst snd] in F1, F2. destruct p as [k0 s0]. cbn [fst snd] in *. subst. rewrite F2. eauto.
Qed.
Lemma wf_upd_first x f g : WF x -> (forall k s, SRI k s -> SRI k (g s) /\ s_mid (g s) = s_mid s) -> WF (set_streams x (upd_first f g (streams x)) (lookups x)).
Proof.
  intros [N S L LN M MX] H. constructor; cbn; auto.
  - rewrite upd_first_keys. exact N.
  - intros k s Hs. apply upd_first_in in Hs as [Hs|(s0 & Hs & _ & ->)]; [auto|]. apply H. auto.
  - intros k l Hl. destruct (L k l Hl) as (s & H1 & H2). apply (aget_in _ _ _ N) in H1. pose proof (upd_first_get f g (streams x) (l_main l) N) as U. rewrite H1 in U.
    destruct (match find _ _ with Some (k', _) => k' =? l_main l | None => false end).
    + eexists. split; [apply aget_some_in; exact U|]. rewrite (proj2 (H _ s (S _ _ (aget_some_in _ _ _ H1)))). exact H2.
    + eexists. split; [apply aget_some_in; exact U|exact H2].
  - intros k s Hs. apply upd_first_in in Hs as [Hs|(s0 & Hs & _ & ->)]; [eauto|]. rewrite (proj2 (H _ s0 (S _ _ Hs))). eauto.
Qed.
Lemma wf_front x k s : WF x -> aget k (streams x) = Some s -> WF (set_streams x ((k, s) :: adel k (streams x)) (lookups x)).
Proof.
  intros [N S L LN M MX] E. pose proof (aget_some_in _ _ _ E) as HK. constructor; cbn; auto.
  - constructor; [|apply adel_nodup; exact N]. intro H. apply in_map_iff in H as ([k0 s0] & E0 & H). cbn in E0. subst. apply adel_in in H as [H _]. contradiction.
  - intros k0 s0 [H|H]; [inversion H; subst; auto|]. apply adel_in in H as [_ H]. auto.
  - intros k0 l H. destruct (L k0 l H) as (s0 & H1 & H2). exists s0. split; [|exact H2]. destruct (Z.eq_dec (l_main l) k) as [E0|E0]; [left|right; apply adel_in; auto].
    rewrite E0 in *. apply (aget_in _ _ _ N) in H1. congruence.
  - intros k0 s0 [H|H]; [inversion H; subst; eauto|]. apply adel_in in H as [_ H]. eauto.
Qed.
Lemma wf_timeout x now sender iva ivv : WF x -> exists y fb, sess_timeout x now sender iva ivv = Ok (y, fb) /\ WF y /\ medias y = medias x.
Proof.
  intro W. unfold sess_timeout, nack_at. cbn [fst snd]. set (dn := match (if any_nack x then Some _ else None) with Some t => t <=? now | None => false end). clearbody dn.
  unfold rx_timeout. cbn [streams lookups set_nack cleanup].
  destruct (all_feedback_ok (streams x) now sender dn (map (fun p => s_mid (snd p)) (filter (fun p => need_rr (snd p) now iva ivv) (streams x))) (wf_str _ W)) as (l & fb & -> & F). cbn [bind].
  do 2 eexists. split; [reflexivity|]. split; [|destruct (cleanup x + CLEANUP <? now); reflexivity].
  apply wf_nack_ext. set (x0 := set_nack x _ _). assert (WF x0) as W0 by (apply wf_nack_ext; exact W).
  change (cleanup x) with (cleanup x0). destruct (_ <? now).
  - assert (WF (set_streams (set_streams x0 l (lookups x0)) l (filter (fun p => Z.max 0 (now - l_used (snd p)) <=? EXPIRY) (lookups x)))) as W1.
    { change (WF (set_streams x0 l (filter (fun p => Z.max 0 (now - l_used (snd p)) <=? EXPIRY) (lookups x)))). apply wf_inplace; [exact W0|exact F| |].
      - intros e H. apply filter_In in H as [H _]. exact H.
      - apply filter_nodup. apply (wf_lkn _ W). }
    destruct W1. constructor; auto.
  - change (WF (set_streams x0 l (lookups x0))). apply wf_inplace; auto. apply (wf_lkn _ W).
Qed.
Lemma wf_step x o : WF x -> op_fine x o -> exists y a, rxstep x o = Ok (y, a) /\ WF y.
Proof.
  intros W O. destruct o as [now h dec| |k rtx m r supp|k|m|m r|m|c| |m|k roc|k fir|k b|k b|m r b|k d|now k ntp rtp|now sender iva ivv| | |k]; cbn [rxstep op_fine] in *.
  - destruct O as [HS HD]. destruct (handle_rtp_total x now h dec W HS HD) as (y & evs & x1 & o & -> & _ & W1 & C). cbn [bind]. do 2 eexists. split; [reflexivity|].
    destruct o as [[m k]|]; [|destruct C; subst; exact W1]. eapply rxcase_shape; eassumption.
  - destruct (srtp x && rtp_mode x); do 2 eexists; (split; [reflexivity|]); [apply wf_pending|]; exact W.
  - destruct (find_media (medias x) m) eqn:F; [|exfalso; apply find_media_some in O; contradiction]. do 2 eexists. split; [reflexivity|]. apply wf_expect; [exact W|]. right. congruence.
  - do 2 eexists. split; [reflexivity|]. apply wf_remove. exact W.
  - do 2 eexists. split; [reflexivity|]. apply wf_medias; [exact W|]. intros m' H. apply find_media_some in H. apply find_media_some. rewrite map_app. apply in_or_app. auto.
  - do 2 eexists. split; [reflexivity|]. apply wf_rids. exact W.
  - do 2 eexists. split; [reflexivity|]. apply wf_remove_mid. exact W.
  - do 2 eexists. split; [reflexivity|]. apply wf_set_codecs. exact W.
  - do 2 eexists. split; [reflexivity|]. destruct W; constructor; auto.
  - do 2 eexists. split; [reflexivity|]. apply wf_reset. exact W.
  - do 2 eexists. split; [reflexivity|]. apply wf_on; [exact W|]. intros s []. split; [constructor; cbn; auto; intros r E; inversion E; subst; exact O|reflexivity].
  - do 2 eexists. split; [reflexivity|]. apply wf_on; [exact W|]. intros s []. split; [constructor; cbn; auto|reflexivity].
  - do 2 eexists. split; [reflexivity|]. apply wf_on; [exact W|]. intros s []. split; [constructor; cbn; auto|reflexivity].
  - do 2 eexists. split; [reflexivity|]. apply wf_on; [exact W|]. intros s []. split; [constructor; cbn; auto|reflexivity].
  - do 2 eexists. split; [reflexivity|]. apply wf_nack_ext, wf_upd_first; [exact W|]. intros k s []. split; [constructor; cbn; auto|reflexivity].
  - do 2 eexists. split; [reflexivity|]. apply wf_on; [exact W|]. intros s []. split; [constructor; cbn; auto|reflexivity].
  - do 2 eexists. split; [reflexivity|]. apply wf_on; [exact W|]. intros s []. split; [constructor; cbn; auto|reflexivity].
  - destruct (wf_timeout x now sender iva ivv W) as (y & fb & -> & W' & _). cbn [bind]. eauto.
  - destruct (poll_first poll_paused (streams x)) as [[l [s b]]|] eqn:E; do 2 eexists; (split; [reflexivity|]); [|exact W]. apply wf_inplace; [exact W|eapply poll_first_ok; [exact ip_paused|exact E]|auto|apply (wf_lkn _ W)].
  - destruct (poll_first poll_info (streams x)) as [[l [s b]]|] eqn:E; do 2 eexists; (split; [reflexivity|]); [|exact W]. apply wf_inplace; [exact W|eapply poll_first_ok; [exact ip_info|exact E]|auto|apply (wf_lkn _ W)].
  - do 2 eexists. split; [reflexivity|]. destruct (aget k (streams x)) as [s|] eqn:E; [|exact W]. apply wf_front; assumption.
Qed.
Lemma wf0 mode : WF (sess0 mode).
Proof. constructor; cbn; try (apply NoDup_nil); try (intros; contradiction); intros; discriminate. Qed.

Lemma wf_run os : forall x, WF x -> ops_fine x os -> exists y l, rxrun x os = Ok (y, l) /\ WF y.
Proof.
  induction os as [|o r IH]; intros x W H; [cbn; eauto|]. cbn [rxrun ops_fine] in *. destruct H as [H1 H2]. destruct (wf_step x o W H1) as (y & a & E & W'). rewrite E in *. cbn [bind].
  destruct (IH y W' H2) as (z & l & -> & W2). cbn [bind]. eauto.
Qed.

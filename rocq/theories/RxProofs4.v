(** What is handed to the application: authentic packets, each at most once. *)
From Verif Require Import Base BaseFacts SeqModel SeqProofs NackModel RegisterModel MtimeModel ExtModel HeaderModel HeaderProofs TxModel RxModel RxReg RxSpec RxProofs RxProofs2 RxProofs3.

Section Classified.
Variables isrtx rtxpt : Z -> bool.
Hypothesis H0 : isrtx 0 = false.

Definition codecs_cl (c : list param) : Prop := forall p, In p c -> rtxpt (p_pt p) = false /\ forall r, p_rtx p = Some r -> rtxpt r = true.
Record CL (x : sess) : Prop := {
  cl_codecs : codecs_cl (codecs x);
  cl_key : forall k s, In (k, s) (streams x) -> isrtx k = false;
  cl_rtx : forall k s q, In (k, s) (streams x) -> s_rtx s = Some q -> isrtx q = true;
  cl_lk : forall j l, In (j, l) (lookups x) -> isrtx j = false -> l_main l = j }.
(** [D]: the packets of known SSRC and index taken so far *)
Record GH (x : sess) (D : list (Z * Z)) : Prop := {
  gh_nodup : NoDup D;
  gh_le : forall k q, In (k, q) D -> k <> 0 /\ isrtx k = false /\ exists mx, aget k (maxseq x) = Some mx /\ q <= mx;
  gh_top : forall k mx, k <> 0 -> isrtx k = false -> aget k (maxseq x) = Some mx -> In (k, mx) D;
  gh_reg : forall k s r, k <> 0 -> In (k, s) (streams x) -> s_reg s = Some r -> rmax_seq r = aget k (maxseq x);
  gh_shut : forall k s r q, In (k, q) D -> In (k, s) (streams x) -> s_reg s = Some r -> raccepts r q = false }.

Lemma cl_find_param x pt p : CL x -> find_param (codecs x) pt = Some p -> negb (p_pt p =? pt) = rtxpt pt.
Proof.
  intros C F. unfold find_param in F. apply find_some in F as [F1 F2]. destruct (cl_codecs _ C _ F1) as [A B]. destruct (p_pt p =? pt) eqn:E; cbn.
  - apply Z.eqb_eq in E. subst. congruence.
  - cbn in F2. unfold ozeqb in F2. destruct (p_rtx p) as [r|]; [|discriminate]. apply Z.eqb_eq in F2. subst. symmetry. apply B. reflexivity.
Qed.

(** *** mapping keeps the classification *)
Definition hcl (h : header) : Prop := pkt_class isrtx rtxpt h.
Lemma cl_nack x c t : CL x -> CL (set_nack x c t). Proof. intros []. constructor; auto. Qed.
Lemma reset_rtx_cl s q c : s_rtx (maybe_reset_rtx s q) = Some c -> s_rtx s = Some c \/ c = q.
Proof. unfold maybe_reset_rtx. destruct (match s_rtx s with Some c => c =? q | None => false end); cbn; [auto|]. intro E. inversion E. auto. Qed.
Lemma cl_expect x k rtx m r supp : WF x -> CL x -> isrtx k = false -> (forall q, rtx = Some q -> isrtx q = true) -> CL (expect_rx x k rtx m r supp).
Proof.
  intros W [A B C D] HK HR. unfold expect_rx. apply cl_nack. constructor; cbn; auto.
  - intros k' s'. rewrite aset_in by apply (wf_nodup _ W). intros [[-> _]|[_ H]]; eauto.
  - intros k' s' q. rewrite aset_in by apply (wf_nodup _ W). intros [[-> ->]|[_ H]]; [|eauto].
    set (s := match aget k (streams x) with Some s => s | None => srx_new k m r supp end).
    assert (forall c, s_rtx s = Some c -> isrtx c = true) as HS. { unfold s. destruct (aget k (streams x)) eqn:E; [|discriminate]. intros c. eapply C. apply aget_some_in. exact E. }
    destruct rtx as [a|]; [|apply HS]. intro E. apply reset_rtx_cl in E as [E| ->]; [apply HS; exact E|]. apply HR. reflexivity.
Qed.
Lemma cl_sub x l lk : CL x -> (forall k s, In (k, s) l -> exists s0, In (k, s0) (streams x) /\ (s_rtx s = s_rtx s0)) -> (forall j e, In (j, e) lk -> In (j, e) (lookups x)) -> CL (set_streams x l lk).
Proof.
  intros [A B C D] H1 H2. constructor; cbn; auto.
  - intros k s H. destruct (H1 k s H) as (s0 & ? & ?). eauto.
  - intros k s q H E. destruct (H1 k s H) as (s0 & ? & E0). eapply C; [eassumption|]. congruence.
Qed.
Lemma cl_change x a b y d : WF x -> CL x -> isrtx b = false -> change_rx_ssrc x a b = Ok (y, d) -> CL y.
Proof.
  intros W [A B C D] HB. unfold change_rx_ssrc. destruct (aget a (streams x)) as [s|] eqn:E; [|discriminate]. unfold change_ssrc. destruct (_ || _); intro X; inversion X; subst; clear X; [constructor; auto|].
  assert (NoDup (keys (adel a (streams x)))) as ND by apply adel_nodup, (wf_nodup _ W).
  constructor; cbn; auto.
  - intros k s0. rewrite aset_in by exact ND. intros [[-> _]|[_ H]]; [exact HB|]. apply adel_in in H as [_ H]. eauto.
  - intros k s0 q. rewrite aset_in by exact ND. intros [[-> ->]|[_ H]]; cbn; [eapply C; apply aget_some_in; exact E|]. apply adel_in in H as [_ H]. eauto.
  - intros j l H. apply filter_In in H as [H _]. auto.
Qed.
Lemma cl_change_rtx x a b : CL x -> isrtx b = true -> CL (change_rx_rtx x a b).
Proof.
  intros [A B C D] HB. unfold change_rx_rtx. apply cl_nack. constructor; cbn; auto.
  - intros k s H. apply upd_first_in in H as [H|(s0 & H & _)]; eauto.
  - intros k s q H. apply upd_first_in in H as [H|(s0 & H & _ & ->)]; [eauto|]. intro E. apply reset_rtx_cl in E as [E| ->]; [eauto|exact HB].
  - intros j l H. apply adel_in in H as [_ H]. auto.
Qed.
Lemma cl_mid_ssrc x now k y o : WF x -> CL x -> mid_ssrc x now k = (y, o) -> CL y /\ streams y = streams x /\ maxseq y = maxseq x /\
  (forall m q, o = Some (m, q) -> isrtx k = false -> q = k).
Proof.
  intros W [A B C D]. unfold mid_ssrc. destruct (aget k (lookups x)) as [l|] eqn:E.
  - intro X. inversion X; subst. pose proof (aget_some_in _ _ _ E) as HE. split; [|split; [reflexivity|split; [reflexivity|]]].
    + constructor; cbn; auto. intros j l'. rewrite aset_in by apply (wf_lkn _ W). intros [[-> ->]|[_ H]]; cbn; eauto.
    + intros m q Q HK. inversion Q; subst. eauto.
  - destruct (by_ssrc_or_rtx (streams x) k) as [s|] eqn:F; intro X; inversion X; subst.
    + unfold by_ssrc_or_rtx in F. apply find_stream_in in F as (k0 & F1 & F2). pose proof (sri_key _ _ (wf_str _ W _ _ F1)) as K.
      assert (isrtx k = false -> s_ssrc s = k) as HK.
      { intro Hf. apply orb_true_iff in F2 as [F2|F2]; [apply Z.eqb_eq; exact F2|]. unfold ozeqb in F2. destruct (s_rtx s) as [q|] eqn:Eq; [|discriminate]. apply Z.eqb_eq in F2. subst q.
        rewrite (C _ _ _ F1 Eq) in Hf. discriminate. }
      split; [|split; [reflexivity|split; [reflexivity|]]].
      * constructor; cbn; auto. intros j l'. rewrite aset_in by apply (wf_lkn _ W). intros [[-> ->]|[_ H]]; cbn; eauto.
      * intros m q Q. inversion Q; subst. exact HK.
    + split; [constructor; auto|]. split; [reflexivity|]. split; [reflexivity|]. discriminate.
Qed.

(** streams whose register survives *)
Definition KEEP (x y : sess) : Prop := maxseq y = maxseq x /\ pending y = pending x /\ rtp_mode y = rtp_mode x /\
  forall k s r, In (k, s) (streams y) -> s_reg s = Some r -> exists s0, In (k, s0) (streams x) /\ s_reg s0 = Some r.
Lemma keep_refl x : KEEP x x. Proof. split; [auto|]. split; [auto|]. split; eauto. Qed.
Lemma keep_trans x y z : KEEP x y -> KEEP y z -> KEEP x z.
Proof. intros (A & B & C & D) (A' & B' & C' & D'). split; [congruence|]. split; [congruence|]. split; [congruence|]. intros k s r H E. destruct (D' k s r H E) as (s1 & H1 & E1). eauto. Qed.
Lemma gh_keep x y D : KEEP x y -> GH x D -> GH y D.
Proof.
  intros (A & B & _ & C) [N L T R S]. constructor; rewrite ?A; auto.
  - intros k s r K H E. destruct (C k s r H E) as (s0 & ? & ?). eauto.
  - intros k s r q Q H E. destruct (C k s r H E) as (s0 & ? & ?). eauto.
Qed.
Lemma reset_rtx_reg s q : s_reg (maybe_reset_rtx s q) = s_reg s.
Proof. unfold maybe_reset_rtx. destruct (match s_rtx s with Some c => c =? q | None => false end); reflexivity. Qed.
Lemma keep_expect x k rtx m r supp : WF x -> KEEP x (expect_rx x k rtx m r supp).
Proof.
  intro W. unfold expect_rx. split; [reflexivity|]. split; [reflexivity|]. split; [reflexivity|]. intros k' s' r' H E. cbn [streams set_nack set_streams] in H. rewrite aset_in in H by apply (wf_nodup _ W). destruct H as [[-> ->]|[_ H]]; [|eauto].
  assert (s_reg (match aget k (streams x) with Some s => s | None => srx_new k m r supp end) = Some r') as E' by (destruct rtx; rewrite ?reset_rtx_reg in E; exact E).
  destruct (aget k (streams x)) as [s|] eqn:G; [|discriminate]. exists s. split; [apply aget_some_in; exact G|exact E'].
Qed.
Lemma keep_change x a b y d : WF x -> change_rx_ssrc x a b = Ok (y, d) -> KEEP x y.
Proof.
  intro W. unfold change_rx_ssrc. destruct (aget a (streams x)) as [s|] eqn:E; [|discriminate]. unfold change_ssrc. destruct (_ || _); intro X; inversion X; subst; [apply keep_refl|].
  split; [reflexivity|]. split; [reflexivity|]. split; [reflexivity|]. cbn. intros k s0 r. rewrite aset_in by apply adel_nodup, (wf_nodup _ W). intros [[-> ->]|[_ H]] E0; [discriminate E0|]. apply adel_in in H as [_ H]. eauto.
Qed.
Lemma keep_change_rtx x a b : KEEP x (change_rx_rtx x a b).
Proof.
  unfold change_rx_rtx. split; [reflexivity|]. split; [reflexivity|]. split; [reflexivity|]. cbn. intros k s r H E. apply upd_first_in in H as [H|(s0 & H & _ & ->)]; [eauto|]. rewrite reset_rtx_reg in E. eauto.
Qed.
Lemma change_shape x a b y d : change_rx_ssrc x a b = Ok (y, d) -> d = true \/ y = x.
Proof. unfold change_rx_ssrc. destruct (aget a (streams x)); [|discriminate]. destruct (change_ssrc _ _); intro X; inversion X; auto. Qed.

Lemma cl_map_finish x m r main rtx b y : WF x -> find_media (medias x) m <> None ->
  (forall s, by_midrid (streams x) m r = Some s -> s_ssrc s = main \/ ~ In main (keys (streams x))) ->
  CL x -> isrtx main = false -> (forall q, rtx = Some q -> isrtx q = true) ->
  map_finish x m r main rtx b = Ok y -> CL y /\ KEEP x y.
Proof.
  intros W HM HB C HK HR. unfold map_finish.
  destruct (by_midrid (streams x) m r) as [s|] eqn:F.
  2:{ cbn [bind]. intro X. inversion X; subst. split; [apply cl_expect; assumption|apply keep_expect; exact W]. }
  destruct (by_midrid_in _ _ _ _ W F) as [Hs Em].
  assert (forall y0, (if s_ssrc s =? main then Ok x else do z <- change_rx_ssrc x (s_ssrc s) main; Ok (fst z)) = Ok y0 -> WF y0 /\ CL y0 /\ KEEP x y0) as HY.
  { intros y0. destruct (s_ssrc s =? main) eqn:E; [intro X; inversion X; subst; auto using keep_refl|]. apply Z.eqb_neq in E.
    destruct (change_rx_ssrc x (s_ssrc s) main) as [[z d]| |] eqn:CH; cbn [bind fst]; [|discriminate|discriminate]. intro X. inversion X; subst.
    destruct (HB s eq_refl) as [|NB]; [contradiction|]. split; [|split; [eapply cl_change; eassumption|eapply keep_change; eassumption]].
    eapply wf_change; [exact W|exact NB| |exact CH]. intros s0 H1. apply (aget_in _ _ _ (wf_nodup _ W)) in H1. apply (aget_in _ _ _ (wf_nodup _ W)) in Hs. assert (s0 = s) by congruence. subst. exact HM. }
  destruct (if s_ssrc s =? main then Ok x else _) as [y0| |]; cbn [bind]; [|discriminate|discriminate]. destruct (HY y0 eq_refl) as (W0 & C0 & K0). intro X. inversion X; subst. clear X.
  set (z := match s_rtx s with Some a => _ | None => y0 end).
  assert (WF z /\ CL z /\ KEEP y0 z) as (Wz & Cz & Kz).
  { unfold z. destruct (s_rtx s) as [a|]; [|auto using keep_refl]. destruct rtx as [q|]; [|auto using keep_refl]. destruct (a =? q); [auto using keep_refl|].
    split; [apply wf_change_rtx; exact W0|]. split; [apply cl_change_rtx; auto|apply keep_change_rtx]. }
  split; [apply cl_expect; assumption|]. eapply keep_trans; [exact K0|]. eapply keep_trans; [exact Kz|]. apply keep_expect. exact Wz.
Qed.
Lemma cl_map_dynamic x h y : WF x -> ~ In (ssrc h) (keys (streams x)) -> CL x -> hcl h -> map_dynamic x h = Ok y -> WF y /\ CL y /\ KEEP x y.
Proof.
  intros W NK C HC E. destruct (wf_map_dynamic x h W NK) as (y' & E' & W' & _). assert (y' = y) by congruence. subst y'. split; [exact W'|]. clear E'. revert E.
  unfold map_dynamic. destruct (mid (ext_vals h)) as [m|] eqn:EM; [|intro X; inversion X; subst; auto using keep_refl]. destruct (find_media (medias x) m) as [md|] eqn:FM; [|intro X; inversion X; subst; auto using keep_refl].
  destruct (find_param (codecs x) (payload_type h)) as [p|] eqn:FP; [|intro X; inversion X; subst; auto using keep_refl]. cbn zeta.
  set (rid_ := match rid (ext_vals h) with Some a => Some a | None => rid_repair (ext_vals h) end).
  destruct (match rid_ with Some a => rids_contains (m_rids md) a | None => negb (rids_specific (m_rids md)) end); [|intro X; inversion X; subst; auto using keep_refl].
  set (im := match rid_ with Some _ => match rid (ext_vals h) with Some _ => true | None => false end | None => p_pt p =? payload_type h end).
  assert (im = negb (isrtx (ssrc h))) as HI.
  { unfold hcl, pkt_class in HC. destruct (Z.eq_dec (ssrc h) 0) as [Z0|Z0]; [rewrite (proj1 HC Z0) in EM; discriminate|]. destruct (proj2 HC Z0) as (P1 & P2 & P3). pose proof (cl_find_param _ _ _ C FP) as P4.
    unfold im, rid_. destruct (rid (ext_vals h)); [rewrite P2; [reflexivity|discriminate]|]. destruct (rid_repair (ext_vals h)); [rewrite P3; [reflexivity|reflexivity|discriminate]|].
    rewrite P1, <- P4. destruct (p_pt p =? payload_type h); reflexivity. }
  destruct (map_pair x (ssrc h) m rid_ im) as [[main rtx]|] eqn:MP; [|intro X; inversion X; subst; auto using keep_refl].
  intro E. unfold map_pair in MP. destruct im.
  - inversion MP; subst main rtx. eapply cl_map_finish in E; try eassumption; try congruence.
    + auto.
    + destruct (isrtx (ssrc h)); [discriminate|reflexivity].
    + destruct (by_midrid (streams x) m rid_) as [s|] eqn:B; [|discriminate]. intros q Q. destruct (by_midrid_in _ _ _ _ W B) as [Hs _]. eapply (cl_rtx _ C); eassumption.
  - destruct (by_midrid (streams x) m rid_) as [s|] eqn:B; [|discriminate]. inversion MP; subst main rtx. destruct (by_midrid_in _ _ _ _ W B) as [Hs _].
    eapply cl_map_finish in E; try eassumption; try congruence.
    + intros s0 B0. assert (s0 = s) by congruence. subst. auto.
    + eapply (cl_key _ C); eassumption.
    + intros q Q. inversion Q; subst. destruct (isrtx (ssrc h)); [reflexivity|discriminate].
Qed.
Lemma cl_mid_for_header x now h y o : WF x -> CL x -> hcl h -> mid_for_header x now h = Ok (y, o) ->
  CL y /\ KEEP x y /\ forall m k, o = Some (m, k) -> isrtx (ssrc h) = false -> k = ssrc h.
Proof.
  intros W C HC. unfold mid_for_header. pose proof (wf_mid_ssrc x now (ssrc h) W) as (W1 & S1 & M1 & F1 & N1). destruct (mid_ssrc x now (ssrc h)) as [x1 o1] eqn:E1. cbn [fst snd] in *.
  destruct (cl_mid_ssrc _ _ _ _ _ W C E1) as (C1 & S1' & X1 & L1).
  assert (KEEP x x1) as K1. { unfold mid_ssrc in E1. destruct (aget (ssrc h) (lookups x)); [|destruct (by_ssrc_or_rtx _ _)]; inversion E1; subst; (split; [reflexivity|]; split; [reflexivity|]; split; [reflexivity|]; cbn; eauto). }
  destruct o1 as [[m k]|]; [intro X; inversion X; subst; auto|].
  destruct (N1 eq_refl) as [Q1 NK]. destruct (map_dynamic x1 h) as [x2| |] eqn:E2; cbn [bind]; [|discriminate|discriminate].
  rewrite Q1 in E2. destruct (cl_map_dynamic _ _ _ W NK C HC E2) as (W2 & C2 & K2).
  destruct (mid_ssrc x2 now (ssrc h)) as [x3 o3] eqn:E3. pose proof (wf_mid_ssrc x2 now (ssrc h) W2) as (W3 & _). rewrite E3 in W3. cbn [fst] in W3. destruct (cl_mid_ssrc _ _ _ _ _ W2 C2 E3) as (C3 & S3' & X3 & L3).
  assert (KEEP x2 x3) as K3. { unfold mid_ssrc in E3. destruct (aget (ssrc h) (lookups x2)); [|destruct (by_ssrc_or_rtx _ _)]; inversion E3; subst; (split; [reflexivity|]; split; [reflexivity|]; split; [reflexivity|]; cbn; eauto). }
  pose proof (keep_trans _ _ _ K2 K3) as K4.
  destruct o3 as [[m k]|]; [intro X; inversion X; subst; auto|].
  destruct (ssrc h =? 0) eqn:Z0; intro X; inversion X; subst; [|split; [exact C3|split; [exact K4|discriminate]]].
  assert (WF (set_codecs x3 (codecs x3) (Some (payload_type h)))) as W4 by (apply wf_set_codecs; exact W3).
  split; [apply cl_expect; [exact W4|destruct C3; constructor; auto|exact H0|discriminate]|]. split; [|intros m k Q _; inversion Q; lia].
  eapply keep_trans; [exact K4|]. eapply keep_trans; [|apply keep_expect; exact W4]. split; [reflexivity|]. split; [reflexivity|]. split; [reflexivity|]. cbn. eauto.
Qed.
End Classified.

(** Whole histories: authentic packets, each at most once. *)
From Verif Require Import Base BaseFacts SeqModel SeqProofs NackModel RegisterModel MtimeModel ExtModel HeaderModel HeaderProofs TxModel RxModel RxReg RxSpec RxProofs RxProofs2 RxProofs3 RxProofs4 RxProofs5.

Section Classified.
Variables isrtx rtxpt : Z -> bool.
Hypothesis H0 : isrtx 0 = false.
Notation CL := (CL isrtx rtxpt). Notation GH := (GH isrtx). Notation hcl := (hcl isrtx rtxpt).

Lemma gh_inplace x l lk D : WF x -> Forall2 IP (streams x) l -> GH x D -> GH (set_streams x l lk) D.
Proof.
  intros W F [N L T R S]. constructor; cbn; auto.
  - intros k s r K H E. destruct (ip_in _ _ _ _ F H) as (s0 & H1 & H2). destruct H2 as (_ & _ & _ & H2). cbn [fst snd] in H2. specialize (H2 (wf_str _ W _ _ H1)). rewrite E in H2.
    destruct (s_reg s0) as [r0|] eqn:E0; [|contradiction]. destruct H2 as [-> _]. eauto.
  - intros k s r q Q H E. destruct (ip_in _ _ _ _ F H) as (s0 & H1 & H2). destruct H2 as (_ & _ & _ & H2). cbn [fst snd] in H2. specialize (H2 (wf_str _ W _ _ H1)). rewrite E in H2.
    destruct (s_reg s0) as [r0|] eqn:E0; [|contradiction]. apply (proj2 H2). eauto.
Qed.
Lemma cl_inplace x l lk : Forall2 IP (streams x) l -> (forall j e, In (j, e) lk -> In (j, e) (lookups x)) -> CL x -> CL (set_streams x l lk).
Proof.
  intros F HL C. apply cl_sub; [exact C| |exact HL]. intros k s H. destruct (ip_in _ _ _ _ F H) as (s0 & H1 & H2). exists s0. split; [exact H1|]. apply H2.
Qed.
Lemma gh_reset x m D : WF x -> GH x D -> GH (set_streams x (map (fun p => if leqb (s_mid (snd p)) m then (fst p, srx_reset (snd p) (seq_lookup (maxseq x))) else p) (streams x)) (lookups x)) D.
Proof.
  intros W [N L T R S]. constructor; cbn; auto.
  - intros k s r K H E. apply in_map_iff in H as ([k0 s0] & X & H). cbn [fst snd] in X. destruct (leqb (s_mid s0) m); inversion X; subst; [|eauto].
    unfold srx_reset in E. cbn in E. destruct (s_reg s0); [|discriminate]. inversion E; subst. rewrite rnew_max. unfold seq_lookup. rewrite (sri_key _ _ (wf_str _ W _ _ H)). reflexivity.
  - intros k s r q Q H E. apply in_map_iff in H as ([k0 s0] & X & H). cbn [fst snd] in X. destruct (leqb (s_mid s0) m); inversion X; subst; [|eauto].
    unfold srx_reset in E. cbn in E. destruct (s_reg s0); [|discriminate]. inversion E; subst. unfold seq_lookup. rewrite (sri_key _ _ (wf_str _ W _ _ H)).
    destruct (L _ _ Q) as (_ & _ & mx & -> & Lq). unfold raccepts, rnew. cbn [rnack]. apply shut_new. exact Lq.
Qed.
Lemma both_on x k f D : WF x -> (forall s, s_rtx (f s) = s_rtx s /\ (s_reg (f s) = s_reg s \/ s_reg (f s) = None)) -> CL x -> GH x D -> CL (on_stream x k f) /\ GH (on_stream x k f) D /\ pending (on_stream x k f) = pending x.
Proof.
  intros W H C G. unfold on_stream. destruct (aget k (streams x)) as [s|] eqn:E; [|auto]. destruct (H s) as [A B]. split; [eapply cl_put; eassumption|]. split; [|reflexivity].
  apply (gh_keep isrtx x); [|exact G]. split; [reflexivity|]. split; [reflexivity|]. split; [reflexivity|]. cbn. intros j t r. rewrite aset_in by apply (wf_nodup _ W). intros [[-> ->]|[_ H1]] Er; [|eauto].
  exists s. split; [apply aget_some_in; exact E|]. destruct B as [B|B]; congruence.
Qed.
Definition quiet (a : rout) : Prop := match a with OPacket _ => False | _ => True end.
Definition step_ghost (x : sess) (o : rop) (y : sess) (a : rout) (D D' : list (Z * Z)) : Prop :=
  match o with
  | RRtp now h dec => quiet a /\ outcome x now h dec y D D'
  | RPollPacket => D' = D /\ (a = OPacket (pending x) /\ pending y = None \/ a = OPacket None /\ pending y = pending x)
  | _ => quiet a /\ D' = D /\ pending y = pending x
  end.
Lemma inv_step x o y a D : WF x -> CL x -> GH x D -> op_fine x o -> op_class isrtx rtxpt o -> rxstep x o = Ok (y, a) ->
  WF y /\ CL y /\ exists D', GH y D' /\ step_ghost x o y a D D'.
Proof.
  intros W C G O K E. destruct (wf_step x o W O) as (y' & a' & E' & W'). assert (y' = y /\ a' = a) as [-> ->] by (split; congruence). split; [exact W'|]. clear E'. revert E.
  destruct o as [now h dec| |k rtx m r supp|k|m|m r|m|c| |m|k roc|k fir|k b|k b|m r b|k d|now k ntp rtp|now sender iva ivv| | |k]; cbn [rxstep op_fine op_class step_ghost] in *.
  - destruct O as [HS HD]. destruct (handle_rtp_total x now h dec W HS HD) as (y0 & evs & x1 & o & E1 & E2 & W1 & RC). rewrite E1. cbn [bind]. intro X. inversion X; subst; clear X.
    destruct (cl_mid_for_header isrtx rtxpt H0 _ _ _ _ _ W C K E2) as (C1 & K1 & HM). pose proof (gh_keep isrtx _ _ _ K1 G) as G1. destruct K1 as (KM & KP & KR & _).
    destruct o as [[m k]|].
    + assert (isrtx k = false) as HK.
      { destruct (wf_mid_for_header x now h W) as (x1' & o' & E2' & _ & _ & F). rewrite E2 in E2'. inversion E2'; subst. destruct (F m k eq_refl) as (s & ES & _). eapply (cl_key _ _ _ C1). apply aget_some_in. exact ES. }
      destruct (gh_rxcase isrtx rtxpt H0 _ _ _ _ _ _ _ _ D W1 C1 G1 K HS HD HK (fun e => HM m k eq_refl e) RC) as (C2 & D' & G2 & OC). split; [exact C2|]. exists D'. split; [exact G2|]. split; [exact I|].
      unfold outcome in *. rewrite KP, KR in OC. exact OC.
    + destruct RC as [-> ->]. split; [exact C1|]. exists D. split; [exact G1|]. split; [exact I|]. left. auto.
  - destruct (srtp x && rtp_mode x); intro X; inversion X; subst.
    + split; [destruct C; constructor; auto|]. exists D. split; [eapply gh_ext; [| |exact G]; reflexivity|]. auto.
    + split; [exact C|]. exists D. auto.
  - destruct (find_media (medias x) m); [|discriminate]. intro X. inversion X; subst. split; [apply cl_expect; try assumption; apply K|]. exists D. split; [eapply gh_keep; [apply keep_expect; exact W|exact G]|]. split; [exact I|auto].
  - intro X. inversion X; subst. split.
    + apply cl_sub; [exact C| |]; [intros j s H; apply adel_in in H as [_ H]; eauto|intros j e H; apply filter_In in H as [H _]; exact H].
    + exists D. split; [|split; [exact I|auto]]. eapply gh_keep; [|exact G]. split; [reflexivity|]. split; [reflexivity|]. split; [reflexivity|]. cbn. intros j s r H Er. apply adel_in in H as [_ H]. eauto.
  - intro X. inversion X; subst. split; [destruct C; constructor; auto|]. exists D. split; [eapply gh_ext; [| |exact G]; reflexivity|]. split; [exact I|auto].
  - intro X. inversion X; subst. split; [destruct C; constructor; auto|]. exists D. split; [eapply gh_ext; [| |exact G]; reflexivity|]. split; [exact I|auto].
  - intro X. inversion X; subst. split.
    + unfold remove_by_mid. apply cl_sub; [destruct C; constructor; auto| |]; [intros j s H; apply filter_In in H as [H _]; eauto|intros j e H; apply filter_In in H as [H _]; exact H].
    + exists D. split; [|split; [exact I|auto]]. eapply gh_keep; [|exact G]. split; [reflexivity|]. split; [reflexivity|]. split; [reflexivity|]. cbn. intros j s r H Er. apply filter_In in H as [H _]. eauto.
  - intro X. inversion X; subst. split; [destruct C; constructor; auto|]. exists D. split; [eapply gh_ext; [| |exact G]; reflexivity|]. split; [exact I|auto].
  - intro X. inversion X; subst. split; [destruct C; constructor; auto|]. exists D. split; [eapply gh_ext; [| |exact G]; reflexivity|]. split; [exact I|auto].
  - intro X. inversion X; subst. split.
    + apply cl_sub; [exact C| |auto]. intros j s H. apply in_map_iff in H as ([k0 s0] & Y & H). cbn [fst snd] in Y. destruct (leqb (s_mid s0) m); inversion Y; subst; eauto.
    + exists D. split; [apply gh_reset; assumption|]. split; [exact I|auto].
  - intro X. inversion X; subst. destruct (both_on x k (fun s => reset_roc s roc) D W ltac:(intro s; cbn; auto) C G) as (A1 & A2 & A3). split; [exact A1|]. exists D. split; [exact A2|]. split; [exact I|auto].
  - intro X. inversion X; subst. destruct (both_on x k (fun s => request_keyframe s fir) D W ltac:(intro s; cbn; auto) C G) as (A1 & A2 & A3). split; [exact A1|]. exists D. split; [exact A2|]. split; [exact I|auto].
  - intro X. inversion X; subst. destruct (both_on x k (fun s => request_remb s b) D W ltac:(intro s; cbn; auto) C G) as (A1 & A2 & A3). split; [exact A1|]. exists D. split; [exact A2|]. split; [exact I|auto].
  - intro X. inversion X; subst. destruct (both_on x k (fun s => set_supp s b) D W ltac:(intro s; cbn; auto) C G) as (A1 & A2 & A3). split; [exact A1|]. exists D. split; [exact A2|]. split; [exact I|auto].
  - intro X. inversion X; subst. split.
    + apply cl_nack. apply cl_sub; [exact C| |auto]. intros j s H. apply upd_first_in in H as [H|(s0 & H & _ & ->)]; eauto.
    + exists D. split; [|split; [exact I|auto]]. eapply gh_keep; [|exact G]. split; [reflexivity|]. split; [reflexivity|]. split; [reflexivity|]. cbn. intros j s r0 H Er. apply upd_first_in in H as [H|(s0 & H & _ & ->)]; [eauto|]. exists s0. auto.
  - intro X. inversion X; subst. destruct (both_on x k (fun s => set_pause s (s_check s) (s_paused s) (s_need s) d) D W ltac:(intro s; cbn; auto) C G) as (A1 & A2 & A3). split; [exact A1|]. exists D. split; [exact A2|]. split; [exact I|auto].
  - intro X. inversion X; subst. destruct (both_on x k (fun s => set_sender_info s now ntp rtp) D W ltac:(intro s; cbn; auto) C G) as (A1 & A2 & A3). split; [exact A1|]. exists D. split; [exact A2|]. split; [exact I|auto].
  - unfold sess_timeout, nack_at. cbn [fst snd]. set (dn := match (if any_nack x then Some _ else None) with Some t => t <=? now | None => false end). clearbody dn.
    unfold rx_timeout. cbn [streams lookups set_nack cleanup].
    destruct (all_feedback_ok (streams x) now sender dn (map (fun p => s_mid (snd p)) (filter (fun p => need_rr (snd p) now iva ivv) (streams x))) (wf_str _ W)) as (l & fb & -> & F). cbn [bind].
    intro X. inversion X; subst; clear X. assert (CL (set_streams x l (lookups x))) as C1 by (apply cl_inplace; auto).
    pose proof (gh_inplace x l (lookups x) D W F G) as G1. split.
    + apply cl_nack. destruct C1 as [c1 c2 c3 c4]. destruct (cleanup x + CLEANUP <? now); constructor; cbn in *; auto. intros j e H. apply filter_In in H as [H _]. auto.
    + exists D. split; [eapply gh_ext; [| |exact G1]; destruct (cleanup x + CLEANUP <? now); reflexivity|]. split; [exact I|]. split; [reflexivity|]. destruct (cleanup x + CLEANUP <? now); reflexivity.
  - destruct (poll_first poll_paused (streams x)) as [[l [s b]]|] eqn:E; intro X; inversion X; subst; clear X; [|split; [exact C|exists D; split; [exact G|split; [exact I|auto]]]].
    pose proof (poll_first_ok _ _ _ _ _ ip_paused E) as F. split; [apply cl_inplace; auto|]. exists D. split; [apply gh_inplace; assumption|]. split; [exact I|auto].
  - destruct (poll_first poll_info (streams x)) as [[l [s b]]|] eqn:E; intro X; inversion X; subst; clear X; [|split; [exact C|exists D; split; [exact G|split; [exact I|auto]]]].
    pose proof (poll_first_ok _ _ _ _ _ ip_info E) as F. split; [apply cl_inplace; auto|]. exists D. split; [apply gh_inplace; assumption|]. split; [exact I|auto].
  - intro X. inversion X; subst. destruct (aget k (streams x)) as [s|] eqn:E; [|split; [exact C|exists D; split; [exact G|split; [exact I|auto]]]].
    pose proof (aget_some_in _ _ _ E) as HE. split.
    + apply cl_sub; [exact C| |auto]. intros j t [H|H]; [inversion H; subst; eauto|]. apply adel_in in H as [_ H]. eauto.
    + exists D. split; [|split; [exact I|auto]]. eapply gh_keep; [|exact G]. split; [reflexivity|]. split; [reflexivity|]. split; [reflexivity|]. cbn. intros j t r [H|H] Er; [inversion H; subst; eauto|]. apply adel_in in H as [_ H]. eauto.
Qed.

Definition opid (o : option rxpkt) : list (Z * Z) := match o with Some p => [pid p] | None => [] end.
Lemma from_more a ops p : from_ops ops p -> from_ops (a :: ops) p.
Proof. intros (n & h & d & H & T). exists n, h, d. split; [right; exact H|exact T]. Qed.
Lemma run_inv ops : forall x E y l, WF x -> CL x -> GH x (opid (pending x) ++ E) -> ops_fine x ops -> Forall (op_class isrtx rtxpt) ops -> rxrun x ops = Ok (y, l) ->
  NoDup (map pid (polled l)) /\ (forall i, In i (map pid (polled l)) -> ~ In i E) /\
  (forall p, In p (polled l) -> pending x = Some p \/ from_ops ops p) /\
  (forall p, pending y = Some p -> pending x = Some p \/ from_ops ops p) /\ WF y /\ CL y /\ exists D, GH y D.
Proof.
  induction ops as [|o ops IH]; intros x E y l W C G OF K R.
  - cbn in R. inversion R; subst. cbn. split; [constructor|]. repeat (split; [tauto|]). eauto 8.
  - cbn [rxrun ops_fine] in *. destruct OF as [O1 O2]. inversion K as [|? ? K1 K2]; subst. destruct (rxstep x o) as [[x1 a]| |] eqn:ES; cbn [bind] in R; [|discriminate|discriminate].
    destruct (rxrun x1 ops) as [[z l']| |] eqn:ER; cbn [bind] in R; [|discriminate|discriminate]. inversion R; subst; clear R.
    destruct (inv_step x o x1 a _ W C G O1 K1 ES) as (W1 & C1 & D' & G1 & SG).
    assert (forall E', G1 = G1 -> quiet a -> GH x1 (opid (pending x1) ++ E') -> (forall i, In i E -> In i E') ->
       (forall p, pending x1 = Some p -> pending x = Some p \/ from_ops (o :: ops) p) ->
       NoDup (map pid (polled (a :: l'))) /\ (forall i, In i (map pid (polled (a :: l'))) -> ~ In i E) /\ (forall p, In p (polled (a :: l')) -> pending x = Some p \/ from_ops (o :: ops) p) /\
       (forall p, pending y = Some p -> pending x = Some p \/ from_ops (o :: ops) p) /\ WF y /\ CL y /\ exists D, GH y D) as STEP.
    { intros E' _ Q G2 HE HP. destruct (IH x1 E' y l' W1 C1 G2 O2 K2 ER) as (A1 & A2 & A3 & A4 & A5). assert (polled (a :: l') = polled l') as -> by (destruct a; try reflexivity; contradiction).
      split; [exact A1|]. split; [intros i Hi Hn; exact (A2 i Hi (HE i Hn))|]. split; [|split; [|exact A5]].
      - intros p Hp. destruct (A3 p Hp) as [X|X]; [auto|right; apply from_more; exact X].
      - intros p Hp. destruct (A4 p Hp) as [X|X]; [auto|right; apply from_more; exact X]. }
    destruct o as [now h dec| | | | | | | | | | | | | | | | | | | |];
    try (destruct SG as (Q & -> & EP); apply (STEP E eq_refl Q); [rewrite EP; exact G1|auto|intros p Hp; left; congruence]).
    + destruct SG as [Q [[-> EP]|(pk & -> & NI & EP & _ & TK)]].
      * apply (STEP E eq_refl Q); [rewrite EP; exact G1|auto|intros p Hp; left; congruence].
      * destruct (rtp_mode x).
        -- apply (STEP (opid (pending x) ++ E) eq_refl Q); [rewrite EP; exact G1|intros i Hi; apply in_or_app; auto|].
           intros p Hp. rewrite EP in Hp. inversion Hp; subst. right. exists now, h, dec. split; [left; reflexivity|exact TK].
        -- apply (STEP (pid pk :: E) eq_refl Q); [|intros i Hi; right; exact Hi|intros p Hp; left; congruence]. rewrite EP.
           clear -G1. destruct (pending x) as [p|]; cbn [opid app] in *; [|exact G1]. destruct G1 as [N L T R S]. constructor; auto.
           ++ inversion N as [|? ? N1 N2]; subst. inversion N2 as [|? ? N3 N4]; subst. constructor; [|constructor; [|exact N4]]; cbn in *; intuition congruence.
           ++ intros k q Hq. apply L. cbn in *. intuition.
           ++ intros k mx A B Hm. specialize (T k mx A B Hm). cbn in *. intuition.
           ++ intros k s r q Hq. apply S. cbn in *. intuition.
    + destruct SG as [-> [[-> EP]|[-> EP]]].
      * destruct (IH x1 (opid (pending x) ++ E) y l' W1 C1 ltac:(rewrite EP; exact G1) O2 K2 ER) as (A1 & A2 & A3 & A4 & A5).
        destruct (pending x) as [p|] eqn:EPX; cbn [polled flat_map app map opid] in *; fold (polled l') in *.
        -- split; [constructor; [|exact A1]; intro H; apply (A2 _ H); left; reflexivity|]. split; [|split; [|split; [|exact A5]]].
           ++ intros i [Hi|Hi] Hn; [|apply (A2 i Hi); right; exact Hn]. subst i. pose proof (gh_nodup _ _ _ G) as N. cbn in N. inversion N; contradiction.
           ++ intros q [Hq|Hq]; [left; congruence|]. destruct (A3 q Hq) as [X|X]; [congruence|right; apply from_more; exact X].
           ++ intros q Hq. destruct (A4 q Hq) as [X|X]; [congruence|right; apply from_more; exact X].
        -- split; [exact A1|]. split; [exact A2|]. split; [|split; [|exact A5]]; intros q Hq; [destruct (A3 q Hq) as [X|X]|destruct (A4 q Hq) as [X|X]]; try congruence; right; apply from_more; exact X.
      * destruct (IH x1 E y l' W1 C1 ltac:(rewrite EP; exact G1) O2 K2 ER) as (A1 & A2 & A3 & A4 & A5). rewrite EP in *. cbn [polled flat_map app map] in *. fold (polled l') in *.
        split; [exact A1|]. split; [exact A2|]. split; [|split; [|exact A5]]; intros q Hq; [destruct (A3 q Hq) as [X|X]|destruct (A4 q Hq) as [X|X]]; auto; right; apply from_more; exact X.
Qed.
Lemma gh0 mode : GH (sess0 mode) [].
Proof. constructor; cbn; try tauto; try (intros; discriminate). constructor. Qed.
Lemma cl0 mode : CL (sess0 mode).
Proof. constructor; cbn; try tauto. intros p []. Qed.
End Classified.

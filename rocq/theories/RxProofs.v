(** Association lists and the invariant of a receiving session. *)
From Verif Require Import Base BaseFacts SeqModel SeqProofs NackModel RegisterModel MtimeModel ExtModel HeaderModel TxModel RxModel RxReg.

(** * Association lists *)
Notation keys l := (map fst l).
Lemma aget_in {A} k (a : A) l : NoDup (keys l) -> (aget k l = Some a <-> In (k, a) l).
Proof.
  induction l as [|[k' a'] r IH]; intro N; cbn [aget In]; [split; [discriminate|tauto]|]. inversion N as [|? ? N1 N2]; subst.
  destruct (k' =? k) eqn:E.
  - apply Z.eqb_eq in E. subst k'. split; [intro X; inversion X; auto|]. intros [X|X]; [inversion X; reflexivity|].
    exfalso. apply N1. change k with (fst (k, a)). apply in_map. exact X.
  - rewrite IH by assumption. split; [auto|]. intros [X|X]; [|exact X]. inversion X; subst. rewrite Z.eqb_refl in E. discriminate.
Qed.
Lemma aget_some_in {A} k (a : A) l : aget k l = Some a -> In (k, a) l.
Proof.
  induction l as [|[k' a'] r IH]; cbn [aget In]; [discriminate|]. destruct (k' =? k) eqn:E; [|auto]. apply Z.eqb_eq in E. subst. intro X. inversion X. auto.
Qed.
Lemma aget_none {A} k (l : list (Z * A)) : aget k l = None <-> ~ In k (keys l).
Proof.
  induction l as [|[k' a'] r IH]; cbn [aget map In fst]; [tauto|]. destruct (k' =? k) eqn:E; [apply Z.eqb_eq in E; subst; split; [discriminate|tauto]|].
  rewrite IH. apply Z.eqb_neq in E. tauto.
Qed.
Lemma aset_keys {A} k (a : A) l : keys (aset k a l) = if existsb (fun x => x =? k) (keys l) then keys l else keys l ++ [k].
Proof.
  induction l as [|[k' a'] r IH]; [reflexivity|]. cbn [aset map fst existsb]. destruct (k' =? k) eqn:E; cbn [map fst orb].
  - apply Z.eqb_eq in E. subst. reflexivity.
  - rewrite IH. destruct (existsb _ _); reflexivity.
Qed.
Lemma aset_nodup {A} k (a : A) l : NoDup (keys l) -> NoDup (keys (aset k a l)).
Proof.
  intro N. rewrite aset_keys. destruct (existsb _ _) eqn:E; [exact N|].
  apply NoDup_rev in N. rewrite <- (rev_involutive (keys l ++ [k])). apply NoDup_rev. rewrite rev_app_distr. cbn. constructor; [|exact N].
  rewrite <- in_rev. intro X. assert (existsb (fun x => x =? k) (keys l) = true); [|congruence]. apply existsb_exists. exists k. split; [exact X|apply Z.eqb_refl].
Qed.
Lemma aset_in {A} k (a : A) l k' a' : NoDup (keys l) -> (In (k', a') (aset k a l) <-> (k' = k /\ a' = a) \/ (k' <> k /\ In (k', a') l)).
Proof.
  induction l as [|[k0 a0] r IH]; intro N; cbn [aset In].
  - split; [intros [X|[]]; inversion X; auto|]. intros [[-> ->]|[_ []]]. auto.
  - inversion N as [|? ? N1 N2]; subst. cbn [fst] in N1. destruct (k0 =? k) eqn:E; cbn [In].
    + apply Z.eqb_eq in E. subst k0. split.
      * intros [X|X]; [inversion X; auto|]. right. split; [|auto]. intros ->. apply N1. change k with (fst (k, a')). apply in_map. exact X.
      * intros [[-> ->]|[Hn [X|X]]]; [auto|inversion X; subst; congruence|auto].
    + apply Z.eqb_neq in E. rewrite IH by assumption. split.
      * intros [X|[X|X]]; [inversion X; subst; auto|auto|right; tauto].
      * intros [X|[Hn [X|X]]]; [auto|inversion X; subst; auto|auto].
Qed.
Lemma aset_get {A} k (a : A) l k' : aget k' (aset k a l) = if k' =? k then Some a else aget k' l.
Proof.
  induction l as [|[k0 a0] r IH]; cbn [aset aget].
  - rewrite (Z.eqb_sym k' k). destruct (k =? k'); reflexivity.
  - destruct (k0 =? k) eqn:E; cbn [aget].
    + apply Z.eqb_eq in E. subst k0. rewrite (Z.eqb_sym k' k). destruct (k =? k'); reflexivity.
    + rewrite IH. destruct (k0 =? k') eqn:E1; [|reflexivity]. apply Z.eqb_eq in E1. subst. rewrite E. reflexivity.
Qed.
Lemma adel_in {A} k (l : list (Z * A)) k' a' : In (k', a') (adel k l) <-> k' <> k /\ In (k', a') l.
Proof. unfold adel. rewrite filter_In. cbn [fst]. destruct (k' =? k) eqn:E; cbn; [apply Z.eqb_eq in E|apply Z.eqb_neq in E]; split; intros []; try tauto; try discriminate; congruence. Qed.
Lemma filter_nodup {A} f (l : list (Z * A)) : NoDup (keys l) -> NoDup (keys (filter f l)).
Proof.
  induction l as [|p r IH]; intro N; [constructor|]. inversion N as [|? ? N1 N2]; subst. cbn [filter]. destruct (f p); [|auto]. cbn [map]. constructor; [|auto].
  intro X. apply N1. apply in_map_iff in X as (q & E & Q). apply filter_In in Q as [Q _]. rewrite <- E. apply in_map. exact Q.
Qed.
Lemma adel_nodup {A} k (l : list (Z * A)) : NoDup (keys l) -> NoDup (keys (adel k l)).
Proof. apply filter_nodup. Qed.
Lemma leqb_eq a : forall b, leqb a b = true <-> a = b.
Proof.
  induction a as [|x a IH]; intros [|y b]; cbn [leqb]; try (split; [discriminate|discriminate]); [tauto|].
  rewrite andb_true_iff, Z.eqb_eq, IH. split; [intros [-> ->]; reflexivity|]. intro E. inversion E. auto.
Qed.
Lemma leqb_refl a : leqb a a = true. Proof. apply leqb_eq. reflexivity. Qed.
Lemma find_stream_in f l s : find_stream f l = Some s -> exists k, In (k, s) l /\ f s = true.
Proof. unfold find_stream. destruct (find _ l) as [[k s']|] eqn:E; [|discriminate]. intro X. inversion X; subst. apply find_some in E as [E1 E2]. eauto. Qed.
Lemma find_stream_none f l : find_stream f l = None -> forall k s, In (k, s) l -> f s = false.
Proof. unfold find_stream. destruct (find _ l) as [[k s']|] eqn:E; [discriminate|]. intros _ k s Hin. apply (find_none _ _ E (k, s) Hin). Qed.
Lemma upd_first_keys f g l : keys (upd_first f g l) = keys l.
Proof. induction l as [|[k s] r IH]; [reflexivity|]. cbn [upd_first]. destruct (f s); cbn [map fst]; congruence. Qed.
Lemma upd_first_in f g l k s : In (k, s) (upd_first f g l) -> In (k, s) l \/ exists s0, In (k, s0) l /\ f s0 = true /\ s = g s0.
Proof.
  induction l as [|[k0 s0] r IH]; cbn [upd_first In]; [tauto|]. destruct (f s0) eqn:E; cbn [In].
  - intros [X|X]; [inversion X; subst; right; exists s0; auto|auto].
  - intros [X|X]; [auto|]. destruct (IH X) as [|(a & ? & ? & ?)]; [auto|]. right. exists a. auto.
Qed.
Lemma upd_first_get f g l k : NoDup (keys l) -> aget k (upd_first f g l) = match aget k l with
  | Some s => if (match find (fun p => f (snd p)) l with Some (k', _) => k' =? k | None => false end) then Some (g s) else Some s | None => None end.
Proof.
  intro N. induction l as [|[k0 s0] r IH]; [reflexivity|]. inversion N as [|? ? N1 N2]; subst. cbn [upd_first aget find snd]. destruct (f s0) eqn:E; cbn [aget].
  - destruct (k0 =? k) eqn:E0; [reflexivity|]. destruct (aget k r); reflexivity.
  - destruct (k0 =? k) eqn:E0; [|exact (IH N2)]. apply Z.eqb_eq in E0. subst k0.
    destruct (find (fun p => f (snd p)) r) as [[k' s']|] eqn:F; [|reflexivity]. apply find_some in F as [F _].
    destruct (k' =? k) eqn:E1; [|reflexivity]. apply Z.eqb_eq in E1. subst. exfalso. apply N1. cbn [fst]. change k with (fst (k, s')). apply in_map. exact F.
Qed.

(** * The invariant *)
Definition oreg_ok (o : option rreg) : Prop := match o with Some r => RR r /\ (forall e, rmax_seq r = Some e -> e < U64) | None => True end.
Record SRI (k : Z) (s : srx) : Prop := {
  sri_key : s_ssrc s = k; sri_reg : oreg_ok (s_reg s); sri_regx : oreg_ok (s_regx s);
  sri_roc : forall r, s_roc s = Some r -> 0 <= r }.
Record WF (x : sess) : Prop := {
  wf_nodup : NoDup (keys (streams x));
  wf_str : forall k s, In (k, s) (streams x) -> SRI k s;
  wf_lk : forall k l, In (k, l) (lookups x) -> exists s, In (l_main l, s) (streams x) /\ s_mid s = l_mid l;
  wf_lkn : NoDup (keys (lookups x));
  wf_med : forall k s, In (k, s) (streams x) -> k = 0 \/ find_media (medias x) (s_mid s) <> None;
  wf_max : forall k q, aget k (maxseq x) = Some q -> 0 <= q < U64 }.

Definition max_ok (m : list (Z * Z)) := forall k q, aget k m = Some q -> 0 <= q < U64.

Lemma sri_new k m r b : SRI k (srx_new k m r b).
Proof. constructor; cbn; try tauto. discriminate. Qed.
Lemma sri_reset_rtx k s q : SRI k s -> SRI k (maybe_reset_rtx s q).
Proof.
  intros []. unfold maybe_reset_rtx. destruct (match s_rtx s with Some c => c =? q | None => false end); constructor; cbn; auto.
Qed.
Lemma reset_rtx_mid s q : s_mid (maybe_reset_rtx s q) = s_mid s.
Proof. unfold maybe_reset_rtx. destruct (match s_rtx s with Some c => c =? q | None => false end); reflexivity. Qed.
Lemma sri_change k s n s' : SRI k s -> change_ssrc s n = Some s' -> SRI n s' /\ s_mid s' = s_mid s.
Proof.
  intros [K A B C]. unfold change_ssrc. destruct (_ || _); [discriminate|]. intro E. inversion E. subst. clear E. split; [|reflexivity].
  constructor; cbn; auto. discriminate.
Qed.
Lemma sri_on (f : srx -> srx) k s : SRI k s -> s_ssrc (f s) = s_ssrc s -> s_reg (f s) = s_reg s -> s_regx (f s) = s_regx s -> s_roc (f s) = s_roc s -> SRI k (f s).
Proof. intros [] E1 E2 E3 E4. constructor; rewrite ?E1, ?E2, ?E3, ?E4; auto. Qed.

(** replacing the stream of a key *)
Lemma wf_set_stream x k s : WF x -> SRI k s -> (forall s0, In (k, s0) (streams x) -> s_mid s0 = s_mid s) ->
  (k = 0 \/ find_media (medias x) (s_mid s) <> None) -> WF (set_streams x (aset k s (streams x)) (lookups x)).
Proof.
  intros [N S L LN M MX] I E Hm. constructor; cbn; auto.
  - apply aset_nodup. exact N.
  - intros k' s'. rewrite aset_in by exact N. intros [[-> ->]|[_ X]]; auto.
  - intros k' l Hl. destruct (L k' l Hl) as (s0 & H0 & H1). destruct (Z.eq_dec (l_main l) k) as [E0|E0].
    + exists s. rewrite aset_in by exact N. split; [left; auto|]. rewrite <- H1. symmetry. apply E. rewrite <- E0. exact H0.
    + exists s0. rewrite aset_in by exact N. split; [right; auto|exact H1].
  - intros k' s'. rewrite aset_in by exact N. intros [[-> ->]|[_ X]]; auto. eapply M; eassumption.
Qed.
Lemma wf_nack_ext x c t : WF x -> WF (set_nack x c t).
Proof. intros []; constructor; auto. Qed.
Lemma wf_expect x k rtx m r supp : WF x -> (k = 0 \/ find_media (medias x) m <> None) -> WF (expect_rx x k rtx m r supp).
Proof.
  intros W Hm. unfold expect_rx. apply wf_nack_ext. set (s := match aget k (streams x) with Some s => s | None => srx_new k m r supp end).
  assert (SRI k s /\ (forall s0, In (k, s0) (streams x) -> s_mid s0 = s_mid s) /\ (k = 0 \/ find_media (medias x) (s_mid s) <> None)) as (I & E & M).
  { unfold s. destruct (aget k (streams x)) as [s0|] eqn:G.
    - pose proof (aget_some_in _ _ _ G) as X. split; [apply (wf_str _ W); exact X|]. split; [|exact (wf_med _ W _ _ X)].
      intros s1 H1. apply (aget_in _ _ _ (wf_nodup _ W)) in H1. congruence.
    - split; [apply sri_new|]. split; [|cbn; exact Hm]. intros s1 H1. apply (aget_in _ _ _ (wf_nodup _ W)) in H1. congruence. }
  apply wf_set_stream; [exact W| | |]; destruct rtx as [q|]; auto; rewrite ?reset_rtx_mid; auto. apply sri_reset_rtx. exact I.
Qed.
Lemma wf_filter_lk x f : WF x -> WF (set_streams x (streams x) (filter f (lookups x))).
Proof.
  intros [N S L LN M MX]. constructor; cbn; auto. - intros k l H. apply filter_In in H as [H _]. eauto. - apply filter_nodup. exact LN.
Qed.
Lemma wf_remove x k : WF x -> WF (remove_rx x k).
Proof.
  intros [N S L LN M MX]. unfold remove_rx. constructor; cbn; auto.
  - apply adel_nodup. exact N.
  - intros k' s H. apply adel_in in H as [_ H]. auto.
  - intros k' l H. apply filter_In in H as [H F]. cbn [fst snd] in F. apply andb_true_iff in F as [_ F]. destruct (L _ _ H) as (s & H1 & H2).
    exists s. split; [|exact H2]. apply adel_in. split; [|exact H1]. intro E. rewrite E, Z.eqb_refl in F. discriminate.
  - apply filter_nodup. exact LN.
  - intros k' s H. apply adel_in in H as [_ H]. eauto.
Qed.
Lemma find_media_some l m : find_media l m <> None <-> In m (map m_mid l).
Proof.
  unfold find_media. induction l as [|a r IH]; cbn [find map In]; [tauto|]. destruct (leqb (m_mid a) m) eqn:E.
  - apply leqb_eq in E. split; [auto|]. discriminate.
  - rewrite IH. split; [auto|]. intros [X|X]; [|exact X]. rewrite X, leqb_refl in E. discriminate.
Qed.
Lemma find_media_mid l m md : find_media l m = Some md -> m_mid md = m.
Proof. unfold find_media. intro H. apply find_some in H as [_ H]. apply leqb_eq in H. exact H. Qed.
Lemma in_filter_mids f (g : list Z -> bool) l m : (forall a, f a = g (m_mid a)) -> (In m (map m_mid (filter f l)) <-> In m (map m_mid l) /\ g m = true).
Proof.
  intro E. rewrite !in_map_iff. split.
  - intros (a & <- & H). apply filter_In in H as [H1 H2]. rewrite E in H2. split; [eauto|exact H2].
  - intros [(a & <- & H) G]. exists a. split; [reflexivity|]. apply filter_In. rewrite E. auto.
Qed.
Lemma wf_remove_mid x m : WF x -> WF (remove_by_mid (set_medias x (filter (fun a => negb (leqb (m_mid a) m)) (medias x))) m).
Proof.
  intros [N S L LN M MX]. unfold remove_by_mid. constructor; cbn; auto.
  - apply filter_nodup. exact N.
  - intros k' s H. apply filter_In in H as [H _]. auto.
  - intros k' l H. apply filter_In in H as [H F]. cbn [snd] in F. destruct (L _ _ H) as (s & H1 & H2). exists s. split; [|exact H2].
    apply filter_In. cbn [snd]. rewrite H2. auto.
  - apply filter_nodup. exact LN.
  - intros k' s H. apply filter_In in H as [H F]. cbn [snd] in F. destruct (M _ _ H) as [X|X]; [auto|right].
    apply find_media_some. apply find_media_some in X. apply (in_filter_mids _ (fun a => negb (leqb a m))); [reflexivity|]. auto.
Qed.
Lemma wf_change x a b x' d : WF x -> ~ In b (keys (streams x)) -> (forall s, In (a, s) (streams x) -> find_media (medias x) (s_mid s) <> None) ->
  change_rx_ssrc x a b = Ok (x', d) ->
  WF x' /\ medias x' = medias x.
Proof.
  intros W NB HM. unfold change_rx_ssrc. destruct (aget a (streams x)) as [s|] eqn:G; [|discriminate]. pose proof (aget_some_in _ _ _ G) as HA.
  destruct (change_ssrc s b) as [s'|] eqn:C; intro E; inversion E; subst; clear E; [|auto]. split; [|reflexivity].
  destruct (sri_change _ _ _ _ (wf_str _ W _ _ HA) C) as [I EM]. destruct W as [N S L LN M MX].
  assert (NoDup (keys (adel a (streams x)))) as ND by (apply adel_nodup; exact N). constructor; cbn; auto.
  - apply aset_nodup. exact ND.
  - intros k' s0. rewrite aset_in by exact ND. intros [[-> ->]|[_ X]]; [exact I|]. apply adel_in in X as [_ X]. auto.
  - intros k' l H. apply filter_In in H as [H F]. cbn [fst snd] in F. apply andb_true_iff in F as [_ F]. destruct (L _ _ H) as (s0 & H1 & H2).
    exists s0. split; [|exact H2]. rewrite aset_in by exact ND. right. split.
    + intro X. apply NB. rewrite <- X. change (l_main l) with (fst (l_main l, s0)). apply in_map. exact H1.
    + apply adel_in. split; [|exact H1]. intro X. rewrite X, Z.eqb_refl in F. discriminate.
  - apply filter_nodup. exact LN.
  - intros k' s0. rewrite aset_in by exact ND. intros [[-> ->]|[_ X]].
    + right. rewrite EM. apply HM. exact HA.
    + apply adel_in in X as [_ X]. eauto.
Qed.
Lemma wf_change_rtx x a b : WF x -> WF (change_rx_rtx x a b).
Proof.
  intros [N S L LN M MX]. unfold change_rx_rtx. apply wf_nack_ext. constructor; cbn; auto.
  - rewrite upd_first_keys. exact N.
  - intros k s H. apply upd_first_in in H as [H|(s0 & H & _ & ->)]; [auto|]. apply sri_reset_rtx. auto.
  - intros k l H. apply adel_in in H as [_ H]. destruct (L _ _ H) as (s & H1 & H2).
    apply (aget_in _ _ _ N) in H1. pose proof (upd_first_get (fun s => ozeqb (s_rtx s) a) (fun s => maybe_reset_rtx s b) (streams x) (l_main l) N) as U.
    rewrite H1 in U. destruct (match find _ _ with Some (k', _) => k' =? l_main l | None => false end).
    + eexists. split; [apply aget_some_in; exact U|]. rewrite reset_rtx_mid. exact H2.
    + eexists. split; [apply aget_some_in; exact U|exact H2].
  - apply adel_nodup. exact LN.
  - intros k s H. apply upd_first_in in H as [H|(s0 & H & _ & ->)]; [eauto|]. rewrite reset_rtx_mid. eauto.
Qed.
Lemma wf_mid_ssrc x now k : WF x -> WF (fst (mid_ssrc x now k)) /\ streams (fst (mid_ssrc x now k)) = streams x /\ medias (fst (mid_ssrc x now k)) = medias x /\
  (forall m q, snd (mid_ssrc x now k) = Some (m, q) -> exists s, In (q, s) (streams x) /\ s_mid s = m) /\
  (snd (mid_ssrc x now k) = None -> fst (mid_ssrc x now k) = x /\ ~ In k (keys (streams x))).
Proof.
  intro W. unfold mid_ssrc. destruct (aget k (lookups x)) as [l|] eqn:G.
  - pose proof (aget_some_in _ _ _ G) as X. destruct (wf_lk _ W _ _ X) as (s & H1 & H2). cbn [fst snd].
    split; [|split; [reflexivity|split; [reflexivity|split; [|discriminate]]]].
    + destruct W as [N S L LN M MX]. constructor; cbn; auto; [|apply aset_nodup; exact LN].
      intros k' l'. rewrite aset_in by exact LN. intros [[-> ->]|[_ Y]]; cbn; eauto.
    + intros m q E. inversion E; subst. eauto.
  - destruct (by_ssrc_or_rtx (streams x) k) as [s|] eqn:F.
    + unfold by_ssrc_or_rtx in F. apply find_stream_in in F as (k0 & H1 & H2). pose proof (sri_key _ _ (wf_str _ W _ _ H1)) as K. cbn [fst snd].
      split; [|split; [reflexivity|split; [reflexivity|split; [|discriminate]]]].
      * destruct W as [N S L LN M MX]. constructor; cbn; auto; [|apply aset_nodup; exact LN].
        intros k' l'. rewrite aset_in by exact LN. intros [[-> ->]|[_ Y]]; cbn; eauto. exists s. rewrite K. auto.
      * intros m q E. inversion E; subst. eauto.
    + cbn [fst snd]. split; [exact W|]. split; [reflexivity|]. split; [reflexivity|]. split; [discriminate|]. intros _. split; [reflexivity|].
      intro X. apply in_map_iff in X as ([k0 s] & E & X). cbn [fst] in E. subst k0. unfold by_ssrc_or_rtx in F.
      pose proof (find_stream_none _ _ F _ _ X) as Y. cbn beta in Y. rewrite (sri_key _ _ (wf_str _ W _ _ X)), Z.eqb_refl in Y. discriminate.
Qed.
Lemma is_midrid_mid s m r : is_midrid s m r = true -> s_mid s = m.
Proof. unfold is_midrid. intro H. apply andb_true_iff in H as [H _]. apply leqb_eq in H. auto. Qed.
Lemma by_midrid_in x m r s : WF x -> by_midrid (streams x) m r = Some s -> In (s_ssrc s, s) (streams x) /\ s_mid s = m.
Proof.
  intros W F. unfold by_midrid in F. apply find_stream_in in F as (k & H1 & H2). rewrite (sri_key _ _ (wf_str _ W _ _ H1)). split; [exact H1|]. eapply is_midrid_mid; eassumption.
Qed.
Lemma wf_map_finish x m r main rtx b : WF x -> find_media (medias x) m <> None ->
  (forall s, by_midrid (streams x) m r = Some s -> s_ssrc s = main \/ ~ In main (keys (streams x))) ->
  exists x', map_finish x m r main rtx b = Ok x' /\ WF x' /\ medias x' = medias x.
Proof.
  intros W HM HB. unfold map_finish.
  assert (exists x1, match by_midrid (streams x) m r with
     | Some s => do y <- (if s_ssrc s =? main then Ok x else do z <- change_rx_ssrc x (s_ssrc s) main; Ok (fst z));
         Ok match s_rtx s with Some a => match rtx with Some b0 => if a =? b0 then y else change_rx_rtx y a b0 | None => y end | None => y end
     | None => Ok x end = Ok x1 /\ WF x1 /\ medias x1 = medias x) as (x1 & -> & W1 & M1).
  { destruct (by_midrid (streams x) m r) as [s|] eqn:F; [|eauto]. destruct (by_midrid_in _ _ _ _ W F) as [Hs Em].
    assert (exists y, (if s_ssrc s =? main then Ok x else do z <- change_rx_ssrc x (s_ssrc s) main; Ok (fst z)) = Ok y /\ WF y /\ medias y = medias x) as (y & -> & Wy & My).
    { destruct (s_ssrc s =? main) eqn:E; [eauto|]. apply Z.eqb_neq in E. destruct (HB s eq_refl) as [|NB]; [contradiction|].
      destruct (change_rx_ssrc x (s_ssrc s) main) as [[x' d]| |] eqn:C.
      - cbn [bind fst]. destruct (wf_change x (s_ssrc s) main x' d W NB) as [W' M']; [|exact C|eauto].
        intros s0 H0. apply (aget_in _ _ _ (wf_nodup _ W)) in H0. apply (aget_in _ _ _ (wf_nodup _ W)) in Hs. assert (s0 = s) by congruence. subst. exact HM.
      - exfalso. unfold change_rx_ssrc in C. destruct (aget _ _); [destruct (change_ssrc _ _)|]; discriminate.
      - exfalso. unfold change_rx_ssrc in C. rewrite (proj2 (aget_in _ _ _ (wf_nodup _ W)) Hs) in C. destruct (change_ssrc _ _); discriminate. }
    cbn [bind]. eexists. split; [reflexivity|]. destruct (s_rtx s) as [a|]; [|auto]. destruct rtx as [b0|]; [|auto]. destruct (a =? b0); [auto|].
    split; [apply wf_change_rtx; exact Wy|exact My]. }
  cbn [bind]. eexists. split; [reflexivity|]. split; [|exact M1]. apply wf_expect; [exact W1|]. right. rewrite M1. exact HM.
Qed.
Lemma wf_map_dynamic x h : WF x -> ~ In (ssrc h) (keys (streams x)) -> exists x', map_dynamic x h = Ok x' /\ WF x' /\ medias x' = medias x.
Proof.
  intros W NK. unfold map_dynamic. destruct (mid (ext_vals h)) as [m|]; [|eauto]. destruct (find_media (medias x) m) as [md|] eqn:FM; [|eauto].
  destruct (find_param _ _) as [p|]; [|eauto]. cbn zeta. set (rid_ := match rid (ext_vals h) with Some a => Some a | None => rid_repair (ext_vals h) end).
  destruct (match rid_ with Some a => rids_contains (m_rids md) a | None => negb (rids_specific (m_rids md)) end); [|eauto].
  set (im := match rid_ with Some _ => _ | None => _ end). destruct (map_pair x (ssrc h) m rid_ im) as [[main rtx]|] eqn:MP; [|eauto].
  apply wf_map_finish; [exact W|congruence|]. intros s F. unfold map_pair in MP. rewrite F in MP. destruct im; inversion MP; subst; auto.
Qed.
Lemma wf_set_codecs x c p : WF x -> WF (set_codecs x c p).
Proof. intros []; constructor; auto. Qed.
Lemma wf_mid_for_header x now h : WF x -> exists x' o, mid_for_header x now h = Ok (x', o) /\ WF x' /\ medias x' = medias x /\
  forall m k, o = Some (m, k) -> exists s, aget k (streams x') = Some s /\ (k = 0 \/ s_mid s = m).
Proof.
  intro W. unfold mid_for_header. destruct (wf_mid_ssrc x now (ssrc h) W) as (W1 & S1 & M1 & F1 & N1).
  destruct (mid_ssrc x now (ssrc h)) as [x1 o1]. cbn [fst snd] in *. destruct o1 as [[m k]|].
  - do 2 eexists. split; [reflexivity|]. split; [exact W1|]. split; [exact M1|]. intros m' k' E. inversion E; subst. destruct (F1 _ _ eq_refl) as (s & H1 & H2).
    exists s. rewrite S1. split; [apply (aget_in _ _ _ (wf_nodup _ W)); exact H1|auto].
  - destruct (N1 eq_refl) as [E1 NK]. subst x1. clear N1. destruct (wf_map_dynamic x h W1 NK) as (x2 & -> & W2 & M2). cbn [bind].
    destruct (wf_mid_ssrc x2 now (ssrc h) W2) as (W3 & S3 & M3 & F3 & N3). destruct (mid_ssrc x2 now (ssrc h)) as [x3 o3]. cbn [fst snd] in *.
    destruct o3 as [[m k]|].
    + do 2 eexists. split; [reflexivity|]. split; [exact W3|]. split; [congruence|]. intros m' k' E. inversion E; subst. destruct (F3 _ _ eq_refl) as (s & H1 & H2).
      exists s. rewrite S3. split; [apply (aget_in _ _ _ (wf_nodup _ W2)); exact H1|auto].
    + destruct (ssrc h =? 0).
      * do 2 eexists. split; [reflexivity|]. split; [apply wf_expect; [apply wf_set_codecs; exact W3|auto]|]. split; [cbn; congruence|].
        intros m' k' E. inversion E; subst. unfold expect_rx. cbn [streams set_nack set_streams set_codecs]. rewrite aset_get. cbn. eauto.
      * do 2 eexists. split; [reflexivity|]. split; [exact W3|]. split; [congruence|]. discriminate.
Qed.

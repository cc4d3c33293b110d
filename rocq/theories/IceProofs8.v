(** State, pruning, timing, roles. *)
From Verif Require Import Base BaseFacts PrioModel PrioSpec PrioProofs PrioProps IceModel IceSpec IceProofs IceProofs2 IceProofs3 IceProofs4 IceProofs5 IceProofs6 IceProofs7.
From Coq Require Import Sorted Permutation.

Lemma last_time p t : last_attempt_time p = Some t <-> newest_sent p t.
Proof.
  unfold last_attempt_time, newest_sent. split.
  - intro H. destruct (rev (p_att p)) as [|b r] eqn:E; [discriminate|]. exists (rev r), b. split; [|congruence].
    rewrite <- (rev_involutive (p_att p)), E. reflexivity.
  - intros (bs & b & E & T). rewrite E, rev_app_distr. cbn. congruence.
Qed.
Lemma take_un_len l : (length (take_unanswered l) <= length l)%nat.
Proof. induction l as [|b l IH]; cbn; [lia|]. destruct (t_resp b); cbn; lia. Qed.
Lemma take_un_spec l n : (n <= length (take_unanswered l))%nat <-> (n <= length l)%nat /\ forall b, In b (firstn n l) -> t_resp b = None.
Proof.
  revert n. induction l as [|b l IH]; intro n; cbn [take_unanswered length].
  - split; [intro H; split; [exact H|]; intros x X; destruct n; destruct X|intros [H _]; exact H].
  - destruct n as [|n]; [split; [split; [lia|intros x []]|lia]|]. destruct (t_resp b) eqn:R; cbn [length firstn].
    + split; [lia|]. intros [_ H]. specialize (H b (or_introl eq_refl)). congruence.
    + rewrite <- Nat.succ_le_mono, IH. split.
      * intros [H1 H2]. split; [lia|]. intros x [<-|X]; auto.
      * intros [H1 H2]. split; [lia|]. intros x X. apply H2. right. exact X.
Qed.
Lemma unanswered_count p : match unanswered p with Some (n, _) => n | None => O end = length (take_unanswered (rev (p_att p))).
Proof.
  unfold unanswered. cbn zeta. destruct (rev (take_unanswered (rev (p_att p)))) as [|b r] eqn:E; [|reflexivity].
  apply (f_equal (@length _)) in E. rewrite rev_length in E. cbn in E. lia.
Qed.
Lemma all_un_spec p n : all_unanswered p n <-> (n <= length (take_unanswered (rev (p_att p))))%nat.
Proof. unfold all_unanswered. rewrite take_un_spec, rev_length. reflexivity. Qed.

Lemma still_possible_spec k p now : (1 <= k_max_retr k)%nat -> still_possible k p now = false <-> given_up k p now.
Proof.
  intro KM. unfold still_possible, given_up. rewrite unanswered_count, all_un_spec.
  assert (RB : match p_rbr p with Some t => since now t <? recent | None => false end = false <->
    (forall t, p_rbr p = Some t -> ms 15000 <= now - t)).
  { unfold since, recent, ms. destruct (p_rbr p) as [t|].
    - split.
      + intros H t0 E. assert (t0 = t) as -> by congruence. lia.
      + intro H. specialize (H t eq_refl). lia.
    - split; [discriminate|reflexivity]. }
  destruct (match p_rbr p with Some t => since now t <? recent | None => false end) eqn:E.
  - split; [discriminate|]. intros [H _]. apply RB in H. discriminate.
  - cbn zeta. pose proof (take_un_len (rev (p_att p))) as TL. rewrite rev_length in TL.
    destruct ((length (p_att p) <? k_max_retr k)%nat || (length (take_unanswered (rev (p_att p))) <? k_max_retr k)%nat) eqn:B.
    + split; [discriminate|]. intros (_ & H & _). lia.
    + destruct (last_attempt_time p) as [last|] eqn:LT.
      * split.
        -- intro H. split; [apply RB; reflexivity|]. split; [lia|]. exists last. split; [apply last_time; exact LT|lia].
        -- intros (_ & _ & (t & T1 & T2)). apply last_time in T1. assert (t = last) as -> by congruence. lia.
      * exfalso. unfold last_attempt_time in LT. destruct (rev (p_att p)) eqn:RV; [|discriminate]. cbn in TL. apply (f_equal (@length _)) in RV. rewrite rev_length in RV. cbn in RV. lia.
Qed.

Lemma any_nom_spec ps : any_nominated ps = true <-> some_nominated ps.
Proof. unfold any_nominated, some_nominated. rewrite existsb_exists. reflexivity. Qed.
Lemma any_possible_spec a now : (1 <= k_max_retr (a_cfg a))%nat -> any_possible a now = true <-> more_possible a now.
Proof.
  intro KM. unfold any_possible, more_possible. rewrite !orb_true_iff, existsb_exists. split.
  - intros [[(p & IN & H)|H]|H].
    + left. exists p. apply andb_true_iff in H. destruct H as [H1 H2]. split; [exact IN|]. split; [destruct (is_nominated p); [discriminate|reflexivity]|].
      intro G. apply still_possible_spec in G; [|exact KM]. congruence.
    + right. left. destruct (a_remotes a); [reflexivity|discriminate].
    + right. right. destruct (a_locals a); [reflexivity|discriminate].
  - intros [(p & IN & H1 & H2)|[H|H]].
    + left. left. exists p. split; [exact IN|]. rewrite H1. cbn. destruct (still_possible _ _ _) eqn:E; [reflexivity|]. exfalso. apply H2. apply still_possible_spec; auto.
    + left. right. rewrite H. reflexivity.
    + right. rewrite H. reflexivity.
Qed.
Lemma state_conn a c : a_state (set_conn a c) = c.
Proof. unfold set_conn. destruct (conn_eqb (a_state a) c) eqn:E; [apply conn_eqb_eq; exact E|reflexivity]. Qed.
Lemma eval_full a now : a_lite a = false -> a_state a <> New ->
  a_state (evaluate_state a now) =
    (if any_nominated (a_pairs a) then (if any_possible a now then Connected else Completed) else (if any_possible a now then Checking else Disconnected)).
Proof.
  intros L N. unfold evaluate_state. cbn zeta. rewrite L. destruct (a_state a) eqn:S; try congruence;
  destruct (any_nominated (a_pairs a)), (any_possible a now); cbn [negb andb]; rewrite ?state_conn; auto.
Qed.
Lemma eval_lite a now : a_lite a = true -> a_state a <> New -> a_state a <> Connected ->
  a_state (evaluate_state a now) =
    (if any_nominated (a_pairs a) then Completed else (if any_possible a now then Checking else Disconnected)).
Proof.
  intros L N C1. unfold evaluate_state. cbn zeta. rewrite L. destruct (a_state a) eqn:S; try congruence;
  destruct (any_nominated (a_pairs a)), (any_possible a now); cbn [negb andb]; rewrite ?state_conn; auto.
Qed.
Lemma eval_new a now : a_state a = New -> a_state (evaluate_state a now) = Checking.
Proof. intro S. unfold evaluate_state. cbn zeta. rewrite S. apply state_conn. Qed.

(** *** Deadlines *)
Definition TI (a : agent) : Prop :=
  match a_last_now a with
  | Some ln => D (ln + k_max_rto (a_cfg a)) (a_pairs a)
  | None => forall p, In p (a_pairs a) -> p_cached p = None
  end.
Definition in_time (a : agent) (o : op) : Prop :=
  match o with OTimeout now => match a_last_now a with Some ln => ln <= now | None => True end | _ => True end.
Lemma ti_step a o a' : Inv a -> op_fresh o -> (1 <= k_max_retr (a_cfg a))%nat -> in_time a o -> TI a -> step a o = Ok a' -> TI a'.
Proof.
  intros I F KM T TA H. destruct (step_facts a o a' I F KM H) as (_ & _ & B). pose proof (cfg_step _ _ _ H) as CF. unfold TI in *.
  destruct B as [[B1 B2]|(t & B1 & B2 & B3)].
  - rewrite B2, CF. destruct (a_last_now a); [eapply d_c; eauto|]. intros p IN. destruct (B1 p IN) as [X|(q & Q1 & Q2)]; [exact X|]. rewrite <- Q2. auto.
  - rewrite B1, CF. destruct B2 as [->|B2].
    + cbn in T. destruct (a_last_now a) as [ln|].
      * eapply d_mono; [|apply B3; exact TA]. lia.
      * eapply d_mono; [|apply (B3 (t + k_max_rto (a_cfg a)))]; [lia|]. intros p c IN E. rewrite (TA p IN) in E. discriminate.
    + rewrite B2 in TA. eapply d_mono; [|apply B3; exact TA]. lia.
Qed.
Lemma last_now_step a o a' : Inv a -> op_fresh o -> (1 <= k_max_retr (a_cfg a))%nat -> step a o = Ok a' ->
  a_last_now a' = a_last_now a \/ exists now, o = OTimeout now /\ a_last_now a' = Some now.
Proof.
  intros I F KM H. destruct (step_facts a o a' I F KM H) as (_ & _ & B). destruct B as [[B1 B2]|(t & B1 & [B2|B2] & B3)]; [auto|right; eauto|left; congruence].
Qed.
Lemma ti_run os : forall a a' t0, Inv a -> Forall op_fresh os -> (1 <= k_max_retr (a_cfg a))%nat -> TI a ->
  (forall ln, a_last_now a = Some ln -> exists x, t0 = Some x /\ ln <= x) -> times_from t0 os -> run a os = Ok a' -> TI a'.
Proof.
  induction os as [|o t IH]; intros a a' t0 I F KM T L TM H; cbn [run] in H; [okinj H; exact T|]. bok H a1 E. inversion F; subst.
  assert (I1 : Inv a1) by (eapply inv_step with (a := a) (o := o); eauto).
  assert (KM1 : (1 <= k_max_retr (a_cfg a1))%nat) by (rewrite (cfg_step _ _ _ E); exact KM).
  assert (IT : in_time a o).
  { destruct o; cbn; auto. destruct (a_last_now a) as [ln|]; [|exact Logic.I]. destruct (L ln eq_refl) as (x & -> & X). destruct TM as [TM _]. lia. }
  assert (T1 : TI a1) by (eapply ti_step with (a := a) (o := o); eauto).
  destruct (last_now_step a o a1 I ltac:(assumption) KM E) as [LN|(now & -> & LN)].
  - destruct o; try (apply (IH a1 a' t0 I1 ltac:(assumption) KM1 T1 ltac:(rewrite LN; exact L) TM H)).
    destruct TM as [TM1 TM2]. eapply (IH a1 a' (Some now)); eauto. intros ln LE. rewrite LN in LE. destruct (L ln LE) as (x & -> & X). exists now. split; [reflexivity|]. lia.
  - destruct TM as [TM1 TM2]. eapply (IH a1 a' (Some now)); eauto. intros ln LE. exists now. split; [reflexivity|]. assert (ln = now) by congruence. lia.
Qed.
Lemma ti_init k lite ctrl tie u : TI (init k lite ctrl tie u).
Proof. cbn. intros p []. Qed.
Lemma run_app os1 os2 a : run a (os1 ++ os2) = do b <- run a os1; run b os2.
Proof. revert a. induction os1 as [|o t IH]; intro a; cbn [app run]; [reflexivity|]. destruct (step a o); cbn [bind]; auto. Qed.

Lemma min_from_some l : l <> [] -> exists i d, min_from l 0 None = Some (i, d) /\ In d l /\ nth_error l i = Some d /\ forall x, In x l -> d <= x.
Proof.
  intro N. pose proof (min_from_spec l 0 None) as S. destruct (min_from l 0 None) as [[i d]|].
  - destruct S as ([S1|[S1 S2]] & S3 & _); [discriminate|]. rewrite Nat.sub_0_r in S2. exists i, d. repeat split; auto. eapply nth_error_In; eauto.
  - destruct S as [_ S]. congruence.
Qed.
Lemma poll_bounds a : TI a -> 0 <= k_max_rto (a_cfg a) -> match a_last_now a with
  | None => snd (poll_timeout a) = None
  | Some ln => exists t, snd (poll_timeout a) = Some t /\ (a_lite a = true \/ True) /\
      (a_queue a <> [] \/ a_transmit a <> [] -> t = ln + k_ta (a_cfg a)) /\
      (a_lite a = false -> ln + Z.min (k_ta (a_cfg a)) (ms 3000) <= t) /\ 
      t <= ln + Z.max (k_ta (a_cfg a)) (Z.max (k_max_rto (a_cfg a)) (ms 3000)) end.
Proof.
  intros T R. unfold poll_timeout, TI in *. destruct (a_last_now a) as [ln|]; [|reflexivity].
  destruct (a_queue a); [|eexists; split; [reflexivity|]; repeat split; auto; unfold ms; lia].
  destruct (a_transmit a); [|eexists; split; [reflexivity|]; repeat split; auto; unfold ms; lia].
  destruct (a_lite a).
  - cbn [snd]. eexists; split; [reflexivity|]. split; [auto|]. split; [intros [X|X]; congruence|]. split; [discriminate|unfold ms; lia].
  - destruct (deadlines (a_cfg a) ln (a_pairs a)) as [ps ds] eqn:DL. cbn [snd]. eexists; split; [reflexivity|]. split; [auto|]. split; [intros [X|X]; congruence|].
    pose proof (min_from_spec ds 0 None) as S. destruct (min_from ds 0 None) as [[i d]|]; [|unfold ms; lia].
    destruct S as ([S1|[S1 S2]] & S3 & _); [discriminate|]. rewrite Nat.sub_0_r in S2.
    assert (DB : d <= ln + k_max_rto (a_cfg a)).
    { unfold deadlines in DL. assert (ds = map (fun p => snd (next_attempt (a_cfg a) p ln)) (a_pairs a)) as -> by congruence.
      apply nth_error_In in S2. apply in_map_iff in S2. destruct S2 as (p & <- & IN). unfold next_attempt. destruct (p_cached p) as [c|] eqn:CP; cbn [snd].
      - apply (T p c IN CP).
      - apply compute_le. }
    unfold ms. lia.
Qed.

(** *** The timer sends the due check *)
Lemma evalnom_cached a a' : evaluate_nomination a = Ok a' -> map p_cached (a_pairs a') = map p_cached (a_pairs a).
Proof.
  intro H. apply evalnom_shape in H. destruct H as [->|(i & b & b' & l & r & N & _ & _ & _ & Q & _ & _ & ->)]; [reflexivity|].
  rewrite pairs_emit. flds. rewrite map_upd. apply upd_same. rewrite nth_error_map, N. cbn. destruct Q as [[-> _]|(_ & _ & ->)]; reflexivity.
Qed.
Lemma filter_len {A} (f : A -> bool) l : (length (filter f l) <= length l)%nat.
Proof. induction l; cbn; [lia|]. destruct (f a); cbn; lia. Qed.
Lemma filter_all {A} (f : A -> bool) l : length (filter f l) = length l -> filter f l = l.
Proof. induction l as [|x l IH]; cbn; [reflexivity|]. destruct (f x); cbn; intro H; [f_equal; auto|]. pose proof (filter_len f l). lia. Qed.
Lemma evalnom_len a a' : evaluate_nomination a = Ok a' -> length (a_pairs a') = length (a_pairs a).
Proof. intro H. apply evalnom_cached in H. apply (f_equal (@length _)) in H. rewrite !map_length in H. exact H. Qed.
Lemma binding_len a now i a' : binding_request a now i = Ok a' -> length (a_pairs a') = length (a_pairs a).
Proof.
  unfold binding_request. intro H. destruct (a_rufrag a); [|discriminate]. bok H p E1. bok H l E2. bok H r E3. bok H pr E4. cbn zeta in H. bok H p1 E5. okinj H. flds. apply upd_length.
Qed.
Lemma checks_fire a now a' : Inv a -> (1 <= k_max_retr (a_cfg a))%nat -> a_rufrag a <> None -> a_lite a = false ->
  (exists p c, In p (a_pairs a) /\ p_cached p = Some c /\ c <= now) -> timeout_checks a now = Ok a' ->
  (exists x, a_transmit a' = a_transmit a ++ [x]) \/ (length (a_pairs a') < length (a_pairs a))%nat.
Proof.
  intros I KM RU LT (p & c & PI & PC & PL) H. unfold timeout_checks in H. cbn zeta in H. bok H a1 E1. bok H a2 E2.
  assert (I0 : Inv (set_last_now a (Some now))) by (eapply inv_same; [exact I|reflexivity..]).
  pose proof (inv_evalnom _ _ I0 E1) as I1. pose proof (env_evalnom _ _ E1) as EV1. pose proof (evalnom_len _ _ E1) as LN1. pose proof (evalnom_cached _ _ E1) as CC1.
  destruct (evalnom_kc _ _ E1) as (_ & [T1 _] & _). cbn [a_pairs set_last_now a_transmit] in *.
  pose proof (inv_filter_pairs a1 (keep a1 now) I1) as I2.
  assert (LEN : forall ds : list Z, forall a2 : agent, a_rufrag a2 = a_rufrag a -> a_lite a2 = false -> forall a',
    (match a_rufrag a2 with None => Ok a2 | Some _ => if a_lite a2 then Ok (set_pairs a2 (map (fun p => match p.(p_rbr) with None => set_rbr p (Some now) | Some _ => p end) a2.(a_pairs)))
      else let '(ps, ds) := deadlines a2.(a_cfg) now a2.(a_pairs) in
        match min_from ds O None with
        | Some (i, d) => if d <=? now then binding_request (set_pairs a2 ps) now i else Ok (set_pairs a2 ps)
        | None => Ok (set_pairs a2 ps) end end) = Ok a' -> length (a_pairs a') = length (a_pairs a2)).
  { intros _ b RB LB b' HB. rewrite RB, LB in HB. destruct (a_rufrag a); [|okinj HB; reflexivity]. destruct (deadlines (a_cfg b) now (a_pairs b)) as [ps ds] eqn:DL.
    assert (PS : length ps = length (a_pairs b)). { unfold deadlines in DL. assert (ps = map (fun p => fst (next_attempt (a_cfg b) p now)) (a_pairs b)) as -> by congruence. apply map_length. }
    destruct (min_from ds 0 None) as [[i d]|]; [|okinj HB; exact PS]. destruct (d <=? now); [|okinj HB; exact PS]. apply binding_len in HB. rewrite HB. exact PS. }
  destruct (length (filter (keep a1 now) (a_pairs a1)) =? length (a_pairs a1))%nat eqn:PR0.
  - apply Nat.eqb_eq in PR0. apply filter_all in PR0. cbn [negb] in E2. assert (A2 : a2 = set_pairs a1 (a_pairs a1)) by congruence. clear E2. subst a2. cbn [a_rufrag a_lite set_pairs a_cfg a_pairs] in *.
    destruct EV1 as (_ & EL & _ & ER & _). cbn [a_lite a_rufrag set_last_now] in *. rewrite EL, LT, ER in H. destruct (a_rufrag a); [|congruence].
    destruct (deadlines (a_cfg a1) now (a_pairs a1)) as [ps ds] eqn:DL.
    assert (IC : In (Some c) (map p_cached (a_pairs a1))). { rewrite CC1. apply in_map_iff. exists p. auto. }
    apply in_map_iff in IC. destruct IC as (q & Q1 & Q2).
    assert (ID : In c ds). { unfold deadlines in DL. assert (ds = map (fun p => snd (next_attempt (a_cfg a1) p now)) (a_pairs a1)) as -> by congruence. apply in_map_iff. exists q. split; [|exact Q2]. unfold next_attempt. rewrite Q1. reflexivity. }
    destruct (min_from_some ds) as (i & d & MF & _ & _ & MN); [intros ->; destruct ID|]. rewrite MF in H. specialize (MN c ID).
    destruct (Z.leb_spec d now); [|lia]. left.
    assert (TX : forall b b', binding_request b now i = Ok b' -> exists x, a_transmit b' = a_transmit b ++ [x]).
    { clear. intros b b' H. unfold binding_request in H. destruct (a_rufrag b); [|discriminate]. bok H p E1. bok H l E2. bok H r E3. bok H pr E4. cbn zeta in H. bok H p1 E5. okinj H. flds. eauto. }
    apply TX in H. destruct H as [x H]. exists x. cbn [a_transmit set_pairs] in H. rewrite H. f_equal. exact T1.
  - right. apply Nat.eqb_neq in PR0. pose proof (filter_len (keep a1 now) (a_pairs a1)) as FL. cbn [negb] in E2. bok E2 a3 E3. okinj E2.
    pose proof (evalnom_len _ _ E3) as LN3. pose proof (env_evalnom _ _ E3) as EV3. cbn [a_pairs set_pairs] in LN3.
    pose proof (env_trans _ _ _ EV3 (env_state a3 now)) as EV4. pose proof (env_trans _ _ _ EV1 (env_trans _ _ _ (env_pairs a1 _) EV4)) as (_ & EL & _ & ER & _).
    cbn [a_lite a_rufrag set_last_now] in *.
    match type of H with _ = Ok ?z => specialize (LEN nil (evaluate_state a3 now) ER ltac:(congruence) z) end. cbn zeta in LEN. rewrite LEN.
    + rewrite pairs_state. lia.
    + rewrite <- H. reflexivity.
Qed.

Lemma timeout_fire a now a' : Inv a -> (1 <= k_max_retr (a_cfg a))%nat -> a_rufrag a <> None -> a_lite a = false -> a_queue a = [] ->
  (exists p c, In p (a_pairs a) /\ p_cached p = Some c /\ c <= now) -> handle_timeout a now = Ok a' ->
  (exists x, a_transmit a' = a_transmit a ++ [x]) \/ (length (a_pairs a') < length (a_pairs a))%nat.
Proof.
  intros I KM RU LT QE PC H. unfold handle_timeout in H. cbn zeta in H.
  match type of H with context[evaluate_state ?b now] => set (b0 := b) in *; assert (V0 : same_env a b0 /\ Inv b0 /\ quiet a b0 /\ a_pairs b0 = a_pairs a) end.
  { subst b0. destruct (conn_eqb _ _); [|spl; auto using env_refl, quiet_refl]. spl; auto using env_emit, quiet_emit. apply inv_emit_restart; exact I. }
  destruct V0 as (V0 & I0 & Q0 & P0).
  pose proof (env_trans _ _ _ V0 (env_state b0 now)) as V1. pose proof (inv_state b0 now I0) as I1. pose proof (quiet_trans _ _ _ Q0 (quiet_state b0 now)) as [QT _].
  assert (P1 : a_pairs (evaluate_state b0 now) = a_pairs a) by (rewrite pairs_state; exact P0).
  set (a1 := evaluate_state b0 now) in *. clearbody a1. clear b0 V0 I0 Q0 P0.
  destruct V1 as (VC & VL & _ & VR & _ & _ & _ & VQ). rewrite VR, VQ, QE in H. cbn [drop_old] in H. destruct (a_rufrag a) as [u|] eqn:RA; [|congruence].
  destruct (checks_fire (set_queue a1 []) now a') as [[x X]|X]; flds; auto; try congruence.
  - eapply inv_same; [exact I1|reflexivity..].
  - rewrite P1. exact PC.
  - left. exists x. cbn [a_transmit set_queue] in X. rewrite X. f_equal. exact QT.
  - right. cbn [a_pairs set_queue] in X. rewrite P1 in X. exact X.
Qed.
Lemma poll_cached a t : a_lite a = false -> a_queue a = [] -> a_transmit a = [] -> a_pairs a <> [] -> snd (poll_timeout a) = Some t ->
  (exists p c, In p (a_pairs (fst (poll_timeout a))) /\ p_cached p = Some c /\ c <= t) /\ length (a_pairs (fst (poll_timeout a))) = length (a_pairs a)
  /\ same_env a (fst (poll_timeout a)) /\ a_transmit (fst (poll_timeout a)) = [].
Proof.
  intros L Q T P H. unfold poll_timeout in *. destruct (a_last_now a) as [ln|]; [|discriminate]. rewrite Q, T, L in *.
  destruct (deadlines (a_cfg a) ln (a_pairs a)) as [ps ds] eqn:DL. cbn [fst snd] in *. flds.
  assert (E1 : ps = map (fun p => fst (next_attempt (a_cfg a) p ln)) (a_pairs a)) by (unfold deadlines in DL; congruence).
  assert (E2 : ds = map (fun p => snd (next_attempt (a_cfg a) p ln)) (a_pairs a)) by (unfold deadlines in DL; congruence). clear DL. subst.
  destruct (min_from_some (map (fun p => snd (next_attempt (a_cfg a) p ln)) (a_pairs a))) as (i & d & MF & ID & N & MN).
  { destruct (a_pairs a); [congruence|discriminate]. }
  rewrite MF in H. assert (TE : t = Z.max d (ln + k_ta (a_cfg a))) by congruence. split; [|split; [apply map_length|split; [repeat split|exact T]]].
  apply in_map_iff in ID. destruct ID as (p & E & IN). exists (fst (next_attempt (a_cfg a) p ln)), d. split; [apply in_map_iff; eauto|]. split; [|lia].
  unfold next_attempt in *. destruct (p_cached p) eqn:CP; cbn [fst snd] in *; [rewrite CP|cbn [set_cached p_cached]]; congruence.
Qed.

(** *** No redundant pairs *)
Lemma no_red_form_pair a l r a' : no_redundant (a_locals a) (a_remotes a) (a_pairs a) -> form_pair a l r = Ok a' ->
  no_redundant (a_locals a) (a_remotes a) (a_pairs a').
Proof.
  unfold no_redundant. intros ND H. apply form_pair_cases in H. destruct H as (x & y & L & R & [->|(pr & H)]); [exact ND|]. cbn zeta in H.
  destruct H as [PE [(i & c & N & KEY & LT & ->)|(NO & ->)]].
  - rewrite map_upd. rewrite upd_same; [exact ND|]. rewrite nth_error_map, N. cbn. rewrite KEY. unfold pair_key.
    destruct (copy_nom_fields (new_pair (a_fresh a) l r pr) c) as (_ & F1 & F2 & _).
    destruct (a_lite a); cbn [p_local p_remote set_rbr]; rewrite F1, F2; cbn [p_local p_remote new_pair]; rewrite L, R; reflexivity.
  - rewrite map_app. apply NoDup_app_intro; [exact ND|repeat constructor; auto|]. intros k K1 [<-|[]]. apply in_map_iff in K1. destruct K1 as (c & C1 & C2).
    apply (NO c C2). rewrite C1. unfold pair_key. cbn [p_local p_remote new_pair]. rewrite L, R. reflexivity.
Qed.
Lemma no_red_form_all lr : forall a a', no_redundant (a_locals a) (a_remotes a) (a_pairs a) -> form_all a lr = Ok a' ->
  no_redundant (a_locals a) (a_remotes a) (a_pairs a').
Proof.
  induction lr as [|[l r] t IH]; intros a a' ND H; cbn [form_all] in H; [okinj H; exact ND|]. bok H a1 E.
  pose proof (env_form_pair _ _ _ _ E) as (_ & _ & _ & _ & _ & EL & ER & _). pose proof (no_red_form_pair _ _ _ _ ND E) as N1.
  rewrite <- EL, <- ER in *. eapply IH; eauto.
Qed.
Lemma NoDup_firstn {A} n (l : list A) : NoDup l -> NoDup (firstn n l).
Proof. intro H. rewrite <- (firstn_skipn n l) in H. eapply NoDup_app_l; eauto. Qed.
Lemma no_red_form_pairs a ls rs a' : no_redundant (a_locals a) (a_remotes a) (a_pairs a) -> form_pairs a ls rs = Ok a' ->
  no_redundant (a_locals a') (a_remotes a') (a_pairs a').
Proof.
  intros ND H. pose proof (env_form_pairs _ _ _ _ H) as (_ & _ & _ & _ & _ & EL & ER & _). rewrite EL, ER. unfold form_pairs in H. bok H u E1. bok H a1 E2. okinj H. flds.
  apply no_red_form_all in E2; [|exact ND]. unfold no_redundant in *. rewrite <- firstn_map. apply NoDup_firstn.
  eapply Permutation_NoDup; [apply Permutation_map; symmetry; apply sort_perm|exact E2].
Qed.
Lemma no_red_ext ls rs ls' rs' ps : (forall p, In p ps -> pair_key ls' rs' p = pair_key ls rs p) -> no_redundant ls rs ps -> no_redundant ls' rs' ps.
Proof. unfold no_redundant. intros E H. rewrite (map_ext_in _ _ _ E). exact H. Qed.
Lemma no_red_add_local a c a' : Inv a -> no_redundant (a_locals a) (a_remotes a) (a_pairs a) -> add_local a c = Ok a' ->
  no_redundant (a_locals a') (a_remotes a') (a_pairs a').
Proof.
  intros [[IV _ _] _] ND H. unfold add_local in H. destruct (_ && _); [okinj H; exact ND|]. bok H p E1. cbn zeta in H. bok H pl E2. destruct pl as [[a1 i]|]; [|okinj H; exact ND].
  eapply no_red_form_pairs; [|exact H]. unfold place_local in E2. cbn zeta in E2.
  pose proof (iv_live _ _ _ _ _ _ _ _ IV) as LV. rewrite Forall_forall in LV.
  assert (KU : forall j o b ps, nth_error (a_locals a) j = Some o -> forall p, In p ps -> pair_key (upd j (set_disc o b) (a_locals a)) (a_remotes a) p = pair_key (a_locals a) (a_remotes a) p).
  { intros j o b ps N q _. unfold pair_key. rewrite nth_upd. destruct (Nat.eqb_spec (p_local q) j) as [EJ|NE].
    - rewrite EJ, ?Nat.eqb_refl, N. destruct (nth_error (a_remotes a) (p_remote q)); reflexivity.
    - destruct (Nat.eqb_spec j (p_local q)); [congruence|reflexivity]. }
  assert (KP : forall ls ps, (forall p, In p ps -> In p (a_pairs a)) -> length ls = length (a_locals a) -> forall z, forall p, In p ps -> pair_key (ls ++ [z]) (a_remotes a) p = pair_key ls (a_remotes a) p).
  { intros ls ps IC LL z q IN. unfold pair_key. rewrite nth_error_app1; [reflexivity|]. destruct (LV q (IC q IN)) as (x & y & X & _). rewrite LL. apply nth_error_Some. congruence. }
  destruct (position _ _) as [j|] eqn:PS.
  - bok E2 o0 OO. apply get_ok in OO. match type of E2 with (if ?c then _ else _) = _ => destruct c end.
    + match type of E2 with Ok (Some (?y, _)) = _ => assert (a1 = y) as -> by congruence end. flds. eapply no_red_ext; [|exact ND]. eapply KU. exact OO.
    + bok E2 cp C1. bok E2 q Q1. destruct (_ <? _); [discriminate|].
      match type of E2 with Ok (Some (?y, _)) = _ => assert (a1 = y) as -> by congruence end. unfold discard_local. flds.
      eapply no_red_ext; [eapply KP; [intros x X; apply filter_In in X; apply X|apply upd_length]|].
      eapply no_red_ext; [eapply KU; exact OO|]. unfold no_redundant in *. apply NoDup_filter_map. exact ND.
  - match type of E2 with Ok (Some (?y, _)) = _ => assert (a1 = y) as -> by congruence end. flds. eapply no_red_ext; [eapply KP; auto|exact ND].
Qed.
Lemma no_red_add_remote a c a' : Inv a -> (forall v, In v (a_remotes a) -> i_temp v = true -> i_addr v = i_addr c -> i_proto v = i_proto c) ->
  no_redundant (a_locals a) (a_remotes a) (a_pairs a) -> add_remote a c = Ok a' -> no_redundant (a_locals a') (a_remotes a') (a_pairs a').
Proof.
  intros [[IV _ _] _] TP ND H. unfold add_remote in H. destruct (negb _); [okinj H; exact ND|].
  match type of H with (if ?c then _ else _) = _ => destruct c end; [okinj H; exact ND|]. cbn zeta in H. bok H x X. bok H e1 EX. destruct e1 as [ex1|]; [|okinj H; exact ND].
  bok H y Y. destruct y as [a1 i]. eapply no_red_form_pairs; [|exact H].
  pose proof (iv_live _ _ _ _ _ _ _ _ IV) as LV. rewrite Forall_forall in LV.
  assert (KU : forall j o o', nth_error (a_remotes a) j = Some o -> i_addr o' = i_addr o -> i_proto o' = i_proto o ->
     forall p, pair_key (a_locals a) (upd j o' (a_remotes a)) p = pair_key (a_locals a) (a_remotes a) p).
  { intros j o o' N A1 A2 q. unfold pair_key. rewrite nth_upd. destruct (Nat.eqb_spec (p_remote q) j) as [EJ|NE]; [|destruct (Nat.eqb_spec j (p_remote q)); [congruence|reflexivity]].
    rewrite EJ, ?Nat.eqb_refl, N. destruct (nth_error (a_locals a) (p_local q)); [cbn [option_map]; rewrite A1, A2; reflexivity|reflexivity]. }
  assert (PUSH : forall z, no_redundant (a_locals a) (a_remotes a ++ [z]) (a_pairs a)).
  { intro z. eapply no_red_ext; [|exact ND]. intros q IN. unfold pair_key. destruct (LV q IN) as (u & v & U & V & _). rewrite nth_error_app1; [reflexivity|]. apply nth_error_Some. congruence. }
  unfold place_remote in Y. cbn zeta in Y. destruct (position _ _) as [j|] eqn:PS.
  - apply position_some in PS. destruct PS as (o & N & F). rewrite !andb_true_iff in F. destruct F as [[F1 _] F2]. apply addr_eqb_eq in F2. cbn [set_ufrag i_addr] in F2.
    match type of Y with Ok (?z, _) = _ => assert (a1 = z) as -> by congruence end. flds. eapply no_red_ext; [|exact ND]. intros q _. eapply KU; [exact N|cbn; congruence|].
    cbn. symmetry. apply TP; auto. eapply nth_error_In; eauto.
  - destruct ex1 as [j|].
    + bok Y o0 OO. apply get_ok in OO. destruct (i_disc o0); match type of Y with Ok (?z, _) = _ => assert (a1 = z) as -> by congruence end; flds; [|apply PUSH].
      eapply no_red_ext; [|exact ND]. intros q _. eapply KU; [exact OO|reflexivity|reflexivity].
    + match type of Y with Ok (?z, _) = _ => assert (a1 = z) as -> by congruence end. flds. apply PUSH.
Qed.

(** *** Roles *)
Lemma find_attempt_some ps tid b : find_attempt ps tid = Some b -> exists p, In p ps /\ In b (p_att p) /\ t_id b = tid.
Proof.
  induction ps as [|p t IH]; cbn; [discriminate|]. destruct (binding_attempt p tid) as [x|] eqn:E.
  - intro H. assert (x = b) as -> by congruence. unfold binding_attempt in E. apply find_some in E. exists p. split; [left; reflexivity|]. split; [apply E|]. lia.
  - intro H. destruct (IH H) as (q & Q1 & Q2 & Q3). exists q. auto.
Qed.
Lemma find_attempt_none ps tid : find_attempt ps tid = None -> forall p b, In p ps -> In b (p_att p) -> t_id b <> tid.
Proof.
  induction ps as [|p t IH]; cbn; intros H q b IN; [destruct IN|]. destruct (binding_attempt p tid) eqn:E; [discriminate|]. destruct IN as [<-|IN]; [|apply (IH H); exact IN].
  intros IB TB. unfold binding_attempt in E. apply find_none with (x := b) in E; [|exact IB]. lia.
Qed.
Lemma find_attempt_unique ps tid b p0 b0 : NoDup (tids ps) -> find_attempt ps tid = Some b -> In p0 ps -> In b0 (p_att p0) -> t_id b0 = tid -> b0 = b.
Proof.
  intros ND H IN IB TB. apply find_attempt_some in H. destruct H as (p & P1 & P2 & P3).
  assert (E : NoDup (map t_id (flat_map p_att ps))).
  { replace (map t_id (flat_map p_att ps)) with (tids ps); [exact ND|]. unfold tids. clear. induction ps as [|p t IH]; [reflexivity|]. cbn [flat_map]. rewrite map_app, <- IH. reflexivity. }
  eapply NoDup_map_inj; [exact E| | |congruence]; apply in_flat_map; eauto.
Qed.

(** Where nominations, deadlines and datagrams come from, continued. *)
From Verif Require Import Base BaseFacts PrioModel PrioSpec PrioProofs PrioProps IceModel IceSpec IceProofs IceProofs2 IceProofs3 IceProofs4 IceProofs5 IceProofs6.
From Coq Require Import Sorted Permutation.

Definition D (b : Z) (ps : list pair) : Prop := forall p c, In p ps -> p_cached p = Some c -> c <= b.
Lemma d_c b ps ps' : C ps ps' -> D b ps -> D b ps'.
Proof. intros HC HD p c IN E. destruct (HC p IN) as [X|(q & Q1 & Q2)]; [congruence|]. apply (HD q c Q1). congruence. Qed.
Lemma d_mono b b' ps : b <= b' -> D b ps -> D b' ps.
Proof. intros L HD p c IN E. specialize (HD p c IN E). lia. Qed.

Lemma skipn_last {A} n (l : list A) x : (n <= length l)%nat -> In x (skipn n (l ++ [x])).
Proof. intro H. rewrite skipn_app. apply in_or_app. right. replace (n - length l)%nat with O by lia. left. reflexivity. Qed.
Lemma binding_facts a now i a' : (1 <= k_max_retr (a_cfg a))%nat -> Inv a -> binding_request a now i = Ok a' ->
  KC (a_ctrl a) (a_pairs a) (a_pairs a') /\ a_ctrl a' = a_ctrl a /\ a_last_now a' = a_last_now a /\
  exists x, a_transmit a' = a_transmit a ++ [x] /\ checked a' now x.
Proof.
  intros KM I H. pose proof (inv_binding_request _ _ _ _ I H) as [[A' _ _] _].
  unfold binding_request in H. destruct (a_rufrag a); [|discriminate]. bok H p E1. bok H l E2. bok H r E3. bok H pr E4. cbn zeta in H. bok H p1 E5. okinj H. flds.
  apply get_ok in E1. apply get_ok in E2. apply get_ok in E3. apply new_attempt_shape in E5.
  destruct E5 as (Q1 & Q2 & Q3 & Q4 & Q5 & Q6 & Q7 & (nm & Q8) & Q9 & Q10 & Q11 & Q12).
  split; [|split; [|split]]; [|reflexivity|reflexivity|].
  - apply k_upd with (p := p); auto.
    + rewrite Q10. auto.
    + unfold succ. rewrite Q6. intros ->. reflexivity.
  - eexists. split; [reflexivity|]. exists p1, l, r, (a_fresh a), pr. flds. rewrite Q2, Q3, Q10.
    assert (IN : In p1 (upd i p1 (a_pairs a))). { apply nth_error_In with i. rewrite nth_upd, Nat.eqb_refl, E1. reflexivity. }
    pose proof (iv_live _ _ _ _ _ _ _ _ A') as LV. cbn [a_pairs set_pairs set_fresh set_transmit a_locals a_remotes] in LV. rewrite Forall_forall in LV. destruct (LV p1 IN) as (l0 & r0 & L1 & L2 & L3 & L4).
    rewrite Q2 in L1. rewrite Q3 in L2. assert (l0 = l) as -> by congruence. assert (r0 = r) as -> by congruence. spl; auto.
    exists (mkAtt (a_fresh a) now None nm (a_ctrl a)). split; [|repeat split]. rewrite Q8. apply skipn_last. lia.
Qed.

Lemma compute_le k p now : compute_next k p now <= now + k_max_rto k.
Proof. unfold compute_next. cbn zeta. lia. Qed.
Lemma deadlines_d k now ps b : D b ps -> D (Z.max b (now + k_max_rto k)) (fst (deadlines k now ps)).
Proof.
  intros HD p c IN E. cbn [fst deadlines] in IN. apply in_map_iff in IN. destruct IN as (q & <- & IN). unfold next_attempt in E.
  destruct (p_cached q) as [x|] eqn:CQ; cbn [fst] in E.
  - specialize (HD q x IN CQ). assert (c = x) as -> by congruence. lia.
  - cbn in E. assert (c = compute_next k q now) as -> by congruence. pose proof (compute_le k q now). lia.
Qed.
Lemma deadlines_k c k now ps : K c ps (fst (deadlines k now ps)).
Proof.
  intros p IN NM. cbn [fst deadlines] in IN. apply in_map_iff in IN. destruct IN as (q & <- & IN). left. exists q. unfold next_attempt in *.
  destruct (p_cached q); cbn [fst] in *; auto.
Qed.
Lemma k_trans c x y z : K c x y -> K c y z -> K c x z.
Proof.
  intros H1 H2 p IN N. destruct (H2 p IN N) as [(q & Q1 & Q2 & Q3 & Q4)|H]; [|auto].
  destruct (H1 q Q1 Q3) as [(r & R1 & R2 & R3 & R4)|[R1 R2]]; [|auto]. left. exists r. repeat split; auto. congruence.
Qed.

Lemma checks_facts a now a' : Inv a -> (1 <= k_max_retr (a_cfg a))%nat -> timeout_checks a now = Ok a' ->
  K (a_ctrl a) (a_pairs a) (a_pairs a') /\ a_ctrl a' = a_ctrl a /\ a_last_now a' = Some now /\
  (forall b, D b (a_pairs a) -> D (Z.max b (now + k_max_rto (a_cfg a))) (a_pairs a')) /\
  (a_transmit a' = a_transmit a \/ exists x, a_transmit a' = a_transmit a ++ [x] /\ checked a' now x).
Proof.
  intros I KM H. unfold timeout_checks in H. cbn zeta in H. bok H a1 E1. bok H a2 E2.
  assert (I0 : Inv (set_last_now a (Some now))) by (eapply inv_same; [exact I|reflexivity..]).
  pose proof (inv_evalnom _ _ I0 E1) as I1. pose proof (env_cfg _ _ (env_evalnom _ _ E1)) as CF1.
  apply evalnom_kc in E1. destruct E1 as (K1 & [T1 L1] & C1). cbn [a_pairs a_ctrl a_transmit a_last_now set_last_now a_cfg] in *.
  pose proof (inv_filter_pairs a1 (keep a1 now) I1) as I2.
  assert (X : KC (a_ctrl a) (a_pairs a) (a_pairs a2) /\ a_transmit a2 = a_transmit a /\ a_last_now a2 = Some now /\ a_ctrl a2 = a_ctrl a /\ Inv a2 /\ a_cfg a2 = a_cfg a).
  { match type of E2 with (if ?c then _ else _) = _ => destruct c end.
    - bok E2 a3 E3. okinj E2. pose proof (inv_evalnom _ _ I2 E3) as I3. pose proof (env_cfg _ _ (env_evalnom _ _ E3)) as CF3. apply evalnom_kc in E3. destruct E3 as (K3' & [T3 L3] & C3).
      cbn [a_pairs a_ctrl a_transmit a_last_now set_pairs a_cfg] in *. destruct (quiet_state a3 now) as [QT QL]. rewrite pairs_state, ctrl_state, QT, QL, (env_cfg _ _ (env_state a3 now)).
      spl; try congruence; [|apply inv_state; exact I3].
      eapply kc_trans; [exact K1|]. eapply kc_trans; [apply kc_filter with (f := keep a1 now)|]. rewrite C1 in K3'. exact K3'.
    - assert (a2 = set_pairs a1 (filter (keep a1 now) (a_pairs a1))) as -> by congruence. flds. spl; auto; try congruence. eapply kc_trans; [exact K1|apply kc_filter]. }
  clear E2. destruct X as ([K2 C2] & T2 & L2 & CT2 & I3 & CF2).
  assert (D2 : forall b, D b (a_pairs a) -> D b (a_pairs a2)) by (intro b; apply d_c; exact C2).
  destruct (a_rufrag a2) eqn:RU.
  2:{ okinj H. spl; auto. intros b HB. eapply d_mono; [|apply D2; exact HB]. lia. }
  destruct (a_lite a2).
  { okinj H. flds. match goal with |- context[map ?g (a_pairs a2)] => assert (KM2 : KC (a_ctrl a) (a_pairs a2) (map g (a_pairs a2))) end.
    { apply kc_map. intro p. destruct (p_rbr p); repeat split. }
    destruct KM2 as [X1 X2]. spl; auto; [eapply k_trans; eauto|]. intros b HB. eapply d_mono; [|eapply d_c; [exact X2|apply D2; exact HB]]. lia. }
  destruct (deadlines (a_cfg a2) now (a_pairs a2)) as [ps ds] eqn:DL.
  assert (KD : K (a_ctrl a) (a_pairs a2) ps) by (replace ps with (fst (deadlines (a_cfg a2) now (a_pairs a2))) by (rewrite DL; reflexivity); apply deadlines_k).
  assert (DD : forall b, D b (a_pairs a) -> D (Z.max b (now + k_max_rto (a_cfg a))) ps).
  { intros b HB. replace ps with (fst (deadlines (a_cfg a2) now (a_pairs a2))) by (rewrite DL; reflexivity). rewrite <- CF2. apply deadlines_d. apply D2. exact HB. }
  assert (I4 : Inv (set_pairs a2 ps)). { pose proof (inv_deadlines a2 now I3) as X. rewrite DL in X. exact X. }
  destruct (min_from ds 0 None) as [[i d]|].
  - destruct (d <=? now).
    + apply binding_facts in H; [|flds; congruence|exact I4]. flds. cbn [a_ctrl a_pairs a_transmit a_last_now set_pairs] in H. destruct H as ([X1 X2] & X3 & X4 & (x & X5 & X6)).
      rewrite CT2 in *. spl; try congruence.
      * eapply k_trans; [exact K2|]. eapply k_trans; [exact KD|exact X1].
      * intros b HB. eapply d_c; [exact X2|]. apply DD. exact HB.
      * right. exists x. rewrite X5, T2. auto.
    + okinj H. flds. spl; auto. eapply k_trans; eauto.
  - okinj H. flds. spl; auto. eapply k_trans; eauto.
Qed.

(** *** every call *)
Definition at_time (o : op) (now : Z) : Prop := o = OTimeout now.
Definition tx_ok (a a' : agent) (o : op) : Prop := forall x, In x (a_transmit a') -> In x (a_transmit a) \/ justified a a' o x.
Definition bound_ok (a a' : agent) : Prop := C (a_pairs a) (a_pairs a') /\ a_last_now a' = a_last_now a.

Definition bound3 (a a' : agent) (o : op) : Prop := bound_ok a a' \/
  exists t, a_last_now a' = Some t /\ (o = OTimeout t \/ a_last_now a = Some t) /\ forall b, D b (a_pairs a) -> D (Z.max b (t + k_max_rto (a_cfg a))) (a_pairs a').
Lemma k_cause a a' o p : K (a_ctrl a') (a_pairs a) (a_pairs a') -> In p (a_pairs a') -> is_nominated p = true -> cause a a' o p.
Proof. intros HK IN N. destruct (HK p IN N) as [(q & Q1 & Q2 & Q3 & _)|[X1 X2]]; [left; exists q; auto|right; left; auto]. Qed.
Lemma incl_facts a a' o : incl (a_pairs a') (a_pairs a) -> (forall x, In x (a_transmit a') -> In x (a_transmit a)) -> a_last_now a' = a_last_now a ->
  (forall p, In p (a_pairs a') -> is_nominated p = true -> cause a a' o p) /\ tx_ok a a' o /\ bound3 a a' o.
Proof.
  intros IC T L. split; [|split; [|left; split]].
  - intros p IN N. left. exists p. auto.
  - intros x IN. left. auto.
  - intros p IN. right. exists p. auto.
  - exact L.
Qed.

Lemma place_local_facts a c a' i : place_local a c = Ok (Some (a', i)) -> incl (a_pairs a') (a_pairs a) /\ quiet a a' /\ a_ctrl a' = a_ctrl a.
Proof.
  intro H. unfold place_local in H. cbn zeta in H. destruct (position _ _).
  - bok H x X. match type of H with (if ?c then _ else _) = _ => destruct c end.
    + match type of H with Ok (Some (?y, _)) = _ => assert (a' = y) as -> by congruence end. flds. split; [apply incl_refl|repeat split].
    + bok H cp C1. bok H q Q1. destruct (_ <? _); [discriminate|].
      match type of H with Ok (Some (?y, _)) = _ => assert (a' = y) as -> by congruence end. flds. unfold discard_local. flds. split; [|repeat split]. intros p IN. apply filter_In in IN. apply IN.
  - match type of H with Ok (Some (?y, _)) = _ => assert (a' = y) as -> by congruence end. flds. split; [apply incl_refl|repeat split].
Qed.
Lemma place_remote_facts a c ex0 a' i : place_remote a c ex0 = Ok (a', i) -> a_pairs a' = a_pairs a /\ quiet a a' /\ a_ctrl a' = a_ctrl a.
Proof.
  intro H. unfold place_remote in H. cbn zeta in H. destruct (position _ _).
  - match type of H with Ok (?y, _) = _ => assert (a' = y) as -> by congruence end. repeat split.
  - destruct ex0.
    + bok H o0 OO. destruct (i_disc o0); match type of H with Ok (?y, _) = _ => assert (a' = y) as -> by congruence end; repeat split.
    + match type of H with Ok (?y, _) = _ => assert (a' = y) as -> by congruence end. repeat split.
Qed.
Lemma formed_facts a a1 a' o ls rs : Inv0 a1 -> incl (a_pairs a1) (a_pairs a) -> quiet a a1 -> form_pairs a1 ls rs = Ok a' ->
  (forall l, In l ls -> forall c, nth_error (a_locals a1) l = Some c -> i_disc c = false) ->
  (forall r, In r rs -> forall c, nth_error (a_remotes a1) r = Some c -> i_disc c = false) ->
  (forall p, In p (a_pairs a') -> is_nominated p = true -> cause a a' o p) /\ tx_ok a a' o /\ bound3 a a' o.
Proof.
  intros I IC [QT QL] H HL HR. destruct (form_pairs_handed _ _ _ _ I H HL HR) as (X1 & X2 & [X3 X4] & X5).
  pose proof (env_form_pairs _ _ _ _ H) as (_ & _ & _ & _ & _ & EL & ER & _). split; [|split; [|left; split]].
  - intros p IN N. destruct (X1 p IN N) as (q & Q1 & Q2 & Q3). left. exists q. split; [auto|]. split; [exact Q2|]. rewrite EL, ER. destruct Q3 as [->|Q3]; auto.
  - intros x IN. left. rewrite X3, QT in IN. exact IN.
  - intros p IN. destruct (X2 p IN) as [Q|(q & Q1 & Q2)]; [auto|right; exists q; auto].
  - congruence.
Qed.

Lemma pos_nondisc f (ls : list icand) : (forall v, f v = true -> i_disc v = false) ->
  forall l, In l (positions f ls) -> forall c, nth_error ls l = Some c -> i_disc c = false.
Proof. intros F l IN c N. destruct (positions_nondisc f ls F l IN) as (x & X1 & X2). congruence. Qed.

Lemma response_facts a now tid m a' : Inv a -> handle_response a now tid m = Ok a' ->
  KC (a_ctrl a) (a_pairs a) (a_pairs a') /\ quiet a a' /\ a_ctrl a' = a_ctrl a.
Proof.
  intros I H. unfold handle_response in H. destruct (position (owns tid) (a_pairs a)) as [i|] eqn:P; [|okinj H; split; [apply kc_refl|split; [apply quiet_refl|reflexivity]]].
  bok H p E1. bok H a1 E2. bok H p1 E3. cbn zeta in H. bok H a3 E4. okinj H. apply get_ok in E1. apply record_shape in E3.
  destruct E3 as (Q1 & Q2 & Q3 & Q4 & Q5 & Q6 & Q7 & Q8 & Q9 & Q10 & Q11 & _).
  assert (X : a_pairs a1 = a_pairs a /\ a_ctrl a1 = a_ctrl a /\ quiet a a1).
  { destruct (position _ (a_locals a)); [assert (a1 = a) as -> by congruence; repeat split|]. bok E2 l EL. bok E2 pr EP. okinj E2. repeat split. }
  destruct X as (X1 & X2 & X3). rewrite X1 in *. rewrite pairs_state, ctrl_state.
  assert (U : KC (a_ctrl a) (a_pairs a) (upd i p1 (a_pairs a))).
  { apply k_upd with (p := p); auto.
    - rewrite Q10. auto.
    - unfold succ. rewrite Q6. intros ->. reflexivity. }
  cbn [a_ctrl set_pairs] in E4. destruct (a_ctrl a1) eqn:CT.
  - apply evalnom_kc in E4. cbn [a_ctrl a_pairs set_pairs] in E4. destruct E4 as (Y1 & Y2 & Y3). rewrite <- X2. rewrite CT in *. split; [|split; [|congruence]].
    + rewrite <- X2 in U. eapply kc_trans; [exact U|exact Y1].
    + eapply quiet_trans; [exact X3|]. eapply quiet_trans; [|apply quiet_state]. exact Y2.
  - assert (a3 = set_pairs a1 (upd i p1 (a_pairs a))) as -> by congruence. flds. split; [exact U|]. split; [|congruence].
    eapply quiet_trans; [exact X3|]. eapply quiet_trans; [|apply quiet_state]. split; reflexivity.
Qed.

Definition facts (a : agent) (o : op) (a' : agent) : Prop :=
  (forall p, In p (a_pairs a') -> is_nominated p = true -> cause a a' o p) /\ tx_ok a a' o /\ bound3 a a' o.
Lemma facts_OSetRemote a ufrag a' : Inv a -> op_fresh (OSetRemote ufrag) -> (1 <= k_max_retr (a_cfg a))%nat -> step a (OSetRemote ufrag) = Ok a' -> facts a (OSetRemote ufrag) a'.
Proof.
  unfold facts. intros I F KM H. cbn [step] in H.
  okinj H. apply incl_facts; [apply incl_refl|auto|reflexivity].
Qed.
Lemma facts_OAddLocal a c a' : Inv a -> op_fresh (OAddLocal c) -> (1 <= k_max_retr (a_cfg a))%nat -> step a (OAddLocal c) = Ok a' -> facts a (OAddLocal c) a'.
Proof.
  unfold facts. intros I F KM H. cbn [step] in H.
  unfold add_local in H. destruct (_ && _); [okinj H; apply incl_facts; [apply incl_refl|auto|reflexivity]|]. bok H p E1. cbn zeta in H. bok H pl E2.
    destruct pl as [[a1 i]|]; [|okinj H; apply incl_facts; [apply incl_refl|auto|reflexivity]].
    pose proof (place_local_inv a (set_ufrag (set_lpref c p) (Some (a_lufrag a))) a1 i I F E2) as ([I0 _] & PI & _).
    destruct (place_local_facts _ _ _ _ E2) as (P1 & P2 & P3).
    destruct (formed_facts a a1 a' (OAddLocal c) _ _ I0 P1 P2 H) as (X1 & X2 & X3); auto.
    + intros l [<-|[]]. exact PI.
    + apply pos_nondisc. intros v V. apply andb_true_iff in V. destruct V as [V _]. destruct (i_disc v); [discriminate|reflexivity].
Qed.
Lemma facts_OAddRemote a c a' : Inv a -> op_fresh (OAddRemote c) -> (1 <= k_max_retr (a_cfg a))%nat -> step a (OAddRemote c) = Ok a' -> facts a (OAddRemote c) a'.
Proof.
  unfold facts. intros I F KM H. cbn [step] in H.
  unfold add_remote in H. destruct (negb _); [okinj H; apply incl_facts; [apply incl_refl|auto|reflexivity]|].
    match type of H with (if ?c then _ else _) = _ => destruct c end; [okinj H; apply incl_facts; [apply incl_refl|auto|reflexivity]|].
    cbn zeta in H. bok H x X. bok H e1 EX. destruct e1 as [ex1|]; [|okinj H; apply incl_facts; [apply incl_refl|auto|reflexivity]]. bok H y Y. destruct y as [a1 i].
    pose proof (place_remote_inv a (set_ufrag c None) ex1 a1 i I F Y) as ([I0 _] & PI & _).
    destruct (place_remote_facts _ _ _ _ _ Y) as (P1 & P2 & P3).
    destruct (formed_facts a a1 a' (OAddRemote c) _ _ I0 ltac:(rewrite P1; apply incl_refl) P2 H) as (X1 & X2 & X3); auto.
    + apply pos_nondisc. intros v V. apply andb_true_iff in V. destruct V as [V _]. destruct (i_disc v); [discriminate|reflexivity].
    + intros l [<-|[]]. exact PI.
Qed.
Lemma facts_OInvalidate a c a' : Inv a -> op_fresh (OInvalidate c) -> (1 <= k_max_retr (a_cfg a))%nat -> step a (OInvalidate c) = Ok a' -> facts a (OInvalidate c) a'.
Proof.
  unfold facts. intros I F KM H. cbn [step] in H.
  bok H x X. destruct x as [a1 b]. okinj H.
    assert (R : forall a2 b, invalidate_remote a c = Ok (a2, b) -> incl (a_pairs a2) (a_pairs a) /\ quiet a a2).
    { intros a2 b2 Q. unfold invalidate_remote in Q. destruct (position _ _); [|assert (a2 = a) as -> by congruence; split; [apply incl_refl|apply quiet_refl]].
      bok Q o0 OO. destruct (negb _); [|assert (a2 = a) as -> by congruence; split; [apply incl_refl|apply quiet_refl]].
      match type of Q with Ok (?z, _) = _ => assert (a2 = z) as -> by congruence end. unfold discard_remote. flds. split; [|repeat split]. intros p IN. apply filter_In in IN. apply IN. }
    assert (Y : incl (a_pairs a1) (a_pairs a) /\ quiet a a1).
    { unfold invalidate in X. destruct (position _ _); [|eauto]. bok X o0 OO. destruct (negb _); [|eauto].
      match type of X with Ok (?z, _) = _ => assert (a1 = z) as -> by congruence end. unfold discard_local. flds. split; [|repeat split]. intros p IN. apply filter_In in IN. apply IN. }
    destruct Y as [Y1 [Y2 Y3]]. apply incl_facts; auto. rewrite Y2. auto.
Qed.
Lemma restart_shape a u k : a_pairs (ice_restart a u k) = [] /\ a_transmit (ice_restart a u k) = [] /\ a_last_now (ice_restart a u k) = a_last_now a.
Proof.
  unfold ice_restart. cbn zeta. rewrite pairs_conn, pairs_emit.
  match goal with |- context[set_conn (emit_event ?x ?e) ?c] => pose proof (quiet_trans _ _ _ (quiet_emit x e) (quiet_conn (emit_event x e) c)) as [Q1 Q2]; rewrite Q1, Q2 end.
  repeat split.
Qed.
Lemma facts_ORestart a ufrag keep a' : Inv a -> op_fresh (ORestart ufrag keep) -> (1 <= k_max_retr (a_cfg a))%nat -> step a (ORestart ufrag keep) = Ok a' -> facts a (ORestart ufrag keep) a'.
Proof.
  unfold facts. intros I F KM H. cbn [step] in H. okinj H. destruct (restart_shape a ufrag keep) as (R1 & R2 & R3). split; [|split].
  - intros p IN. rewrite R1 in IN. destruct IN.
  - intros x IN. rewrite R2 in IN. destruct IN.
  - left. split; [|exact R3]. rewrite R1. intros p [].
Qed.
Lemma facts_ORecreate a  a' : Inv a -> op_fresh ORecreate -> (1 <= k_max_retr (a_cfg a))%nat -> step a ORecreate = Ok a' -> facts a ORecreate a'.
Proof.
  unfold facts. intros I F KM H. cbn [step] in H.
  unfold recreate in H. cbn zeta in H. bok H a1 E. okinj H. destruct (inv_nopairs a I) as [I0 _].
    destruct (form_pairs_handed _ _ _ _ I0 E) as (X1 & X2 & [X3 X4] & X5).
    + apply pos_nondisc. intros v V. destruct (i_disc v); [discriminate|reflexivity].
    + apply pos_nondisc. intros v V. destruct (i_disc v); [discriminate|reflexivity].
    + rewrite pairs_conn. split; [|split].
      * intros p IN N. destruct (X1 p IN N) as (q & [] & _).
      * intros x IN. left. destruct (quiet_conn a1 Checking) as [Q _]. rewrite Q, X3 in IN. exact IN.
      * left. destruct (quiet_conn a1 Checking) as [_ Q]. split; [|rewrite Q, X4; reflexivity]. rewrite pairs_conn. intros p IN. destruct (X2 p IN) as [Z|(q & [] & _)]. auto.
Qed.
Lemma facts_OPacket a now proto src m a' : Inv a -> op_fresh (OPacket now proto src m) -> (1 <= k_max_retr (a_cfg a))%nat -> step a (OPacket now proto src m) = Ok a' -> facts a (OPacket now proto src m) a'.
Proof.
  unfold facts. intros I F KM H. cbn [step] in H.
  unfold handle_packet in H. bok H b B. destruct (negb b); [okinj H; apply incl_facts; [apply incl_refl|auto|reflexivity]|]. bok H a1 E. okinj H.
    rewrite pairs_emit. pose proof (quiet_emit a1 (EvDiscovered proto src)) as [QT QL].
    assert (EV := env_emit a1 (EvDiscovered proto src)). destruct EV as (_ & _ & ET & _ & _ & EL & ER & _).
    assert (BY : forall q p, by_request a1 q p -> by_request (emit_event a1 (EvDiscovered proto src)) q p).
    { intros q p. unfold by_request. rewrite ctrl_emit, EL, ER. auto. }
    assert (G : ((forall p, In p (a_pairs a1) -> is_nominated p = true -> cause a a1 (OPacket now proto src m) p) /\ tx_ok a a1 (OPacket now proto src m) /\ bound3 a a1 (OPacket now proto src m)) ->
      (forall p, In p (a_pairs a1) -> is_nominated p = true -> cause a (emit_event a1 (EvDiscovered proto src)) (OPacket now proto src m) p)
      /\ tx_ok a (emit_event a1 (EvDiscovered proto src)) (OPacket now proto src m) /\ bound3 a (emit_event a1 (EvDiscovered proto src)) (OPacket now proto src m)).
    { intros [G1 [G2 G3]]. split; [|split].
      - intros p IN N. unfold cause. rewrite EL, ER, ctrl_emit. destruct (G1 p IN N) as [X|[X|(q & Q1 & Q2)]]; auto. right. right. exists q. auto.
      - intros x IN. rewrite QT in IN. destruct (G2 x IN) as [X|[(q & Q1 & Q2)|(n0 & N1 & _)]]; [auto| |discriminate]. right. left. exists q. split; [exact Q1|].
        unfold reply_to in *. rewrite EL. exact Q2.
      - unfold bound3, bound_ok in *. rewrite QL, pairs_emit. exact G3. }
    apply G. destruct m.
    + unfold server_message in E. destruct (a_rufrag a); [|okinj E; apply incl_facts; [apply incl_refl|auto|reflexivity]].
      destruct (request_facts _ _ _ I E) as (X1 & X2 & X3 & X4). split; [|split; [|left; split; auto]].
      * intros p IN N. destruct (X1 p IN N) as [(w & W1 & W2 & W3 & _)|[W|W]]; [left; exists w; auto|right; left; exact W|right; right; exists q; split; [reflexivity|exact W]].
      * intros x IN. destruct X4 as [X4|(y & Y1 & Y2)]; [left; congruence|]. rewrite Y1 in IN. apply in_app_or in IN. destruct IN as [IN|[<-|[]]]; [auto|].
        right. left. exists q. split; [reflexivity|exact Y2].
    + destruct (response_facts _ _ _ _ _ I E) as ([X1 XC] & [X2 XL] & X3). rewrite <- X3 in X1. split; [intros p IN N; eapply k_cause; eauto|]. split; [|left; split; auto]. intros x IN. left. congruence.
    + unfold handle_error in E. assert (G0 : a1 = a -> (forall p, In p (a_pairs a1) -> is_nominated p = true -> cause a a1 (OPacket now proto src (MFailure tid code m_ok)) p) /\ tx_ok a a1 (OPacket now proto src (MFailure tid code m_ok)) /\ bound3 a a1 (OPacket now proto src (MFailure tid code m_ok))).
      { intros ->. apply incl_facts; [apply incl_refl|auto|reflexivity]. }
      destruct code as [z|]; [|okinj E; apply G0; reflexivity]. destruct (negb _); [okinj E; apply G0; reflexivity|].
      destruct (find_attempt _ _); [|okinj E; apply G0; reflexivity]. destruct (negb _); [okinj E; apply G0; reflexivity|].
      destruct (switch_kc _ _ _ (a_ctrl a1) E) as ([X1 XC] & [X2 XL] & _). split; [intros p IN N; eapply k_cause; eauto|]. split; [|left; split; auto]. intros x IN. left. congruence.
    + okinj E. apply incl_facts; [apply incl_refl|auto|reflexivity].
Qed.
Lemma facts_OTimeout a now a' : Inv a -> op_fresh (OTimeout now) -> (1 <= k_max_retr (a_cfg a))%nat -> step a (OTimeout now) = Ok a' -> facts a (OTimeout now) a'.
Proof.
  unfold facts. intros I F KM H. cbn [step] in H.
  unfold handle_timeout in H. cbn zeta in H.
    match type of H with context[evaluate_state ?b now] => set (b0 := b) in *; assert (V0 : same_env a b0 /\ Inv b0 /\ quiet a b0 /\ a_pairs b0 = a_pairs a /\ a_ctrl b0 = a_ctrl a) end.
    { subst b0. destruct (conn_eqb _ _); [|spl; auto using env_refl, quiet_refl]. spl; auto using env_emit, quiet_emit. apply inv_emit_restart; exact I. }
    destruct V0 as (V0 & I0 & Q0 & P0 & C0).
    pose proof (env_trans _ _ _ V0 (env_state b0 now)) as V1. pose proof (inv_state b0 now I0) as I1. pose proof (quiet_trans _ _ _ Q0 (quiet_state b0 now)) as Q1.
    assert (P1 : a_pairs (evaluate_state b0 now) = a_pairs a) by (rewrite pairs_state; exact P0).
    assert (C1 : a_ctrl (evaluate_state b0 now) = a_ctrl a) by (rewrite ctrl_state; exact C0).
    set (a1 := evaluate_state b0 now) in *. clearbody a1. clear b0 V0 I0 Q0 P0 C0.
    assert (CH : forall b, a_pairs b = a_pairs a -> a_ctrl b = a_ctrl a -> a_transmit b = a_transmit a -> a_cfg b = a_cfg a -> Inv b -> timeout_checks b now = Ok a' ->
      (forall p, In p (a_pairs a') -> is_nominated p = true -> cause a a' (OTimeout now) p) /\ tx_ok a a' (OTimeout now) /\ bound3 a a' (OTimeout now)).
    { intros b B1 B2 B3 B4 IB HB. destruct (checks_facts b now a' IB) as (X1 & X2 & X3 & X4 & X5); [congruence|exact HB|]. rewrite B1, B2, B3 in *. rewrite <- X2 in X1. rewrite B4 in X4. split; [|split; [|right; exists now; auto]].
      - intros p IN N. eapply k_cause; eauto.
      - intros x IN. destruct X5 as [X5|(y & Y1 & Y2)]; [left; congruence|]. rewrite Y1 in IN. apply in_app_or in IN. destruct IN as [IN|[<-|[]]]; [auto|]. right. right. eauto. }
    destruct V1 as (VC & _ & _ & _ & _ & _ & _ & VQ). destruct Q1 as [QT QL].
    destruct (a_rufrag a1) eqn:RU; [|apply (CH a1); auto].
    destruct (drop_old (a_cfg a1) now (a_queue a1)) as [|q t] eqn:DO; [apply (CH (set_queue a1 [])); auto; eapply inv_same; [exact I1|reflexivity..]|].
    assert (IQ : In q (a_queue a)). { rewrite <- VQ. apply (drop_old_In (a_cfg a1) now). rewrite DO. left. reflexivity. }
    assert (I2 : Inv (set_queue a1 t)) by (eapply inv_same; [exact I1|reflexivity..]).
    destruct (request_facts _ _ _ I2 H) as (X1 & X2 & X3 & X4). cbn [a_pairs set_queue a_transmit a_last_now] in *. rewrite P1, QT in *. split; [|split; [|left; split; [exact X2|congruence]]].
    + intros p IN N. destruct (X1 p IN N) as [(w & W1 & W2 & W3 & _)|[W|W]]; [left; exists w; auto|right; left; exact W|right; right; exists q; split; [exact IQ|exact W]].
    + intros x IN. destruct X4 as [X4|(y & Y1 & Y2)]; [left; congruence|]. rewrite Y1 in IN. apply in_app_or in IN. destruct IN as [IN|[<-|[]]]; [auto|].
      right. left. exists q. split; [exact IQ|exact Y2].
Qed.
Lemma facts_OPollTransmit a  a' : Inv a -> op_fresh OPollTransmit -> (1 <= k_max_retr (a_cfg a))%nat -> step a OPollTransmit = Ok a' -> facts a OPollTransmit a'.
Proof.
  unfold facts. intros I F KM H. cbn [step] in H.
  okinj H. apply incl_facts; flds; [apply incl_refl| |reflexivity]. intros x IN. destruct (a_transmit a); [destruct IN|right; exact IN].
Qed.
Lemma facts_OPollEvent a  a' : Inv a -> op_fresh OPollEvent -> (1 <= k_max_retr (a_cfg a))%nat -> step a OPollEvent = Ok a' -> facts a OPollEvent a'.
Proof.
  unfold facts. intros I F KM H. cbn [step] in H.
  okinj H. apply incl_facts; flds; [apply incl_refl|auto|reflexivity].
Qed.
Lemma facts_OPollTimeout a  a' : Inv a -> op_fresh OPollTimeout -> (1 <= k_max_retr (a_cfg a))%nat -> step a OPollTimeout = Ok a' -> facts a OPollTimeout a'.
Proof.
  unfold facts. intros I F KM H. cbn [step] in H.
  okinj H. unfold poll_timeout. destruct (a_last_now a) as [ln|] eqn:LN; [|apply incl_facts; [apply incl_refl|auto|reflexivity]].
    destruct (a_queue a), (a_transmit a) eqn:TX; try (apply incl_facts; [apply incl_refl|auto|reflexivity]).
    destruct (a_lite a); [apply incl_facts; [apply incl_refl|auto|reflexivity]|]. destruct (deadlines (a_cfg a) ln (a_pairs a)) as [ps ds] eqn:DL. cbn [fst]. split; [|split].
    + intros p IN N. eapply k_cause; [|exact IN|exact N]. flds. replace ps with (fst (deadlines (a_cfg a) ln (a_pairs a))) by (rewrite DL; reflexivity). apply deadlines_k.
    + intros x IN. left. exact IN.
    + right. exists ln. flds. split; [exact LN|]. split; [auto|]. intros b HB. replace ps with (fst (deadlines (a_cfg a) ln (a_pairs a))) by (rewrite DL; reflexivity). apply deadlines_d. exact HB.
Qed.
Lemma step_facts a o a' : Inv a -> op_fresh o -> (1 <= k_max_retr (a_cfg a))%nat -> step a o = Ok a' -> facts a o a'.
Proof. destruct o; eauto using facts_OSetRemote, facts_OAddLocal, facts_OAddRemote, facts_OInvalidate, facts_ORestart, facts_ORecreate, facts_OPacket, facts_OTimeout, facts_OPollTransmit, facts_OPollEvent, facts_OPollTimeout.
Qed.

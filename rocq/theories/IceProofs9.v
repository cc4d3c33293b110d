(** Roles, tie-breakers and transaction ids through every call. *)
From Verif Require Import Base BaseFacts PrioModel PrioSpec PrioProofs PrioProps IceModel IceSpec IceProofs IceProofs2 IceProofs3 IceProofs4 IceProofs5 IceProofs6 IceProofs7 IceProofs8.
From Coq Require Import Sorted Permutation.

(** every attempt was there before, up to its answer *)
Definition ai (ps ps' : list pair) : Prop :=
  forall p b, In p ps' -> In b (p_att p) -> exists p0 b0, In p0 ps /\ In b0 (p_att p0) /\ t_id b0 = t_id b /\ t_ctrl b0 = t_ctrl b.
Lemma ai_refl ps : ai ps ps.
Proof. intros p b P B. exists p, b. auto. Qed.
Lemma ai_trans x y z : ai x y -> ai y z -> ai x z.
Proof. intros H1 H2 p b P B. destruct (H2 p b P B) as (p1 & b1 & P1 & B1 & E1 & E2). destruct (H1 p1 b1 P1 B1) as (p0 & b0 & P0 & B0 & E3 & E4). exists p0, b0. spl; auto; congruence. Qed.
Lemma ai_incl ps ps' : incl ps' ps -> ai ps ps'.
Proof. intros H p b P B. exists p, b. auto. Qed.
Lemma ai_sub ps ps' : (forall p, In p ps' -> p_att p = [] \/ exists p0, In p0 ps /\ p_att p0 = p_att p) -> ai ps ps'.
Proof. intros H p b P B. destruct (H p P) as [E|(p0 & I0 & E)]; [rewrite E in B; destruct B|]. exists p0, b. rewrite E. auto. Qed.
Lemma ai_upd ps i p p' : nth_error ps i = Some p -> p_att p' = p_att p -> ai ps (upd i p' ps).
Proof.
  intros N E. apply ai_sub. intros q Q. apply In_nth_error in Q. destruct Q as [j Q]. rewrite nth_upd in Q.
  destruct (Nat.eqb_spec i j) as [->|NE].
  - rewrite N in Q. cbn in Q. right. exists p. split; [eapply nth_error_In; eauto|]. congruence.
  - right. exists q. split; [eapply nth_error_In; eauto|reflexivity].
Qed.

Definition tr (a a' : agent) : Prop :=
  a_tie a' = a_tie a /\ a_fresh a <= a_fresh a' /\ a_transmit a' = a_transmit a /\ ai (a_pairs a) (a_pairs a').
Lemma tr_refl a : tr a a.
Proof. unfold tr. spl; auto; [lia|apply ai_refl]. Qed.
Lemma tr_trans a b c : tr a b -> tr b c -> tr a c.
Proof. intros (A1 & A2 & A3 & A4) (B1 & B2 & B3 & B4). unfold tr. spl; try congruence; [lia|eapply ai_trans; eauto]. Qed.
Lemma tr_emit a e : tr a (emit_event a e).
Proof. unfold emit_event. destruct e; try (split; [reflexivity|split; [cbn; lia|split; [reflexivity|apply ai_refl]]]). destruct (disc_mem _ _ _); [apply tr_refl|]. split; [reflexivity|split; [cbn; lia|split; [reflexivity|apply ai_refl]]]. Qed.
Lemma tr_conn a c : tr a (set_conn a c).
Proof. unfold set_conn. destruct (conn_eqb _ _); [apply tr_refl|]. eapply tr_trans; [|apply tr_emit]. split; [reflexivity|split; [cbn; lia|split; [reflexivity|apply ai_refl]]]. Qed.
Lemma tr_state a now : tr a (evaluate_state a now).
Proof.
  unfold evaluate_state. cbn zeta. destruct (a_state a), (any_nominated (a_pairs a)), (any_possible a now), (a_lite a);
    cbn [negb andb]; try apply tr_conn; apply tr_refl.
Qed.
Lemma tr_pairs a ps : ai (a_pairs a) ps -> tr a (set_pairs a ps).
Proof. intro H. split; [reflexivity|split; [cbn; lia|split; [reflexivity|exact H]]]. Qed.
Lemma tr_evalnom a a' : evaluate_nomination a = Ok a' -> tr a a'.
Proof.
  intro H. apply evalnom_shape in H. destruct H as [->|(i & b & b' & l & r & N & _ & _ & _ & Q & _ & _ & ->)]; [apply tr_refl|].
  eapply tr_trans; [|apply tr_emit]. split; [reflexivity|split; [cbn; lia|split; [reflexivity|]]]. flds. eapply ai_upd; [exact N|]. destruct Q as [[-> _]|(_ & _ & ->)]; reflexivity.
Qed.
Lemma copy_nom_att p c : p_att (copy_nom p c) = p_att p.
Proof. unfold copy_nom. destruct (p_nom c); reflexivity. Qed.
Lemma tr_form_pair a l r a' : form_pair a l r = Ok a' -> tr a a'.
Proof.
  unfold form_pair. intro H. bok H x EL. bok H y ER. destruct (negb _); [okinj H; apply tr_refl|].
  bok H rp EP1. bok H lp EP2. bok H pr EP3. cbn zeta in H. bok H f EF. destruct f as [[i c]|].
  - destruct (_ <=? _); okinj H; [split; [reflexivity|split; [cbn; lia|split; [reflexivity|apply ai_refl]]]|].
    split; [reflexivity|split; [cbn; lia|split; [reflexivity|]]]. flds. apply ai_sub. intros q Q. apply In_nth_error in Q. destruct Q as [j Q]. rewrite nth_upd in Q.
    destruct (Nat.eqb i j); [|right; exists q; split; [eapply nth_error_In; eauto|reflexivity]].
    destruct (nth_error (a_pairs a) j); cbn in Q; [|discriminate]. left. match type of Q with Some ?z = Some _ => assert (q = z) as -> by congruence end.
    destruct (a_lite a); cbn [set_rbr p_att]; rewrite copy_nom_att; reflexivity.
  - okinj H. split; [reflexivity|split; [cbn; lia|split; [reflexivity|]]]. flds. apply ai_sub. intros q Q. apply in_app_or in Q. destruct Q as [Q|[<-|[]]]; [right; eauto|left; reflexivity].
Qed.
Lemma tr_form_all lr : forall a a', form_all a lr = Ok a' -> tr a a'.
Proof.
  induction lr as [|[l r] t IH]; intros a a' H; cbn [form_all] in H; [okinj H; apply tr_refl|].
  bok H a1 E. eapply tr_trans; [eapply tr_form_pair; eauto|eauto].
Qed.
Lemma tr_form_pairs a ls rs a' : form_pairs a ls rs = Ok a' -> tr a a'.
Proof.
  unfold form_pairs. intro H. bok H u E1. bok H a1 E2. okinj H. apply tr_form_all in E2. eapply tr_trans; [exact E2|apply tr_pairs, ai_incl].
  intros p P. eapply Permutation_in; [apply IceProofs.sort_perm|]. rewrite <- (firstn_skipn (k_max_pairs (a_cfg a1)) (sort_pairs (a_pairs a1))). apply in_or_app. left. exact P.
Qed.
Lemma reprio_att a ps : forall ps', reprio a ps = Ok ps' -> ai ps ps'.
Proof.
  induction ps as [|p t IH]; intros ps' H; cbn [reprio] in H; [okinj H; apply ai_refl|].
  bok H l E1. bok H r E2. bok H lp E3. bok H rp E4. bok H pr E5. bok H t1 E6. okinj H.
  intros q b [<-|Q] B.
  - exists p, b. cbn [In set_prio p_att] in *. auto.
  - destruct (IH t1 eq_refl q b Q B) as (p0 & b0 & P0 & X). exists p0, b0. split; [right; exact P0|exact X].
Qed.
Lemma tr_switch a c a' : switch_role a c = Ok a' -> tr a a' /\ a_ctrl a' = c.
Proof.
  unfold switch_role. intro H. destruct (Bool.eqb _ _) eqn:B; [okinj H; split; [apply tr_refl|apply Bool.eqb_prop; exact B]|]. cbn zeta in H. bok H ps E. okinj H. split; [|reflexivity].
  split; [reflexivity|split; [cbn; lia|split; [reflexivity|]]]. flds. apply reprio_att in E. eapply ai_trans; [exact E|]. apply ai_incl. intros p P.
  eapply Permutation_in; [apply IceProofs.sort_perm|exact P].
Qed.
Lemma ctrl_evalnom a a' : evaluate_nomination a = Ok a' -> a_ctrl a' = a_ctrl a.
Proof. intro H. apply evalnom_kc in H. apply H. Qed.
Lemma tr_request_pair a l r a' : request_pair a l r = Ok (Some a') -> tr a a' /\ a_ctrl a' = a_ctrl a.
Proof.
  unfold request_pair. intro H. destruct (position _ _).
  - assert (a' = a) as -> by congruence. split; [apply tr_refl|reflexivity].
  - bok H x EL. bok H y ER. destruct (i_disc x); [discriminate|]. bok H rp E1. bok H lp E2. bok H pr E3.
    assert (a' = set_fresh (set_pairs a (sort_pairs (a_pairs a ++ [new_pair (a_fresh a) l r pr]))) (a_fresh a + 1)) as -> by congruence. split; [|reflexivity].
    split; [reflexivity|split; [cbn; lia|split; [reflexivity|]]]. flds. apply ai_sub. intros p P. eapply Permutation_in in P; [|apply IceProofs.sort_perm].
    apply in_app_or in P. destruct P as [P|[<-|[]]]; [right; eauto|left; reflexivity].
Qed.

(** A call that handles a request: at most one reply is added. *)
Definition tq (a a' : agent) (q : request) : Prop :=
  a_tie a' = a_tie a /\ a_fresh a <= a_fresh a' /\ ai (a_pairs a) (a_pairs a') /\
  ((a_ctrl a' = a_ctrl a /\ (forall x, In x (a_transmit a') -> In x (a_transmit a) \/ (exists p s d m, x = XReply p s d (q_tid q) m)))
   \/ (exists peer, same_role q (a_ctrl a) peer /\ peer <= a_tie a /\ a_ctrl a' = a_ctrl a /\
        forall x, In x (a_transmit a') -> In x (a_transmit a) \/ x = XConflict (q_proto q) (q_dst q) (q_src q) (q_tid q))
   \/ (exists peer, same_role q (a_ctrl a) peer /\ a_tie a < peer /\ a_ctrl a' = negb (a_ctrl a) /\
        forall x, In x (a_transmit a') -> In x (a_transmit a) \/ (exists p s d m, x = XReply p s d (q_tid q) m))).
Lemma tr_reply a a' q : tr a a' -> a_ctrl a' = a_ctrl a -> tq a a' q.
Proof. intros (A1 & A2 & A3 & A4) C. unfold tq. spl; auto. left. split; [exact C|]. intros x X. rewrite A3 in X. auto. Qed.
Lemma at_tq a q li a' : handle_request_at a q li = Ok a' -> a_tie a' = a_tie a /\ a_fresh a <= a_fresh a' /\ ai (a_pairs a) (a_pairs a') /\ a_ctrl a' = a_ctrl a /\
  (forall x, In x (a_transmit a') -> In x (a_transmit a) \/ (exists p s d m, x = XReply p s d (q_tid q) m)).
Proof.
  intro H. assert (RF : a_tie a = a_tie a /\ a_fresh a <= a_fresh a /\ ai (a_pairs a) (a_pairs a) /\ a_ctrl a = a_ctrl a /\
    (forall x, In x (a_transmit a) -> In x (a_transmit a) \/ (exists p s d m, x = XReply p s d (q_tid q) m))).
  { spl; auto; [lia|apply ai_refl]. }
  unfold handle_request_at in H. destruct (_ && _); [okinj H; exact RF|]. bok H rr RR. destruct rr as [[b1 ri]|]; [|okinj H; exact RF].
  assert (E1 : tr a b1 /\ a_ctrl b1 = a_ctrl a).
  { unfold request_remote in RR. cbn zeta in RR. bok RR f E. destruct f as [[i z]|]; [assert (b1 = a) as -> by congruence; split; [apply tr_refl|reflexivity]|]. destruct (existsb _ _); [discriminate|].
    match type of RR with Ok (Some (?x, _)) = _ => assert (b1 = x) as -> by congruence end. split; [|reflexivity]. split; [reflexivity|split; [cbn; lia|split; [reflexivity|apply ai_refl]]]. }
  destruct E1 as [E1 C1]. bok H rp RP. destruct rp as [b2|].
  2:{ okinj H. destruct E1 as (X1 & X2 & X3 & X4). spl; auto. intros x X. rewrite X3 in X. auto. }
  destruct (tr_request_pair _ _ _ _ RP) as [E2 C2]. pose proof (tr_trans _ _ _ E1 E2) as (X1 & X2 & X3 & X4).
  unfold request_finish in H. destruct (position _ _) as [i|]; [|discriminate]. bok H p P1. bok H l P2. bok H r P3. cbn zeta in H. bok H p1 P4. bok H b3 P5. okinj H. flds.
  apply get_ok in P1.
  assert (E3 : tr b2 (set_pairs b2 (upd i p1 (a_pairs b2)))).
  { apply tr_pairs. eapply ai_upd; [exact P1|]. match type of P4 with (if ?c then _ else _) = _ => destruct c end; [apply nominate_ok in P4; destruct P4 as [_ ->]; reflexivity|]. okinj P4. reflexivity. }
  assert (E4 : tr b2 b3 /\ a_ctrl b3 = a_ctrl b2).
  { match type of P5 with (if ?c then _ else _) = _ => destruct c end; [|okinj P5; split; [exact E3|reflexivity]].
    split; [eapply tr_trans; [exact E3|apply tr_evalnom; exact P5]|]. apply ctrl_evalnom in P5. rewrite P5. reflexivity. }
  destruct E4 as [(Y1 & Y2 & Y3 & Y4) C4]. spl; try congruence; [lia|eapply ai_trans; eauto|].
  intros x X. apply in_app_or in X. destruct X as [X|[<-|[]]]; [left; congruence|right; eauto].
Qed.
Lemma request_tq a q a' : handle_request a q = Ok a' -> tq a a' q.
Proof.
  intro H. unfold handle_request in H. destruct (a_rufrag a); [|discriminate]. destruct (negb _); [okinj H; apply tr_reply; [apply tr_refl|reflexivity]|].
  destruct (position _ _) as [li|]; [|okinj H; apply tr_reply; [apply tr_refl|reflexivity]]. destruct (conflict q (a_ctrl a)) as [peer|] eqn:CF.
  - assert (SR : same_role q (a_ctrl a) peer) by exact CF. destruct (Z.leb_spec peer (a_tie a)).
    + okinj H. unfold tq. flds. spl; auto; [lia|apply ai_refl|]. right. left. exists peer. spl; auto. intros x X. apply in_app_or in X. destruct X as [X|[<-|[]]]; auto.
    + bok H a1 E. apply tr_switch in E. destruct E as [(E1 & E2 & E3 & E4) EC]. destruct (at_tq _ _ _ _ H) as (Q1 & Q2 & Q3 & Q4 & Q5).
      unfold tq. spl; try congruence; [lia|eapply ai_trans; eauto|]. right. right. exists peer. spl; auto; try congruence. rewrite <- E3. exact Q5.
  - destruct (at_tq _ _ _ _ H) as (Q1 & Q2 & Q3 & Q4 & Q5). unfold tq. spl; auto.
Qed.

Record track (a : agent) (o : op) (a' : agent) : Prop := mkTrack {
  k_tie : a_tie a' = a_tie a;
  k_fresh : a_fresh a <= a_fresh a';
  k_att : forall p b, In p (a_pairs a') -> In b (p_att p) ->
    (exists p0 b0, In p0 (a_pairs a) /\ In b0 (p_att p0) /\ t_id b0 = t_id b /\ t_ctrl b0 = t_ctrl b)
    \/ exists pp s d pr u, In (XRequest pp s d (t_id b) (t_ctrl b) (a_tie a) pr u) (a_transmit a');
  k_req : forall pp s d tid c tie pr u, In (XRequest pp s d tid c tie pr u) (a_transmit a') ->
    In (XRequest pp s d tid c tie pr u) (a_transmit a) \/ (a_fresh a <= tid < a_fresh a' /\ c = a_ctrl a' /\ tie = a_tie a);
  k_conf : forall pp s d tid, In (XConflict pp s d tid) (a_transmit a') ->
    In (XConflict pp s d tid) (a_transmit a) \/ exists q peer, requested a o q /\ tid = q_tid q /\ same_role q (a_ctrl a) peer /\ peer <= a_tie a /\ a_ctrl a' = a_ctrl a;
  k_role : a_ctrl a' = a_ctrl a \/ a_ctrl a' = negb (a_ctrl a) /\
    ((exists q peer, requested a o q /\ same_role q (a_ctrl a) peer /\ a_tie a < peer) \/ told_to_switch a o);
  k_queue : forall q, In q (a_queue a') -> In q (a_queue a) \/ requested a o q }.

Lemma tr_track a a' o : tr a a' -> a_ctrl a' = a_ctrl a -> incl (a_queue a') (a_queue a) -> track a o a'.
Proof.
  intros (A1 & A2 & A3 & A4) C Q. constructor; auto.
  - intros p b P B. left. apply (A4 p b P B).
  - intros. left. congruence.
  - intros. left. congruence.
Qed.
Lemma tq_track a a' o q : tq a a' q -> requested a o q -> (forall q, In q (a_queue a') -> In q (a_queue a) \/ requested a o q) -> track a o a'.
Proof.
  intros (A1 & A2 & A3 & A4) R Q. constructor; auto.
  - intros p b P B. left. apply (A3 p b P B).
  - intros pp s d tid c tie pr u X. left. destruct A4 as [[_ A4]|[(peer & _ & _ & _ & A4)|(peer & _ & _ & _ & A4)]]; destruct (A4 _ X) as [Y|Y]; auto; try (destruct Y as (? & ? & ? & ? & Y)); discriminate.
  - intros pp s d tid X. destruct A4 as [[_ A4]|[(peer & P1 & P2 & P3 & A4)|(peer & _ & _ & _ & A4)]]; destruct (A4 _ X) as [Y|Y]; auto; try (destruct Y as (? & ? & ? & ? & Y); discriminate).
    right. exists q, peer. spl; auto. congruence.
  - destruct A4 as [[A4 _]|[(peer & P1 & P2 & P3 & A4)|(peer & P1 & P2 & P3 & A4)]]; auto. right. split; [exact P3|]. left. eauto.
Qed.
Lemma incl_lastn {A} n (l : list A) : incl (lastn n l) l.
Proof. intros x. apply lastn_In. Qed.
Lemma tr_response a now tid m a' : handle_response a now tid m = Ok a' -> tr a a' /\ a_ctrl a' = a_ctrl a /\ a_queue a' = a_queue a.
Proof.
  unfold handle_response. intro E. destruct (position _ _) as [i|]; [|okinj E; split; [apply tr_refl|auto]]. bok E p P. bok E a2 A2. bok E p' P'. cbn zeta in E. bok E a3 A3. okinj E.
  assert (C2 : tr a a2 /\ a_ctrl a2 = a_ctrl a /\ a_queue a2 = a_queue a /\ a_pairs a2 = a_pairs a).
  { destruct (position _ _); [okinj A2; split; [apply tr_refl|auto]|]. bok A2 l L. bok A2 pr PRR. okinj A2. split; [|auto]. split; [reflexivity|split; [cbn; lia|split; [reflexivity|apply ai_refl]]]. }
  destruct C2 as (C2 & C3 & C4 & C5). apply get_ok in P. rewrite <- C5 in P.
  assert (C6 : tr a2 (set_pairs a2 (upd i p' (a_pairs a2)))).
  { apply tr_pairs. unfold record_response in P'. destruct (answer _ _ _) as [[att x]|] eqn:AN; [|discriminate]. okinj P'.
    intros q b Q B. apply In_nth_error in Q. destruct Q as [j Q]. rewrite nth_upd in Q. destruct (Nat.eqb_spec i j) as [EJ|NE]; [subst j|].
    - rewrite P in Q. cbn [option_map] in Q. match type of Q with Some ?z = Some _ => assert (q = z) as -> by congruence end. cbn [p_att] in B.
      exists p. assert (XX : exists b0, In b0 (p_att p) /\ t_id b0 = t_id b /\ t_ctrl b0 = t_ctrl b).
      { clear - AN B. revert att AN B. induction (p_att p) as [|y t IH]; cbn [answer]; intros att AN B; [discriminate|]. destruct (t_id y =? tid).
        - assert (att = mkAtt (t_id y) (t_sent y) (Some now) (t_nom y) (t_ctrl y) :: t) as -> by congruence. destruct B as [<-|B]; [exists y; cbn; auto|exists b; cbn; auto].
        - destruct (answer t tid now) as [[t' z]|] eqn:AT; [|discriminate]. assert (att = y :: t') as -> by congruence. assert (z = x) as -> by congruence.
          destruct B as [<-|B]; [exists y; cbn; auto|]. destruct (IH t' eq_refl B) as (b0 & B0 & B1). exists b0. split; [right; exact B0|exact B1]. }
      destruct XX as (b0 & X1 & X2 & X3). exists b0. spl; auto. eapply nth_error_In; eauto.
    - exists q, b. spl; auto. eapply nth_error_In; eauto. }
  assert (C7 : tr a2 a3 /\ a_ctrl a3 = a_ctrl a2 /\ a_queue a3 = a_queue a2).
  { match type of A3 with (if ?c then _ else _) = _ => destruct c end; [|okinj A3; auto].
    spl; [eapply tr_trans; [exact C6|apply tr_evalnom; exact A3]|rewrite (ctrl_evalnom _ _ A3); reflexivity|].
    apply env_evalnom in A3. destruct A3 as (_ & _ & _ & _ & _ & _ & _ & A3). rewrite A3. reflexivity. }
  destruct C7 as (C7 & C8 & C9). spl.
  - eapply tr_trans; [exact C2|]. eapply tr_trans; [exact C7|apply tr_state].
  - rewrite ctrl_state. congruence.
  - pose proof (env_state a3 now) as (_ & _ & _ & _ & _ & _ & _ & ->). congruence.
Qed.
Lemma checks_track a now a' : timeout_checks a now = Ok a' -> track a (OTimeout now) a'.
Proof.
  intro H. unfold timeout_checks in H. cbn zeta in H. bok H a1 E1. bok H a2 E2.
  assert (T1 : tr a a1 /\ a_ctrl a1 = a_ctrl a /\ a_queue a1 = a_queue a).
  { spl; [eapply tr_trans; [|apply tr_evalnom; exact E1]; split; [reflexivity|split; [cbn; lia|split; [reflexivity|apply ai_refl]]]|rewrite (ctrl_evalnom _ _ E1); reflexivity|].
    apply env_evalnom in E1. destruct E1 as (_ & _ & _ & _ & _ & _ & _ & ->). reflexivity. }
  assert (TF : tr a1 (set_pairs a1 (filter (keep a1 now) (a_pairs a1)))) by (apply tr_pairs, ai_incl, incl_filter).
  assert (T2 : tr a1 a2 /\ a_ctrl a2 = a_ctrl a1 /\ a_queue a2 = a_queue a1).
  { match type of E2 with (if ?c then _ else _) = _ => destruct c end; [|okinj E2; auto].
    bok E2 a3 E3. okinj E2. spl.
    - eapply tr_trans; [exact TF|]. eapply tr_trans; [apply tr_evalnom; exact E3|apply tr_state].
    - rewrite ctrl_state. rewrite (ctrl_evalnom _ _ E3). reflexivity.
    - pose proof (env_state a3 now) as (_ & _ & _ & _ & _ & _ & _ & ->). apply env_evalnom in E3. destruct E3 as (_ & _ & _ & _ & _ & _ & _ & ->). reflexivity. }
  destruct T1 as (T1 & C1 & Q1), T2 as (T2 & C2 & Q2). pose proof (tr_trans _ _ _ T1 T2) as T3. assert (C3 : a_ctrl a2 = a_ctrl a) by congruence. assert (Q3 : a_queue a2 = a_queue a) by congruence.
  clear T1 T2 C1 C2 Q1 Q2 E1 E2 TF. destruct (a_rufrag a2); [|okinj H; apply tr_track; auto; rewrite Q3; apply incl_refl].
  destruct (a_lite a2).
  { okinj H. apply tr_track; auto; [|flds; rewrite Q3; apply incl_refl]. eapply tr_trans; [exact T3|]. apply tr_pairs. apply ai_sub. intros p P. right. apply in_map_iff in P. destruct P as (q & <- & Q).
    exists q. split; [exact Q|]. destruct (p_rbr q); reflexivity. }
  destruct (deadlines _ _ _) as [ps ds] eqn:DL.
  assert (T4 : tr a2 (set_pairs a2 ps)).
  { apply tr_pairs. apply ai_sub. intros p P. right. assert (ps = map (fun p => fst (next_attempt (a_cfg a2) p now)) (a_pairs a2)) as -> by (unfold deadlines in DL; congruence).
    apply in_map_iff in P. destruct P as (q & <- & Q). exists q. split; [exact Q|]. unfold next_attempt. destruct (p_cached q); reflexivity. }
  pose proof (tr_trans _ _ _ T3 T4) as T5. set (a4 := set_pairs a2 ps) in *. assert (C4 : a_ctrl a4 = a_ctrl a) by exact C3. assert (Q4 : a_queue a4 = a_queue a) by exact Q3. clearbody a4.
  destruct (min_from ds O None) as [[i d]|]; [|okinj H; apply tr_track; auto; rewrite Q4; apply incl_refl].
  destruct (d <=? now); [|okinj H; apply tr_track; auto; rewrite Q4; apply incl_refl].
  unfold binding_request in H. destruct (a_rufrag a4); [|discriminate]. bok H p P1. bok H l P2. bok H r P3. bok H pr P4. cbn zeta in H. bok H p1 P5. okinj H.
  apply get_ok in P1. destruct T5 as (F1 & F2 & F3 & F4). constructor; flds.
  - exact F1.
  - lia.
  - intros q b Q B. apply In_nth_error in Q. destruct Q as [j Q]. rewrite nth_upd in Q. destruct (Nat.eqb_spec i j) as [EJ|NE]; [subst j|].
    + rewrite P1 in Q. cbn [option_map] in Q. assert (q = p1) as -> by congruence. unfold new_attempt in P5. cbn zeta in P5.
      destruct (skipn _ _) as [|y t] eqn:SK; [discriminate|]. match type of P5 with Ok ?z = _ => assert (p1 = z) as -> by congruence end. cbn [p_att] in B. rewrite <- SK in B.
      apply skipn_incl in B. apply in_app_or in B. destruct B as [B|[<-|[]]].
      * left. apply (F4 p b); [eapply nth_error_In; eauto|exact B].
      * right. cbn [t_id t_ctrl]. exists (i_proto l), (base l), (i_addr r), pr, (a_ctrl a4 && is_nominated p). rewrite F1. apply in_or_app. right. left. reflexivity.
    + left. apply (F4 q b); [eapply nth_error_In; eauto|exact B].
  - intros pp s d0 tid c tie pr0 u X. apply in_app_or in X. destruct X as [X|[X|[]]]; [left; congruence|right].
    match type of X with XRequest _ _ _ ?t ?c0 ?ti _ _ = _ => assert (tid = t /\ c = c0 /\ tie = ti) as (-> & -> & ->) by (repeat split; congruence) end. split; [lia|]. split; [reflexivity|]. rewrite F1. reflexivity.
  - intros pp s d0 tid X. left. apply in_app_or in X. destruct X as [X|[X|[]]]; [congruence|discriminate].
  - left. exact C4.
  - intros q Q. left. congruence.
Qed.

Lemma track_tr a b o a' : tr a b -> a_ctrl b = a_ctrl a -> incl (a_queue b) (a_queue a) -> track b o a' ->
  (forall q, requested b o q -> requested a o q) -> (told_to_switch b o -> False) -> track a o a'.
Proof.
  intros (T1 & T2 & T3 & T4) C Q [K1 K2 K3 K4 K5 K6 K7] R NT. constructor.
  - congruence.
  - lia.
  - intros p x P X. destruct (K3 p x P X) as [(p0 & b0 & P0 & B0 & E1 & E2)|Y].
    + left. destruct (T4 p0 b0 P0 B0) as (p2 & b2 & P2 & B2 & E3 & E4). exists p2, b2. spl; auto; congruence.
    + right. rewrite <- T1. exact Y.
  - intros pp s d tid c tie pr u X. destruct (K4 _ _ _ _ _ _ _ _ X) as [Y|(Y1 & Y2 & Y3)]; [left; congruence|right]. spl; auto; [lia|lia|congruence].
  - intros pp s d tid X. destruct (K5 _ _ _ _ X) as [Y|(q & peer & Y1 & Y2 & Y3 & Y4 & Y5)]; [left; congruence|right]. exists q, peer. rewrite C in *. spl; auto; congruence.
  - rewrite <- C, <- T1. destruct K6 as [Y|[Y [(q & peer & Y1 & Y2 & Y3)|Y1]]]; [auto| |contradiction]. right. split; [exact Y|]. left. exists q, peer. auto.
  - intros q X. destruct (K7 q X) as [Y|Y]; auto.
Qed.

Lemma form_pair_ctrl a l r a' : form_pair a l r = Ok a' -> a_ctrl a' = a_ctrl a.
Proof. intro H. apply form_pair_quiet in H. apply H. Qed.
Lemma form_all_ctrl lr : forall a a', form_all a lr = Ok a' -> a_ctrl a' = a_ctrl a.
Proof. induction lr as [|[l r] t IH]; intros a a' H; cbn [form_all] in H; [okinj H; reflexivity|]. bok H a1 E. rewrite (IH _ _ H). eapply form_pair_ctrl; eauto. Qed.
Lemma form_pairs_ctrl a ls rs a' : form_pairs a ls rs = Ok a' -> a_ctrl a' = a_ctrl a.
Proof. unfold form_pairs. intro H. bok H u E1. bok H a1 E2. okinj H. flds. eapply form_all_ctrl; eauto. Qed.
Lemma queue_request a q a' : handle_request a q = Ok a' -> a_queue a' = a_queue a.
Proof.
  assert (AT : forall b li b', handle_request_at b q li = Ok b' -> a_queue b' = a_queue b).
  { intros b li b' H. unfold handle_request_at in H. destruct (_ && _); [okinj H; reflexivity|]. bok H rr RR. destruct rr as [[b1 ri]|]; [|okinj H; reflexivity].
    assert (E1 : a_queue b1 = a_queue b).
    { unfold request_remote in RR. cbn zeta in RR. bok RR f E. destruct f as [[i z]|]; [congruence|]. destruct (existsb _ _); [discriminate|].
      match type of RR with Ok (Some (?x, _)) = _ => assert (b1 = x) as -> by congruence end. reflexivity. }
    bok H rp RP. destruct rp as [b2|]; [|okinj H; exact E1].
    pose proof (env_finish _ _ _ _ _ H) as (_ & _ & _ & _ & _ & _ & _ & ->). pose proof (env_request_pair _ _ _ _ RP) as (_ & _ & _ & _ & _ & _ & _ & ->). exact E1. }
  intro H. unfold handle_request in H. destruct (a_rufrag a); [|discriminate]. destruct (negb _); [okinj H; reflexivity|].
  destruct (position _ _) as [li|]; [|okinj H; reflexivity]. destruct (conflict _ _).
  - destruct (_ <=? _); [okinj H; reflexivity|]. bok H a1 E. rewrite (AT _ _ _ H). pose proof (env_switch _ _ _ E) as (_ & _ & _ & _ & _ & _ & _ & ->). reflexivity.
  - apply (AT _ _ _ H).
Qed.
Lemma tr_tq a b a' q : tr a b -> a_ctrl b = a_ctrl a -> tq b a' q -> tq a a' q.
Proof.
  intros (T1 & T2 & T3 & T4) C (Q1 & Q2 & Q3 & Q4). unfold tq. rewrite T1, T3, C in *. spl; auto; [lia|eapply ai_trans; eauto].
Qed.
Lemma step_track a o a' : step a o = Ok a' -> track a o a'.
Proof.
  intro H. destruct o; cbn [step] in H.
  - okinj H. apply tr_track; [|reflexivity|apply incl_refl]. split; [reflexivity|split; [cbn; lia|split; [reflexivity|apply ai_refl]]].
  - unfold add_local in H. destruct (_ && _); [okinj H; apply tr_track; [apply tr_refl|reflexivity|apply incl_refl]|]. bok H p E1. cbn zeta in H. bok H pl E2. destruct pl as [[a1 i]|]; [|okinj H; apply tr_track; [apply tr_refl|reflexivity|apply incl_refl]].
    assert (X : tr a a1 /\ a_ctrl a1 = a_ctrl a /\ a_queue a1 = a_queue a).
    { unfold place_local in E2. cbn zeta in E2. destruct (position _ _).
      + bok E2 x X. match type of E2 with (if ?c then _ else _) = _ => destruct c end.
        * match type of E2 with Ok (Some (?y, _)) = _ => assert (a1 = y) as -> by congruence end. spl; try reflexivity; try apply ai_refl; try (cbn; lia). apply tr_pairs with (a := a) (ps := a_pairs a), ai_refl.
        * bok E2 cp C1. bok E2 q Q1. destruct (_ <? _); [discriminate|].
          match type of E2 with Ok (Some (?y, _)) = _ => assert (a1 = y) as -> by congruence end. unfold discard_local. spl; try reflexivity; try (cbn; lia).
          split; [reflexivity|split; [cbn; lia|split; [reflexivity|]]]. flds. apply ai_incl, incl_filter.
      + match type of E2 with Ok (Some (?y, _)) = _ => assert (a1 = y) as -> by congruence end. spl; try reflexivity; try apply ai_refl; try (cbn; lia). split; [reflexivity|split; [cbn; lia|split; [reflexivity|apply ai_refl]]]. }
    destruct X as (X1 & X2 & X3). pose proof (env_form_pairs _ _ _ _ H) as (_ & _ & _ & _ & _ & _ & _ & EQ). pose proof (form_pairs_ctrl _ _ _ _ H) as EC.
    apply tr_track; [eapply tr_trans; [exact X1|eapply tr_form_pairs; eauto]|congruence|rewrite EQ, X3; apply incl_refl].
  - unfold add_remote in H. destruct (negb _); [okinj H; apply tr_track; [apply tr_refl|reflexivity|apply incl_refl]|]. match type of H with (if ?c then _ else _) = _ => destruct c end; [okinj H; apply tr_track; [apply tr_refl|reflexivity|apply incl_refl]|].
    cbn zeta in H. bok H x X. bok H e1 EX. destruct e1; [|okinj H; apply tr_track; [apply tr_refl|reflexivity|apply incl_refl]]. bok H y Y. destruct y as [a1 i].
    destruct (place_remote_facts _ _ _ _ _ Y) as (PE & [QT _] & CE).
    assert (XX : a_tie a1 = a_tie a /\ a_fresh a1 = a_fresh a /\ a_queue a1 = a_queue a).
    { unfold place_remote in Y. cbn zeta in Y. destruct (position _ _).
      + match type of Y with Ok (?z, _) = _ => assert (a1 = z) as -> by congruence end. auto.
      + destruct o as [j|].
        * bok Y w W. destruct (i_disc w); match type of Y with Ok (?z, _) = _ => assert (a1 = z) as -> by congruence end; auto.
        * match type of Y with Ok (?z, _) = _ => assert (a1 = z) as -> by congruence end. auto. }
    destruct XX as (X1 & X2 & X3). pose proof (env_form_pairs _ _ _ _ H) as (_ & _ & _ & _ & _ & _ & _ & EQ). pose proof (form_pairs_ctrl _ _ _ _ H) as EC.
    apply tr_track; [eapply tr_trans; [|eapply tr_form_pairs; eauto]; split; [exact X1|split; [lia|split; [exact QT|rewrite PE; apply ai_refl]]]|congruence|rewrite EQ, X3; apply incl_refl].
  - bok H x X. destruct x as [a1 b]. okinj H.
    assert (R : forall a1 b, invalidate_remote a c = Ok (a1, b) -> track a (OInvalidate c) a1).
    { intros a2 b2 Q. unfold invalidate_remote in Q. destruct (position _ _); [|assert (a2 = a) as -> by congruence; apply tr_track; [apply tr_refl|reflexivity|apply incl_refl]]. bok Q o0 OO.
      destruct (negb _); [|assert (a2 = a) as -> by congruence; apply tr_track; [apply tr_refl|reflexivity|apply incl_refl]].
      match type of Q with Ok (?z, _) = _ => assert (a2 = z) as -> by congruence end. apply tr_track; [|reflexivity|apply incl_refl]. unfold discard_remote.
      split; [reflexivity|split; [cbn; lia|split; [reflexivity|]]]. flds. apply ai_incl, incl_filter. }
    unfold invalidate in X. destruct (position _ _); [|eauto]. bok X o0 OO. destruct (negb _); [|eauto].
    match type of X with Ok (?z, _) = _ => assert (a1 = z) as -> by congruence end. apply tr_track; [|reflexivity|apply incl_refl]. unfold discard_local.
    split; [reflexivity|split; [cbn; lia|split; [reflexivity|]]]. flds. apply ai_incl, incl_filter.
  - okinj H. destruct (restart_shape a ufrag keep) as (R1 & R2 & _).
    assert (RE : a_tie (ice_restart a ufrag keep) = a_tie a /\ a_fresh (ice_restart a ufrag keep) = a_fresh a /\ a_ctrl (ice_restart a ufrag keep) = a_ctrl a /\ a_queue (ice_restart a ufrag keep) = a_queue a).
    { unfold ice_restart. cbn zeta. rewrite ctrl_conn. destruct (env_conn (emit_event (set_locals (set_disc_recv (set_events (set_transmit (set_pairs (set_remotes (set_creds a ufrag None) []) []) []) []) []) (if keep then map (fun c => set_ufrag c (Some ufrag)) (a_locals a) else [])) (EvRestart ufrag)) Checking) as (_ & _ & E1 & _ & _ & _ & _ & E2).
      flds. unfold set_conn. match goal with |- context[if ?c then _ else _] => destruct c end; auto. }
    destruct RE as (E1 & E2 & E3 & E4). constructor; auto; try lia.
    + intros p b P. rewrite R1 in P. destruct P.
    + intros. rewrite R2 in *. contradiction.
    + intros. rewrite R2 in *. contradiction.
    + intros q Q. left. rewrite E4 in Q. exact Q.
  - unfold recreate in H. cbn zeta in H. bok H a1 E. okinj H.
    pose proof (env_form_pairs _ _ _ _ E) as (_ & _ & _ & _ & _ & _ & _ & EQ). pose proof (form_pairs_ctrl _ _ _ _ E) as EC.
    apply tr_track.
    + eapply tr_trans; [|apply tr_conn]. eapply tr_trans; [|eapply tr_form_pairs; exact E]. apply tr_pairs. intros p b [].
    + rewrite ctrl_conn, EC. reflexivity.
    + pose proof (env_conn a1 Checking) as (_ & _ & _ & _ & _ & _ & _ & ->). rewrite EQ. apply incl_refl.
  - unfold handle_packet in H. bok H b B. destruct (negb b) eqn:NB; [okinj H; apply tr_track; [apply tr_refl|reflexivity|apply incl_refl]|]. bok H a1 E. okinj H.
    assert (K : track a (OPacket now proto src m) a1).
    { destruct m.
      + unfold server_message in E. destruct (a_rufrag a) eqn:RU.
        * eapply tq_track; [eapply request_tq; eauto|reflexivity|]. intros q0 Q0. left.
          assert (QQ : a_queue a1 = a_queue a) by (eapply queue_request; eauto). congruence.
        * okinj E. constructor; flds; auto; try lia. { intros p b0 P0 B0. left. exists p, b0. spl; auto. } intros q0 Q0. apply lastn_In in Q0. apply in_app_or in Q0. destruct Q0 as [Q0|[<-|[]]]; [auto|right; reflexivity].
      + destruct (tr_response _ _ _ _ _ E) as (T & C & Q). apply tr_track; auto. rewrite Q. apply incl_refl.
      + unfold handle_error in E. destruct code as [z|]; [|okinj E; apply tr_track; [apply tr_refl|reflexivity|apply incl_refl]].
        destruct (negb (z =? 487)) eqn:Z487; [okinj E; apply tr_track; [apply tr_refl|reflexivity|apply incl_refl]|].
        destruct (find_attempt _ _) as [b0|] eqn:FA; [|okinj E; apply tr_track; [apply tr_refl|reflexivity|apply incl_refl]].
        destruct (negb (Bool.eqb _ _)) eqn:EB; [okinj E; apply tr_track; [apply tr_refl|reflexivity|apply incl_refl]|].
        pose proof (env_switch _ _ _ E) as (_ & _ & _ & _ & _ & _ & _ & EQ). apply tr_switch in E. destruct E as [(T1 & T2 & T3 & T4) TC].
        constructor; auto.
        * intros p b1 P1 B1. left. eapply T4; eauto.
        * intros. left. congruence.
        * intros. left. congruence.
        * right. split; [exact TC|]. right. assert (z = 487) as -> by lia. apply find_attempt_some in FA. destruct FA as (p & FP & FB & FT).
          assert (m_ok = true) as ->. { cbn [accepts] in B. destruct (negb _); [assert (b = false) by congruence; subst b; discriminate|]. destruct (a_rufrag a); [|discriminate]. destruct m_ok; [reflexivity|]. assert (b = false) by congruence. subst b. discriminate. }
          exists now, proto, src, tid, p, b0. spl; auto. apply Bool.eqb_prop. destruct (Bool.eqb _ _); [reflexivity|discriminate].
        * intros q Q. left. congruence.
      + okinj E. apply tr_track; [apply tr_refl|reflexivity|apply incl_refl]. }
    destruct K as [K1 K2 K3 K4 K5 K6 K7]. destruct (tr_emit a1 (EvDiscovered proto src)) as (T1 & T2 & T3 & T4).
    assert (EP : a_pairs (emit_event a1 (EvDiscovered proto src)) = a_pairs a1) by apply pairs_emit.
    pose proof (env_emit a1 (EvDiscovered proto src)) as (_ & _ & _ & _ & _ & _ & _ & EQ). pose proof (ctrl_emit a1 (EvDiscovered proto src)) as EC.
    assert (EF : a_fresh (emit_event a1 (EvDiscovered proto src)) = a_fresh a1) by (unfold emit_event; destruct (disc_mem _ _ _); reflexivity).
    constructor; rewrite ?EP, ?EQ, ?EC, ?EF, ?T3; auto. congruence.
  - unfold handle_timeout in H. cbn zeta in H.
    match type of H with context[evaluate_state ?b now] => set (b0 := b) in *; assert (V0 : tr a b0 /\ a_ctrl b0 = a_ctrl a /\ a_queue b0 = a_queue a) end.
    { subst b0. destruct (conn_eqb _ _); [|spl; auto using tr_refl]. spl; [apply tr_emit|reflexivity|reflexivity]. }
    destruct V0 as (V1 & V2 & V3). pose proof (tr_trans _ _ _ V1 (tr_state b0 now)) as W1. assert (W2 : a_ctrl (evaluate_state b0 now) = a_ctrl a) by (rewrite ctrl_state; exact V2).
    assert (W3 : a_queue (evaluate_state b0 now) = a_queue a) by (pose proof (env_state b0 now) as (_ & _ & _ & _ & _ & _ & _ & ->); exact V3).
    set (a0 := evaluate_state b0 now) in *. clearbody a0. clear b0 V1 V2 V3.
    destruct (a_rufrag a0).
    + destruct (drop_old _ _ _) as [|q t] eqn:DO.
      * eapply track_tr with (b := set_queue a0 []); [destruct W1 as (W11 & W12 & W13 & W14); split; [exact W11|split; [exact W12|split; [exact W13|exact W14]]]|exact W2|intros q []|eapply checks_track; exact H|intros q []|intros (? & ? & ? & ? & ? & ? & X & _); discriminate].
      * assert (RQ : requested a (OTimeout now) q). { cbn. rewrite <- W3. apply (drop_old_In (a_cfg a0) now). rewrite DO. left. reflexivity. }
        pose proof (queue_request _ _ _ H) as QE. apply request_tq in H. apply (tr_tq a) in H; [|destruct W1 as (W11 & W12 & W13 & W14); split; [exact W11|split; [exact W12|split; [exact W13|exact W14]]]|exact W2].
        eapply tq_track; [exact H|exact RQ|]. intros q1 Q1. left. rewrite QE in Q1. cbn [a_queue set_queue] in Q1. rewrite <- W3. apply (drop_old_In (a_cfg a0) now). rewrite DO. right. exact Q1.
    + eapply track_tr; [exact W1|exact W2|rewrite W3; apply incl_refl|eapply checks_track; exact H|intros q Q; cbn in *; congruence|intros (? & ? & ? & ? & ? & ? & X & _); discriminate].
  - okinj H. assert (TI : incl (tl (a_transmit a)) (a_transmit a)) by (intros x X; destruct (a_transmit a); [destruct X|right; exact X]).
    constructor; flds; auto; try lia. intros p b P B. left. exists p, b. spl; auto.
  - okinj H. apply tr_track; [split; [reflexivity|split; [cbn; lia|split; [reflexivity|apply ai_refl]]]|reflexivity|apply incl_refl].
  - okinj H. unfold poll_timeout. destruct (a_last_now a); [|apply tr_track; [apply tr_refl|reflexivity|apply incl_refl]]. destruct (a_queue a) eqn:QE, (a_transmit a) eqn:TE; try (apply tr_track; [apply tr_refl|reflexivity|apply incl_refl]).
    destruct (a_lite a); [apply tr_track; [apply tr_refl|reflexivity|apply incl_refl]|]. destruct (deadlines _ _ _) as [ps ds] eqn:DL. cbn [fst]. apply tr_track; [|reflexivity|apply incl_refl].
    apply tr_pairs. apply ai_sub. intros p P. right. assert (ps = map (fun p => fst (next_attempt (a_cfg a) p z)) (a_pairs a)) as -> by (unfold deadlines in DL; congruence).
    apply in_map_iff in P. destruct P as (q & <- & Q). exists q. split; [exact Q|]. unfold next_attempt. destruct (p_cached q); reflexivity.
Qed.

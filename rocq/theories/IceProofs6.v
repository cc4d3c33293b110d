(** Where nominations, deadlines and datagrams come from. *)
From Verif Require Import Base BaseFacts PrioModel PrioSpec PrioProofs PrioProps IceModel IceSpec IceProofs IceProofs2 IceProofs3 IceProofs4 IceProofs5.
From Coq Require Import Sorted Permutation.

Definition succ (p : pair) : Prop := p_state p = Succeeded.
(** Every nominated pair of [ps'] was one of [ps], or is nominated by a
    controlling agent after a success; deadlines only disappear. *)
Definition K (c : bool) (ps ps' : list pair) : Prop :=
  forall p', In p' ps' ->
    (is_nominated p' = true -> (exists p, In p ps /\ p_id p = p_id p' /\ is_nominated p = true /\ (succ p -> succ p')) \/ (c = true /\ succ p')).
Definition C (ps ps' : list pair) : Prop := forall p', In p' ps' -> p_cached p' = None \/ exists p, In p ps /\ p_cached p = p_cached p'.
Definition KC (c : bool) (ps ps' : list pair) : Prop := K c ps ps' /\ C ps ps'.

Lemma kc_refl c ps : KC c ps ps.
Proof. split; intros p IN; [|right; eauto]. intro N. left. exists p. auto. Qed.
Lemma kc_trans c a b d : KC c a b -> KC c b d -> KC c a d.
Proof.
  intros [K1 C1] [K2 C2]. split; intros p IN.
  - intro N. destruct (K2 p IN N) as [(q & Q1 & Q2 & Q3 & Q4)|H]; [|auto].
    destruct (K1 q Q1 Q3) as [(r & R1 & R2 & R3 & R4)|[H1 H2]]; [|auto]. left. exists r. repeat split; auto. congruence.
  - destruct (C2 p IN) as [H|(q & Q1 & Q2)]; [auto|]. destruct (C1 q Q1) as [H|(r & R1 & R2)]; [left; congruence|right; exists r; split; congruence].
Qed.
Lemma kc_incl c ps ps' : incl ps' ps -> KC c ps ps'.
Proof. intro H. split; intros p IN; [|right; eauto]. intro N. left. exists p. auto. Qed.
Lemma kc_filter c f ps : KC c ps (filter f ps).
Proof. apply kc_incl. intros p IN. apply filter_In in IN. tauto. Qed.
Lemma kc_perm c ps ps' : Permutation ps ps' -> KC c ps ps'.
Proof. intro H. apply kc_incl. intros p IN. rewrite H. exact IN. Qed.
Lemma kc_map c g ps : (forall p, p_id (g p) = p_id p /\ p_state (g p) = p_state p /\ p_nom (g p) = p_nom p /\ p_cached (g p) = p_cached p) -> KC c ps (map g ps).
Proof.
  intro H. split; intros p IN; apply in_map_iff in IN; destruct IN as (q & <- & IN); destruct (H q) as (H1 & H2 & H3 & H4).
  - intro N. left. exists q. repeat split; auto. + unfold is_nominated in *. rewrite <- H3. exact N. + unfold succ. congruence.
  - right. exists q. auto.
Qed.
Lemma k_upd c ps i p p' : nth_error ps i = Some p -> p_id p' = p_id p -> (is_nominated p' = true -> is_nominated p = true \/ (c = true /\ succ p')) -> (succ p -> succ p') ->
  (p_cached p' = None \/ p_cached p' = p_cached p) -> KC c ps (upd i p' ps).
Proof.
  intros N E1 E2 E3 E4. split; intros q IN; apply In_upd in IN; destruct IN as [->|IN].
  - intro NM. destruct (E2 NM) as [X|X]; [|auto]. left. exists p. repeat split; auto. eapply nth_error_In; eauto.
  - intro NM. left. exists q. auto.
  - destruct E4 as [E4|E4]; [auto|]. right. exists p. split; [eapply nth_error_In; eauto|auto].
  - right. eauto.
Qed.

Definition quiet (a a' : agent) : Prop := a_transmit a' = a_transmit a /\ a_last_now a' = a_last_now a.
Lemma quiet_refl a : quiet a a. Proof. split; reflexivity. Qed.
Lemma quiet_trans a b c : quiet a b -> quiet b c -> quiet a c.
Proof. intros [A B] [D E]. split; congruence. Qed.
Lemma quiet_emit a e : quiet a (emit_event a e).
Proof. unfold emit_event. destruct e; try (split; reflexivity). destruct (disc_mem _ _ _); split; reflexivity. Qed.
Lemma quiet_conn a c : quiet a (set_conn a c).
Proof. unfold set_conn. destruct (conn_eqb _ _); [apply quiet_refl|]. split; reflexivity. Qed.
Lemma quiet_state a now : quiet a (evaluate_state a now).
Proof.
  unfold evaluate_state. cbn zeta. destruct (a_state a), (any_nominated (a_pairs a)), (any_possible a now), (a_lite a);
    cbn [negb andb]; try apply quiet_conn; apply quiet_refl.
Qed.
Lemma pairs_state a now : a_pairs (evaluate_state a now) = a_pairs a.
Proof.
  unfold evaluate_state. cbn zeta. destruct (a_state a), (any_nominated (a_pairs a)), (any_possible a now), (a_lite a);
    cbn [negb andb]; rewrite ?pairs_conn; reflexivity.
Qed.
Lemma ctrl_emit a e : a_ctrl (emit_event a e) = a_ctrl a.
Proof. unfold emit_event. destruct e; try reflexivity. destruct (disc_mem _ _ _); reflexivity. Qed.
Lemma ctrl_conn a c : a_ctrl (set_conn a c) = a_ctrl a.
Proof. unfold set_conn. destruct (conn_eqb _ _); reflexivity. Qed.
Lemma ctrl_state a now : a_ctrl (evaluate_state a now) = a_ctrl a.
Proof.
  unfold evaluate_state. cbn zeta. destruct (a_state a), (any_nominated (a_pairs a)), (any_possible a now), (a_lite a);
    cbn [negb andb]; rewrite ?ctrl_conn; reflexivity.
Qed.
Lemma evalnom_kc a a' : evaluate_nomination a = Ok a' -> KC (a_ctrl a) (a_pairs a) (a_pairs a') /\ quiet a a' /\ a_ctrl a' = a_ctrl a.
Proof.
  intro H. apply evalnom_shape in H. destruct H as [->|(i & b & b' & l & r & N & EL & _ & _ & Q & _ & _ & ->)].
  - split; [apply kc_refl|]. split; [apply quiet_refl|reflexivity].
  - rewrite pairs_emit, ctrl_emit. flds. split; [|split; [|reflexivity]].
    + destruct Q as [[-> Q]|(Q1 & Q2 & ->)].
      * eapply k_upd; eauto.
      * eapply k_upd; eauto. intros _. right. split; [exact Q2|]. unfold eligible in EL. rewrite Q2 in EL. unfold succ. cbn. destruct (p_state b); congruence.
    + split; reflexivity.
Qed.

Lemma reprio_kc c a ps : forall ps', reprio a ps = Ok ps' -> KC c ps ps'.
Proof.
  assert (G : forall ps ps', reprio a ps = Ok ps' -> forall p', In p' ps' -> exists p x, In p ps /\ p' = set_prio p x).
  { clear. induction ps as [|p t IH]; intros ps' H p' IN; cbn [reprio] in H; [okinj H; destruct IN|].
    bok H l E1. bok H r E2. bok H lp E3. bok H rp E4. bok H pr E5. bok H t' E6. okinj H. destruct IN as [<-|IN].
    - exists p, pr. split; [left; reflexivity|reflexivity].
    - destruct (IH _ eq_refl _ IN) as (q & x & Q1 & Q2). exists q, x. split; [right; exact Q1|exact Q2]. }
  intros ps' H. split; intros p' IN; destruct (G _ _ H _ IN) as (p & x & P1 & ->).
  - intro N. left. exists p. auto.
  - right. exists p. auto.
Qed.
Lemma switch_kc a r a' c : switch_role a r = Ok a' -> KC c (a_pairs a) (a_pairs a') /\ quiet a a' /\ a_ctrl a' = r.
Proof.
  unfold switch_role. intro H. destruct (Bool.eqb (a_ctrl a) r) eqn:E.
  - okinj H. split; [apply kc_refl|]. split; [apply quiet_refl|]. apply eqb_prop. exact E.
  - cbn zeta in H. bok H ps EP. okinj H. flds. split; [|split; [split|]; reflexivity].
    eapply kc_trans; [eapply reprio_kc; exact EP|]. apply kc_perm. symmetry. apply sort_perm.
Qed.

(** form_pairs: a replaced pair hands its nomination on *)
Definition handed (ls rs : list icand) (ps ps' : list pair) : Prop :=
  forall p', In p' ps' -> is_nominated p' = true ->
    exists p, In p ps /\ is_nominated p = true /\ (p_id p = p_id p' \/ pair_key ls rs p = pair_key ls rs p').
Lemma redundant_key a l r c b : redundant a l r c = Ok b -> b = true ->
  pair_key (a_locals a) (a_remotes a) c = Some (base l, i_addr r, i_proto l, i_proto r).
Proof.
  unfold redundant. intros H ->. bok H cl E1. bok H cr E2. apply get_ok in E1. apply get_ok in E2.
  assert (B : addr_eqb (base l) (base cl) && addr_eqb (i_addr r) (i_addr cr) && cproto_eqb (i_proto l) (i_proto cl) && cproto_eqb (i_proto r) (i_proto cr) = true) by congruence.
  rewrite !andb_true_iff in B. destruct B as [[[B1 B2] B3] B4]. apply addr_eqb_eq in B1. apply addr_eqb_eq in B2. apply cproto_eqb_eq in B3. apply cproto_eqb_eq in B4.
  unfold pair_key. rewrite E1, E2. congruence.
Qed.
Lemma find_red_key a l r ps : forall i j c, find_redundant a l r ps i = Ok (Some (j, c)) ->
  pair_key (a_locals a) (a_remotes a) c = Some (base l, i_addr r, i_proto l, i_proto r).
Proof.
  induction ps as [|p t IH]; intros i j c H; cbn [find_redundant] in H; [discriminate|]. bok H b E. destruct b.
  - assert (c = p) as -> by congruence. eapply redundant_key; eauto.
  - eapply IH; eauto.
Qed.
Lemma redundant_not a l r c : redundant a l r c = Ok false ->
  pair_key (a_locals a) (a_remotes a) c <> Some (base l, i_addr r, i_proto l, i_proto r).
Proof.
  unfold redundant. intros H X. bok H cl E1. bok H cr E2. apply get_ok in E1. apply get_ok in E2. unfold pair_key in X. rewrite E1, E2 in X.
  assert (base cl = base l /\ i_addr cr = i_addr r /\ i_proto cl = i_proto l /\ i_proto cr = i_proto r) as (X1 & X2 & X3 & X4) by (repeat split; congruence).
  rewrite X1, X2, X3, X4 in H.
  assert (T : addr_eqb (base l) (base l) && addr_eqb (i_addr r) (i_addr r) && cproto_eqb (i_proto l) (i_proto l) && cproto_eqb (i_proto r) (i_proto r) = true).
  { rewrite !andb_true_iff. repeat split; try (apply addr_eqb_eq; reflexivity); apply cproto_eqb_eq; reflexivity. }
  congruence.
Qed.
Lemma find_red_none a l r ps : forall i, find_redundant a l r ps i = Ok None ->
  forall c, In c ps -> pair_key (a_locals a) (a_remotes a) c <> Some (base l, i_addr r, i_proto l, i_proto r).
Proof.
  induction ps as [|p t IH]; intros i H c IN; cbn [find_redundant] in H; [destruct IN|]. bok H b E. destruct b; [discriminate|].
  destruct IN as [<-|IN]; [apply redundant_not; exact E|eapply IH; eauto].
Qed.

Lemma form_pair_cases a li ri a' : form_pair a li ri = Ok a' ->
  exists l r, nth_error (a_locals a) li = Some l /\ nth_error (a_remotes a) ri = Some r /\
  (a_pairs a' = a_pairs a \/
   exists pr, let key := Some (base l, i_addr r, i_proto l, i_proto r) in
   i_proto l = i_proto r /\
   ((exists i c, nth_error (a_pairs a) i = Some c /\ pair_key (a_locals a) (a_remotes a) c = key /\ p_prio c < pr /\
       let p := copy_nom (new_pair (a_fresh a) li ri pr) c in
       a_pairs a' = upd i (if a_lite a then set_rbr p (p_rbr c) else p) (a_pairs a)) \/
    ((forall c, In c (a_pairs a) -> pair_key (a_locals a) (a_remotes a) c <> key) /\ a_pairs a' = a_pairs a ++ [new_pair (a_fresh a) li ri pr]))).
Proof.
  unfold form_pair. intro H. bok H l EL. bok H r ER. apply get_ok in EL. apply get_ok in ER. exists l, r. split; [exact EL|]. split; [exact ER|].
  destruct (cproto_eqb (i_proto l) (i_proto r)) eqn:PE; cbn [negb] in H; [|okinj H; left; reflexivity].
  apply cproto_eqb_eq in PE. bok H rp EP1. bok H lp EP2. bok H pr EP3. cbn zeta in H. bok H f EF. destruct f as [[i c]|].
  - pose proof (find_red_key _ _ _ _ _ _ _ EF) as KEY. apply find_redundant_nth in EF. rewrite Nat.sub_0_r in EF. cbn [a_pairs set_fresh a_lite] in *.
    destruct (Z.leb_spec pr (p_prio c)) as [LE|LT]; okinj H; [left; reflexivity|]. right. exists pr. cbn zeta. split; [exact PE|]. left. exists i, c.
    split; [apply EF|]. split; [exact KEY|]. split; [exact LT|reflexivity].
  - okinj H. right. exists pr. cbn zeta. split; [exact PE|]. right. split; [|reflexivity]. intros c IN. apply (find_red_none _ _ _ _ _ EF c IN).
Qed.

Lemma copy_nom_nominated p c : is_nominated p = false -> is_nominated (copy_nom p c) = true -> is_nominated c = true.
Proof. unfold copy_nom, is_nominated. destruct (p_nom c); cbn; auto. destruct (p_nom p); auto. Qed.
Lemma form_pair_handed a li ri a' : form_pair a li ri = Ok a' -> handed (a_locals a) (a_remotes a) (a_pairs a) (a_pairs a') /\ C (a_pairs a) (a_pairs a').
Proof.
  intro H. apply form_pair_cases in H. destruct H as (l & r & L & R & H). destruct H as [->|(pr & H)].
  - split; [|apply (kc_refl true)]. intros p IN N. exists p. auto.
  - cbn zeta in H. destruct H as [PE [(i & c & N & KEY & LT & ->)|(NO & ->)]].
    + split.
      * intros p IN NM. apply In_upd in IN. destruct IN as [->|IN]; [|exists p; auto]. exists c. split; [eapply nth_error_In; eauto|]. split.
        -- eapply copy_nom_nominated with (p := new_pair (a_fresh a) li ri pr); [reflexivity|]. destruct (a_lite a); exact NM.
        -- right. rewrite KEY. unfold pair_key.
           destruct (copy_nom_fields (new_pair (a_fresh a) li ri pr) c) as (_ & F1 & F2 & _).
           destruct (a_lite a); cbn [p_local p_remote set_rbr]; rewrite F1, F2; cbn [p_local p_remote new_pair]; rewrite L, R; reflexivity.
      * intros p IN. apply In_upd in IN. destruct IN as [->|IN]; [|right; eauto]. left. unfold copy_nom. destruct (a_lite a), (p_nom c); reflexivity.
    + split.
      * intros p IN NM. apply in_app_or in IN. destruct IN as [IN|[<-|[]]]; [exists p; auto|discriminate].
      * intros p IN. apply in_app_or in IN. destruct IN as [IN|[<-|[]]]; [right; eauto|left; reflexivity].
Qed.
Lemma form_pair_quiet a l r a' : form_pair a l r = Ok a' -> quiet a a' /\ a_ctrl a' = a_ctrl a.
Proof.
  unfold form_pair. intro H. bok H x EL. bok H y ER. destruct (negb _); [okinj H; repeat split|].
  bok H rp EP1. bok H lp EP2. bok H pr EP3. cbn zeta in H. bok H f EF. destruct f as [[i c]|].
  - destruct (_ <=? _); okinj H; repeat split.
  - okinj H; repeat split.
Qed.
Lemma c_trans x y z : C x y -> C y z -> C x z.
Proof. intros H1 H2 p IN. destruct (H2 p IN) as [H|(q & Q1 & Q2)]; [auto|]. destruct (H1 q Q1) as [H|(r & R1 & R2)]; [left; congruence|right; exists r; split; congruence]. Qed.
(** a pair keeps its key under form_pair: same id, same candidates *)
Definition id_key (ls rs : list icand) (ps ps' : list pair) : Prop :=
  forall p p', In p ps -> In p' ps' -> p_id p = p_id p' -> pair_key ls rs p = pair_key ls rs p'.
Lemma form_all_handed lr : forall a a', Inv0 a -> form_all a lr = Ok a' ->
  (forall l r, In (l, r) lr -> forall c, nth_error (a_locals a) l = Some c -> i_disc c = false) ->
  (forall l r, In (l, r) lr -> forall c, nth_error (a_remotes a) r = Some c -> i_disc c = false) ->
  (forall p', In p' (a_pairs a') -> is_nominated p' = true -> exists p, In p (a_pairs a) /\ is_nominated p = true /\
      (p = p' \/ pair_key (a_locals a) (a_remotes a) p = pair_key (a_locals a) (a_remotes a) p'))
  /\ C (a_pairs a) (a_pairs a') /\ quiet a a' /\ a_ctrl a' = a_ctrl a.
Proof.
  assert (STEP : forall a li ri a1, form_pair a li ri = Ok a1 -> forall p', In p' (a_pairs a1) -> is_nominated p' = true -> exists p, In p (a_pairs a) /\ is_nominated p = true /\
      (p = p' \/ pair_key (a_locals a) (a_remotes a) p = pair_key (a_locals a) (a_remotes a) p')).
  { intros a li ri a1 H p IN NM. apply form_pair_cases in H. destruct H as (l & r & L & R & H). destruct H as [E|(pr & H)].
    - rewrite E in IN. exists p. auto.
    - cbn zeta in H. destruct H as [PE [(i & c & N & KEY & LT & E)|(NO & E)]]; rewrite E in IN.
      + apply In_upd in IN. destruct IN as [->|IN]; [|exists p; auto]. exists c. split; [eapply nth_error_In; eauto|]. split.
        * eapply copy_nom_nominated with (p := new_pair (a_fresh a) li ri pr); [reflexivity|]. destruct (a_lite a); exact NM.
        * right. rewrite KEY. unfold pair_key.
          destruct (copy_nom_fields (new_pair (a_fresh a) li ri pr) c) as (_ & F1 & F2 & _).
          destruct (a_lite a); cbn [p_local p_remote set_rbr]; rewrite F1, F2; cbn [p_local p_remote new_pair]; rewrite L, R; reflexivity.
      + apply in_app_or in IN. destruct IN as [IN|[<-|[]]]; [exists p; auto|discriminate]. }
  induction lr as [|[l r] t IH]; intros a a' I H HL HR; cbn [form_all] in H.
  - okinj H. split; [|split; [apply (kc_refl true)|split; [apply quiet_refl|reflexivity]]]. intros p IN N. exists p. auto.
  - bok H a1 E. pose proof (env_form_pair _ _ _ _ E) as (_ & _ & _ & _ & _ & EL & ER & _).
    assert (I1 : Inv0 a1).
    { eapply inv0_form_pair; [exact I| | |exact E].
      - apply (HL l r). left; reflexivity.
      - apply (HR l r). left; reflexivity. }
    destruct (IH a1 a' I1 H) as (H1 & H2 & H3 & H4).
    + rewrite EL. intros l0 r0 IN. apply (HL l0 r0). right. exact IN.
    + rewrite ER. intros l0 r0 IN. apply (HR l0 r0). right. exact IN.
    + destruct (form_pair_handed _ _ _ _ E) as [_ C1]. destruct (form_pair_quiet _ _ _ _ E) as [Q1 CT].
      split; [|split; [eapply c_trans; eauto|split; [eapply quiet_trans; eauto|congruence]]].
      intros p IN NM. destruct (H1 p IN NM) as (q & Q2 & Q3 & Q4). destruct (STEP _ _ _ _ E q Q2 Q3) as (w & W1 & W2 & W3).
      exists w. split; [exact W1|]. split; [exact W2|]. rewrite EL, ER in Q4. destruct Q4 as [->|Q4]; [exact W3|]. right. destruct W3 as [->|W3]; congruence.
Qed.
Lemma form_pairs_handed a ls rs a' : Inv0 a -> form_pairs a ls rs = Ok a' ->
  (forall l, In l ls -> forall c, nth_error (a_locals a) l = Some c -> i_disc c = false) ->
  (forall r, In r rs -> forall c, nth_error (a_remotes a) r = Some c -> i_disc c = false) ->
  (forall p', In p' (a_pairs a') -> is_nominated p' = true -> exists p, In p (a_pairs a) /\ is_nominated p = true /\
      (p = p' \/ pair_key (a_locals a) (a_remotes a) p = pair_key (a_locals a) (a_remotes a) p'))
  /\ C (a_pairs a) (a_pairs a') /\ quiet a a' /\ a_ctrl a' = a_ctrl a.
Proof.
  unfold form_pairs. intros I H HL HR. bok H u E1. bok H a1 E2. okinj H.
  destruct (form_all_handed _ _ _ I E2) as (H1 & H2 & H3 & H4).
  - intros l r IN. apply in_flat_map in IN. destruct IN as (x & X1 & X2). apply in_map_iff in X2. destruct X2 as (y & Y1 & Y2).
    assert (x = l) as -> by congruence. apply HL. exact X1.
  - intros l r IN. apply in_flat_map in IN. destruct IN as (x & X1 & X2). apply in_map_iff in X2. destruct X2 as (y & Y1 & Y2).
    assert (y = r) as -> by congruence. apply HR. exact Y2.
  - assert (IC : incl (firstn (k_max_pairs (a_cfg a1)) (sort_pairs (a_pairs a1))) (a_pairs a1)).
    { intros p IN. assert (IN2 : In p (sort_pairs (a_pairs a1))). { rewrite <- (firstn_skipn (k_max_pairs (a_cfg a1)) (sort_pairs (a_pairs a1))). apply in_or_app; auto. }
      rewrite sort_perm in IN2. exact IN2. }
    flds. spl; auto. intros p IN. apply H2. apply IC. exact IN.
Qed.

(** *** A request *)
Definition K3 (a' : agent) (q : request) (ps ps' : list pair) : Prop :=
  forall p', In p' ps' -> is_nominated p' = true ->
    (exists p, In p ps /\ p_id p = p_id p' /\ is_nominated p = true /\ (succ p -> succ p')) \/ (a_ctrl a' = true /\ succ p') \/ by_request a' q p'.

Lemma kc_push c ps p : is_nominated p = false -> p_cached p = None -> KC c ps (sort_pairs (ps ++ [p])).
Proof.
  intros N CN. apply kc_trans with (ps ++ [p]); [|apply kc_perm; symmetry; apply sort_perm]. split; intros q IN; apply in_app_or in IN; destruct IN as [IN|[<-|[]]].
  - intro X. left. exists q. auto.
  - congruence.
  - right. eauto.
  - auto.
Qed.

Lemma request_at_facts a q li l a' : Inv a -> handle_request_at a q li = Ok a' ->
  nth_error (a_locals a) li = Some l -> i_addr l = q_dst q -> i_proto l = q_proto q ->
  K3 a' q (a_pairs a) (a_pairs a') /\ C (a_pairs a) (a_pairs a') /\ a_last_now a' = a_last_now a /\ a_ctrl a' = a_ctrl a /\
  (a_transmit a' = a_transmit a \/ exists x, a_transmit a' = a_transmit a ++ [x] /\ reply_to a' q x).
Proof.
  intros I H L LA LP. unfold handle_request_at in H.
  assert (REFL : forall b, K3 b q (a_pairs b) (a_pairs b)). { intros b p IN N. left. exists p. auto. }
  assert (CREFL : forall ps, C ps ps). { intros ps p IN. right. eauto. }
  match type of H with (if ?c then _ else _) = _ => destruct c end; [okinj H; spl; auto|]. bok H rr RR. destruct rr as [[a1 ri]|]; [|okinj H; spl; auto].
  pose proof (request_remote_inv _ _ _ _ I RR) as (I1 & (r & R1 & R2 & R3 & R4) & EL & EP & EC & ELi & EF & ECF & ELN).
  assert (TX1 : a_transmit a1 = a_transmit a).
  { unfold request_remote in RR. cbn zeta in RR. bok RR f E. destruct f as [[i z]|]; [congruence|]. destruct (existsb _ _); [discriminate|].
    match type of RR with Ok (Some (?x, _)) = _ => assert (a1 = x) as -> by congruence end. reflexivity. }
  bok H rp RP. destruct rp as [a2|].
  2:{ okinj H. rewrite EP. spl; auto. intros p IN N. left. exists p. auto. }
  assert (P2 : KC (a_ctrl a) (a_pairs a) (a_pairs a2) /\ quiet a1 a2 /\ a_ctrl a2 = a_ctrl a1).
  { rewrite <- EP. unfold request_pair in RP. destruct (position _ _).
    - assert (a2 = a1) as -> by congruence. split; [apply kc_refl|split; [apply quiet_refl|reflexivity]].
    - bok RP x X. bok RP y Y. destruct (i_disc x); [discriminate|]. bok RP rp1 X1. bok RP lp X2. bok RP pr X3.
      match type of RP with Ok (Some ?z) = _ => assert (a2 = z) as -> by congruence end. flds. split; [|repeat split]. apply kc_push; reflexivity. }
  destruct P2 as (P2 & [TX2 LN2] & CT2). pose proof (env_request_pair _ _ _ _ RP) as (_ & _ & _ & _ & _ & L2 & RM2 & _).
  pose proof (env_finish _ _ _ _ _ H) as (_ & _ & _ & _ & _ & L3 & RM3 & _).
  unfold request_finish in H. destruct (position _ _) as [i|] eqn:PS; [|discriminate]. apply position_some in PS. destruct PS as (p & N & OF).
  bok H p0 E1. apply get_ok in E1. assert (p0 = p) as -> by congruence. bok H x E2. bok H y E3. apply get_ok in E2. apply get_ok in E3. cbn zeta in H. bok H p1 E4. bok H a3 E5. okinj H. flds.
  unfold of_pair in OF. apply andb_true_iff in OF. destruct OF as [O1 O2]. apply Nat.eqb_eq in O1. apply Nat.eqb_eq in O2.
  rewrite O1, L2, EL in E2. rewrite O2, RM2 in E3. assert (x = l) as -> by congruence. assert (y = r) as -> by congruence.
  assert (FIN : forall b, K3 b q (a_pairs a2) (a_pairs b) -> a_ctrl b = a_ctrl a -> K3 b q (a_pairs a) (a_pairs b)).
  { intros b KB CB pb IN NM. destruct (KB pb IN NM) as [(w & W1 & W2 & W3 & W4)|X]; [|auto]. destruct P2 as [KP _].
    destruct (KP w W1 W3) as [(v & V1 & V2 & V3 & V4)|[V1 V2]]; [|right; left; split; [congruence|auto]]. left. exists v. spl; auto. congruence. }
  assert (MAIN : K3 a3 q (a_pairs a2) (a_pairs a3) /\ C (a_pairs a2) (a_pairs a3) /\ quiet a2 a3 /\ a_ctrl a3 = a_ctrl a2).
  { destruct (a_ctrl a2) eqn:CT.
    - cbn [negb andb] in E4. assert (p1 = set_rbr p (Some (q_now q))) as -> by congruence. flds. cbn [a_ctrl set_pairs] in E5. rewrite CT in E5. cbn [andb] in E5.
      assert (U : KC true (a_pairs a2) (upd i (set_rbr p (Some (q_now q))) (a_pairs a2))). { eapply k_upd; eauto. }
      match type of E5 with (if ?c then _ else _) = _ => destruct c end.
      + apply evalnom_kc in E5. destruct E5 as (X1 & X2 & X3). cbn [a_ctrl set_pairs a_pairs] in *. rewrite CT in *.
        pose proof (kc_trans _ _ _ _ U X1) as [U1 U2]. spl; auto. intros z IN NM. destruct (U1 z IN NM) as [W|[W1 W2]]; [auto|right; left]. auto.
      + assert (a3 = set_pairs a2 (upd i (set_rbr p (Some (q_now q))) (a_pairs a2))) as -> by congruence. flds. destruct U as [U1 U2]. spl; auto; [|repeat split].
        intros z IN NM. destruct (U1 z IN NM) as [W|[W1 W2]]; [auto|right; left]. auto.
    - cbn [a_ctrl set_pairs] in E5. rewrite CT in E5. cbn [andb] in E5. assert (a3 = set_pairs a2 (upd i p1 (a_pairs a2))) as -> by congruence. flds. cbn [negb andb] in E4.
      match type of E4 with (if ?c then _ else _) = _ => destruct c eqn:CC end.
      + apply nominate_ok in E4. destruct E4 as [_ ->]. rewrite !andb_true_iff in CC. destruct CC as [_ U].
        spl; auto; [| |repeat split].
        * intros z IN NM. apply In_upd in IN. destruct IN as [->|IN]; [|left; exists z; auto]. right. right. split; [exact U|]. split; [flds; exact CT|].
          flds. exists l, r. cbn [p_local p_remote set_nom set_rbr]. rewrite O1, O2, RM2. rewrite L2, EL. auto.
        * intros z IN. apply In_upd in IN. destruct IN as [->|IN]; [|right; eauto]. right. exists p. split; [eapply nth_error_In; eauto|reflexivity].
      + assert (p1 = set_rbr p (Some (q_now q))) as -> by congruence.
        assert (U : KC false (a_pairs a2) (upd i (set_rbr p (Some (q_now q))) (a_pairs a2))). { eapply k_upd; eauto. }
        destruct U as [U1 U2]. spl; auto; [|repeat split]. intros z IN NM. destruct (U1 z IN NM) as [W|[W1 W2]]; [auto|discriminate]. }
  destruct MAIN as (M1 & M2 & [M3 M4] & M5). spl.
  - intros z IN NM. destruct (FIN a3 M1 ltac:(congruence) z IN NM) as [W|[W|W]]; auto.
  - eapply c_trans; [apply P2|exact M2].
  - congruence.
  - congruence.
  - right. eexists. split; [rewrite M3, TX2, TX1; reflexivity|]. left. exists l. rewrite <- R3, LP. spl; auto. flds. cbn [a_locals set_transmit] in L3. rewrite L3, L2, EL. eapply nth_error_In; eauto.
Qed.

Lemma request_facts a q a' : Inv a -> handle_request a q = Ok a' ->
  K3 a' q (a_pairs a) (a_pairs a') /\ C (a_pairs a) (a_pairs a') /\ a_last_now a' = a_last_now a /\
  (a_transmit a' = a_transmit a \/ exists x, a_transmit a' = a_transmit a ++ [x] /\ reply_to a' q x).
Proof.
  intros I H. unfold handle_request in H.
  assert (REFL : forall b, K3 b q (a_pairs b) (a_pairs b)). { intros b p IN N. left. exists p. auto. }
  assert (CREFL : forall ps, C ps ps). { intros ps p IN. right. eauto. }
  destruct (a_rufrag a); [|discriminate]. destruct (negb _); [okinj H; spl; auto|].
  destruct (position _ _) as [li|] eqn:PS; [|okinj H; spl; auto]. apply position_some in PS. destruct PS as (l & N & F).
  rewrite !andb_true_iff in F. destruct F as ((_ & F1) & F2). apply addr_eqb_eq in F1. apply cproto_eqb_eq in F2.
  destruct (conflict _ _) as [peer|].
  - destruct (_ <=? _).
    + okinj H. flds. spl; auto; [intros p IN NM; left; exists p; auto|]. right. eexists. split; [reflexivity|]. right. reflexivity.
    + bok H a1 E. pose proof (env_switch _ _ _ E) as (_ & _ & _ & _ & _ & L & _). rewrite <- L in N.
      pose proof (inv_switch_role _ _ _ I E) as I1.
      destruct (switch_kc _ _ _ (a_ctrl a1) E) as ([K1 C1] & [TX LN] & CT).
      destruct (request_at_facts _ _ _ _ _ I1 H N F1 F2) as (X1 & X2 & X3 & X4 & X5). spl.
      * intros p IN NM. destruct (X1 p IN NM) as [(w & W1 & W2 & W3 & W4)|X]; [|auto].
        destruct (K1 w W1 W3) as [(v & V1 & V2 & V3 & V4)|[V1 V2]]; [|right; left; split; [congruence|auto]]. left. exists v. spl; auto. congruence.
      * eapply c_trans; eauto.
      * congruence.
      * rewrite TX in X5. exact X5.
  - destruct (request_at_facts _ _ _ _ _ I H N F1 F2) as (X1 & X2 & X3 & X4 & X5). auto.
Qed.

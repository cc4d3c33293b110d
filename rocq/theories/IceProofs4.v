(** No call of the ICE agent panics. *)
From Verif Require Import Base BaseFacts PrioModel PrioSpec PrioProofs PrioProps IceModel IceSpec IceProofs IceProofs2 IceProofs3.
From Coq Require Import Sorted Permutation.
Ltac spl := repeat match goal with |- _ /\ _ => split end.

(** *** What the inner functions leave alone *)
Definition same_env (a a' : agent) : Prop :=
  a_cfg a' = a_cfg a /\ a_lite a' = a_lite a /\ a_tie a' = a_tie a /\ a_rufrag a' = a_rufrag a /\ a_lufrag a' = a_lufrag a
  /\ a_locals a' = a_locals a /\ a_remotes a' = a_remotes a /\ a_queue a' = a_queue a.
Lemma env_refl a : same_env a a.
Proof. repeat split. Qed.
Lemma env_trans a b c : same_env a b -> same_env b c -> same_env a c.
Proof. unfold same_env. intros H1 H2. decompose [and] H1. decompose [and] H2. repeat split; congruence. Qed.
Lemma env_emit a e : same_env a (emit_event a e).
Proof. unfold emit_event. destruct e; try (repeat split; fail). destruct (disc_mem _ _ _); repeat split. Qed.
Lemma env_conn a c : same_env a (set_conn a c).
Proof. unfold set_conn. destruct (conn_eqb _ _); [apply env_refl|]. eapply env_trans; [|apply env_emit]. repeat split. Qed.
Lemma env_state a now : same_env a (evaluate_state a now).
Proof.
  unfold evaluate_state. cbn zeta. destruct (a_state a), (any_nominated (a_pairs a)), (any_possible a now), (a_lite a);
    cbn [negb andb]; try apply env_conn; apply env_refl.
Qed.
Lemma env_pairs a ps : same_env a (set_pairs a ps).
Proof. repeat split. Qed.
Lemma env_evalnom a a' : evaluate_nomination a = Ok a' -> same_env a a'.
Proof.
  intro H. apply evalnom_shape in H. destruct H as [->|(i & b & b' & l & r & _ & _ & _ & _ & _ & _ & _ & ->)]; [apply env_refl|].
  eapply env_trans; [|apply env_emit]. repeat split.
Qed.
Lemma env_form_pair a l r a' : form_pair a l r = Ok a' -> same_env a a'.
Proof.
  unfold form_pair. intro H. bok H x EL. bok H y ER. destruct (negb _); [okinj H; repeat split|].
  bok H rp EP1. bok H lp EP2. bok H pr EP3. cbn zeta in H. bok H f EF. destruct f as [[i c]|].
  - destruct (_ <=? _); okinj H; repeat split.
  - okinj H; repeat split.
Qed.
Lemma env_form_all lr : forall a a', form_all a lr = Ok a' -> same_env a a'.
Proof.
  induction lr as [|[l r] t IH]; intros a a' H; cbn [form_all] in H; [okinj H; apply env_refl|].
  bok H a1 E. eapply env_trans; [eapply env_form_pair; eauto|eauto].
Qed.
Lemma env_form_pairs a ls rs a' : form_pairs a ls rs = Ok a' -> same_env a a'.
Proof.
  unfold form_pairs. intro H. bok H u E1. bok H a1 E2. okinj H. apply env_form_all in E2. eapply env_trans; [exact E2|apply env_pairs].
Qed.
Lemma env_switch a c a' : switch_role a c = Ok a' -> same_env a a'.
Proof.
  unfold switch_role. intro H. destruct (Bool.eqb _ _); [okinj H; apply env_refl|]. cbn zeta in H. bok H ps E. okinj H. repeat split.
Qed.
Lemma env_request_pair a l r a' : request_pair a l r = Ok (Some a') -> same_env a a'.
Proof.
  unfold request_pair. intro H. destruct (position _ _).
  - assert (a' = a) as -> by congruence. apply env_refl.
  - bok H x EL. bok H y ER. destruct (i_disc x); [discriminate|]. bok H rp E1. bok H lp E2. bok H pr E3.
    assert (a' = set_fresh (set_pairs a (sort_pairs (a_pairs a ++ [new_pair (a_fresh a) l r pr]))) (a_fresh a + 1)) as -> by congruence. repeat split.
Qed.
Lemma env_finish a q l r a' : request_finish a q l r = Ok a' -> same_env a a'.
Proof.
  unfold request_finish. intro H. destruct (position _ _); [|discriminate]. bok H p E1. bok H x E2. bok H y E3. cbn zeta in H.
  bok H p1 E4. bok H a1 E5. okinj H. eapply env_trans with (set_pairs a (upd n p1 (a_pairs a))); [repeat split|].
  eapply env_trans with a1; [|repeat split].
  match type of E5 with (if ?c then _ else _) = _ => destruct c end.
  - apply env_evalnom. exact E5.
  - assert (a1 = set_pairs a (upd n p1 (a_pairs a))) as -> by congruence. apply env_refl.
Qed.
Lemma env_binding a now i a' : binding_request a now i = Ok a' -> same_env a a'.
Proof.
  unfold binding_request. intro H. destruct (a_rufrag a) eqn:R; [|discriminate]. bok H p E1. bok H x E2. bok H y E3. bok H pr E4. cbn zeta in H.
  bok H p1 E5. okinj H. repeat split.
Qed.
Lemma env_timeout_checks a now a' : timeout_checks a now = Ok a' -> same_env a a'.
Proof.
  unfold timeout_checks. cbn zeta. intro H. bok H a1 E1. bok H a2 E2.
  assert (X1 : same_env a a1). { eapply env_trans; [|eapply env_evalnom; exact E1]. repeat split. }
  assert (X2 : same_env a a2).
  { match type of E2 with (if ?c then _ else _) = _ => destruct c end.
    - bok E2 a3 E3. okinj E2. eapply env_trans; [|apply env_state]. eapply env_trans; [|eapply env_evalnom; exact E3].
      eapply env_trans; [exact X1|apply env_pairs].
    - assert (a2 = set_pairs a1 (filter (keep a1 now) (a_pairs a1))) as -> by congruence. eapply env_trans; [exact X1|apply env_pairs]. }
  destruct (a_rufrag a2); [|okinj H; exact X2]. destruct (a_lite a2); [okinj H; eapply env_trans; [exact X2|apply env_pairs]|].
  destruct (deadlines _ _ _) as [ps ds]. destruct (min_from _ _ _) as [[i d]|].
  - destruct (d <=? now).
    + eapply env_trans; [exact X2|]. eapply env_trans; [|eapply env_binding; exact H]. apply env_pairs.
    + okinj H. eapply env_trans; [exact X2|apply env_pairs].
  - okinj H. eapply env_trans; [exact X2|apply env_pairs].
Qed.

(** *** Priorities stay computable *)
Definition lprio_ok (c : icand) : Prop :=
  match i_prio c with
  | Some p => 0 <= p < 2 ^ 32 - 1
  | None => i_comp c = 1 /\ match i_lpref c with Some v => 0 <= v <= 65535 | None => True end
  end.
Definition rprio_ok (c : icand) : Prop := match i_prio c with Some p => 0 <= p < 2 ^ 32 | None => False end.
Record PR (a : agent) (n : Z) : Prop := mkPR {
  pr_l : Forall lprio_ok (a_locals a);
  pr_r : Forall rprio_ok (a_remotes a);
  pr_q : Forall (fun q => 0 <= q_prio q < 2 ^ 32) (a_queue a);
  pr_n : zlen (filter own_kind (a_locals a)) <= n }.

Lemma lprio_spec c b : lprio_ok c -> exists p, do_prio (pc c) b = Ok p /\ 0 <= p < 2 ^ 32 - 1.
Proof.
  unfold lprio_ok. intro H. destruct (i_prio c) as [p|] eqn:E.
  - exists p. unfold do_prio. cbn [pc c_prio]. rewrite E. auto.
  - destruct H as [H1 H2]. destruct (C27_candidate_priority (pc c) b) as (p & P1 & P2 & _).
    + repeat split; cbn; auto.
    + exists p. split; [exact P1|]. unfold rfc_range in P2. lia.
Qed.
Lemma rprio_spec c : rprio_ok c -> exists p, iprio c = Ok p /\ 0 <= p < 2 ^ 32.
Proof.
  unfold rprio_ok, iprio, prio, do_prio. cbn [pc c_prio]. destruct (i_prio c) as [p|]; [|tauto]. eauto.
Qed.
Lemma calc_total c r l : 0 <= r < 2 ^ 32 -> 0 <= l < 2 ^ 32 - 1 -> exists p, calculate_prio c r l = Ok p.
Proof. intros R L. rewrite C27_pair_priority by (unfold is_u32; lia). eauto. Qed.

Lemma env_PR a a' n : same_env a a' -> PR a n -> PR a' n.
Proof. intros (_ & _ & _ & _ & _ & L & R & Q) [A B C D]. constructor; rewrite ?L, ?R, ?Q; assumption. Qed.

Lemma Forall_nth {A} (P : A -> Prop) l i x : Forall P l -> nth_error l i = Some x -> P x.
Proof. rewrite Forall_forall. intros F N. apply F. eapply nth_error_In; eauto. Qed.

(** *** Totality of the inner functions *)
Lemma get_total {A} (l : list A) i : (i < length l)%nat -> exists x, get l i = Ok x /\ nth_error l i = Some x.
Proof. intro H. unfold get. destruct (nth_error l i) eqn:E; eauto. apply nth_error_None in E. lia. Qed.
Lemma get_nth {A} (l : list A) i x : nth_error l i = Some x -> get l i = Ok x.
Proof. intro H. unfold get. rewrite H. reflexivity. Qed.

Lemma evalnom_total a : Inv a -> exists a', evaluate_nomination a = Ok a'.
Proof.
  intros [[A _ _] _]. unfold evaluate_nomination. destruct (best _ _) as [i|] eqn:B; [|eauto].
  apply best_some in B. destruct B as (b & N & EL & MX). rewrite (get_nth _ _ _ N). cbn [bind].
  destruct (match nominated_prio a with Some _ => _ | None => _ end); [eauto|].
  destruct (Forall_nth _ _ _ _ (iv_live _ _ _ _ _ _ _ _ A) N) as (l & r & L & R & _).
  assert (Q : exists b', (if negb (is_nominated b) && (a_ctrl a || a_lite a) then nominate b (a_lite a) else Ok b) = Ok b' /\ p_local b' = p_local b /\ p_remote b' = p_remote b).
  { destruct (_ && _) eqn:E; [|eauto]. apply andb_true_iff in E. destruct E as [E _]. unfold nominate, is_nominated in *.
    destruct (p_nom b); try discriminate. eexists. repeat split. }
  destruct Q as (b' & -> & Q1 & Q2). cbn [bind]. rewrite Q1, Q2, (get_nth _ _ _ L), (get_nth _ _ _ R). cbn [bind]. eauto.
Qed.

Lemma find_red_total a l r ps i : Forall (live (a_locals a) (a_remotes a)) ps -> exists f, find_redundant a l r ps i = Ok f.
Proof.
  revert i. induction ps as [|p t IH]; intros i F; cbn; [eauto|]. inversion F as [|? ? (x & y & X & Y & _) F']; subst.
  unfold redundant. rewrite (get_nth _ _ _ X), (get_nth _ _ _ Y). cbn [bind]. destruct (_ && _); [eauto|]. apply IH. exact F'.
Qed.
Lemma form_pair_total a n li ri l r : Inv0 a -> PR a n -> nth_error (a_locals a) li = Some l -> nth_error (a_remotes a) ri = Some r ->
  exists a', form_pair a li ri = Ok a'.
Proof.
  intros [A _ _] [PL PRr _ _] L R. unfold form_pair. rewrite (get_nth _ _ _ L), (get_nth _ _ _ R). cbn [bind].
  destruct (negb _); [eauto|].
  destruct (lprio_spec l false (Forall_nth _ _ _ _ PL L)) as (lp & LP & LB). destruct (rprio_spec r (Forall_nth _ _ _ _ PRr R)) as (rp & RP & RB).
  rewrite RP. cbn [bind]. unfold iprio, prio at 1. rewrite LP. cbn [bind]. destruct (calc_total (a_ctrl a) rp lp RB LB) as [pr ->]. cbn [bind].
  cbn zeta. destruct (find_red_total (set_fresh a (a_fresh a + 1)) l r (a_pairs a) 0 (iv_live _ _ _ _ _ _ _ _ A)) as [f FE].
  cbn [a_pairs set_fresh a_fresh a_lite] in *. unfold set_fresh in *. rewrite FE. cbn [bind].
  destruct f as [[i c]|]; [destruct (_ <=? _)|]; eauto.
Qed.
Lemma form_all_total lr n : forall a, Inv0 a -> PR a n ->
  (forall l r, In (l, r) lr -> exists c, nth_error (a_locals a) l = Some c /\ i_disc c = false) ->
  (forall l r, In (l, r) lr -> exists c, nth_error (a_remotes a) r = Some c /\ i_disc c = false) ->
  exists a', form_all a lr = Ok a'.
Proof.
  induction lr as [|[l r] t IH]; intros a I P HL HR; cbn [form_all]; [eauto|].
  destruct (HL l r) as (x & X1 & X2); [left; reflexivity|]. destruct (HR l r) as (y & Y1 & Y2); [left; reflexivity|].
  destruct (form_pair_total a n l r x y I P X1 Y1) as [a1 E]. rewrite E. cbn [bind].
  pose proof (env_form_pair _ _ _ _ E) as EV. pose proof (env_PR _ _ n EV P) as P1.
  assert (I1 : Inv0 a1).
  { eapply inv0_form_pair; [exact I| | |exact E].
    - intros z Z. assert (z = x) as -> by congruence. exact X2.
    - intros z Z. assert (z = y) as -> by congruence. exact Y2. }
  destruct EV as (_ & _ & _ & _ & _ & EL & ER & _). apply IH; auto.
  - intros l0 r0 IN. rewrite EL. apply (HL l0 r0). right; exact IN.
  - intros l0 r0 IN. rewrite ER. apply (HR l0 r0). right; exact IN.
Qed.
Lemma update_kinds_total a ps : Forall (live (a_locals a) (a_remotes a)) ps -> update_kinds a ps = Ok tt.
Proof.
  induction ps as [|p t IH]; intro F; cbn; [reflexivity|]. inversion F as [|? ? (x & y & X & Y & _) F']; subst.
  rewrite (get_nth _ _ _ X), (get_nth _ _ _ Y). cbn [bind]. apply IH. exact F'.
Qed.
Lemma form_pairs_total a n ls rs : Inv0 a -> PR a n ->
  (forall l, In l ls -> exists c, nth_error (a_locals a) l = Some c /\ i_disc c = false) ->
  (forall r, In r rs -> exists c, nth_error (a_remotes a) r = Some c /\ i_disc c = false) ->
  exists a', form_pairs a ls rs = Ok a'.
Proof.
  intros I P HL HR. unfold form_pairs. rewrite update_kinds_total by apply I. cbn [bind].
  destruct (form_all_total (flat_map (fun l => map (fun r => (l, r)) rs) ls) n a I P) as [a1 ->]; cbn [bind]; eauto.
  - intros l r IN. apply in_flat_map in IN. destruct IN as (x & X1 & X2). apply in_map_iff in X2. destruct X2 as (y & Y1 & Y2).
    assert (x = l) as -> by congruence. apply HL. exact X1.
  - intros l r IN. apply in_flat_map in IN. destruct IN as (x & X1 & X2). apply in_map_iff in X2. destruct X2 as (y & Y1 & Y2).
    assert (y = r) as -> by congruence. apply HR. exact Y2.
Qed.
Lemma positions_nondisc f ls : (forall v, f v = true -> i_disc v = false) ->
  forall r, In r (positions f ls) -> exists c, nth_error ls r = Some c /\ i_disc c = false.
Proof. intros F r IN. apply positions_spec in IN. destruct IN as (x & X & Y). exists x. auto. Qed.

Lemma reprio_total a n ps : PR a n -> Forall (live (a_locals a) (a_remotes a)) ps -> exists ps', reprio a ps = Ok ps'.
Proof.
  intros [PL PRr _ _]. induction ps as [|p t IH]; intro F; cbn; [eauto|]. inversion F as [|? ? (x & y & X & Y & _) F']; subst.
  rewrite (get_nth _ _ _ X), (get_nth _ _ _ Y). cbn [bind].
  destruct (lprio_spec x false (Forall_nth _ _ _ _ PL X)) as (lp & LP & LB). destruct (rprio_spec y (Forall_nth _ _ _ _ PRr Y)) as (rp & RP & RB).
  unfold iprio at 1, prio at 1. rewrite LP. cbn [bind]. rewrite RP. cbn [bind]. destruct (calc_total (a_ctrl a) rp lp RB LB) as [pr ->]. cbn [bind].
  destruct (IH F') as [t' ->]. cbn [bind]. eauto.
Qed.
Lemma switch_total a n c : Inv a -> PR a n -> exists a', switch_role a c = Ok a'.
Proof.
  intros [[A _ _] _] P. unfold switch_role. destruct (Bool.eqb _ _); [eauto|]. cbn zeta.
  destruct (reprio_total (set_ctrl a c) n (a_pairs a)) as [ps E].
  - destruct P; constructor; auto.
  - apply A.
  - cbn [a_pairs set_ctrl] in *. rewrite E. cbn [bind]. eauto.
Qed.
Lemma best_remote_total f l : Forall rprio_ok l -> forall i cur, exists x, best_remote f l i cur = Ok x.
Proof.
  induction 1 as [|c t H F IH]; intros i cur; cbn; [eauto|]. destruct (f c); [|apply IH].
  destruct (rprio_spec c H) as (p & -> & _). cbn [bind]. apply IH.
Qed.

Lemma lock_total a q li l n : Inv a -> PR a n -> 0 <= q_prio q < 2 ^ 32 -> nth_error (a_locals a) li = Some l ->
  exists a', handle_request_at a q li = Ok a'.
Proof.
  intros I P Q L. unfold handle_request_at. destruct (_ && _); [eauto|].
  assert (RR : exists x, request_remote a q = Ok x).
  { unfold request_remote. cbn zeta. match goal with |- context[best_remote ?f _ _ _] => destruct (best_remote_total f (a_remotes a) (pr_r _ _ P) 0 None) as [x ->] end. cbn [bind].
    destruct x as [[i z]|]; [eauto|]. destruct (existsb _ _); eauto. }
  destruct RR as [rr RR]. rewrite RR. cbn [bind]. destruct rr as [[a1 ri]|]; [|eauto].
  pose proof (request_remote_inv _ _ _ _ I RR) as (I1 & (r & R1 & R2 & R3 & R4) & EL & EP & EC & ELi & EF & _).
  assert (P1 : PR a1 n).
  { unfold request_remote in RR. cbn zeta in RR. bok RR f E. destruct f as [[i z]|].
    - assert (a1 = a) as -> by congruence. exact P.
    - destruct (existsb _ _); [discriminate|].
      assert (a1 = set_remotes a (a_remotes a ++ [peer_reflexive (q_proto q) (q_src q) (q_src q) (q_prio q) true (a_lufrag a)])) as -> by congruence.
      destruct P as [A B C D]. constructor; auto. flds. apply Forall_app. split; [exact B|]. repeat constructor; cbn; lia. }
  assert (RP : exists x, request_pair a1 li ri = Ok x).
  { unfold request_pair. destruct (position _ _); [eauto|]. rewrite <- EL in L. rewrite (get_nth _ _ _ L), (get_nth _ _ _ R1). cbn [bind].
    destruct (i_disc l); [eauto|].
    destruct (lprio_spec l false (Forall_nth _ _ _ _ (pr_l _ _ P1) L)) as (lp & LP & LB). destruct (rprio_spec r (Forall_nth _ _ _ _ (pr_r _ _ P1) R1)) as (rp & RPx & RB).
    rewrite RPx. cbn [bind]. unfold iprio, prio. rewrite LP. cbn [bind]. destruct (calc_total (a_ctrl a1) rp lp RB LB) as [pr ->]. cbn [bind]. eauto. }
  destruct RP as [rp RP]. rewrite RP. cbn [bind]. destruct rp as [a2|]; [|eauto].
  pose proof (env_request_pair _ _ _ _ RP) as EV.
  assert (R5 : forall x, nth_error (a_remotes a1) ri = Some x -> i_disc x = false).
  { intros x N. assert (x = r) as -> by congruence. exact R2. }
  pose proof (request_pair_inv _ _ _ _ I1 R5 RP) as (I2 & (p & PI & PO) & _).
  pose proof I2 as [[A2 B2 C2] D2].
  unfold request_finish. destruct (position_exists _ _ _ PI PO) as [i Pi]. rewrite Pi. apply position_some in Pi. destruct Pi as (p0 & N0 & F0).
  rewrite (get_nth _ _ _ N0). cbn [bind]. destruct (Forall_nth _ _ _ _ (iv_live _ _ _ _ _ _ _ _ A2) N0) as (x & y & X & Y & _).
  rewrite (get_nth _ _ _ X), (get_nth _ _ _ Y). cbn [bind]. cbn zeta.
  assert (Q1 : exists p1, (if negb (a_ctrl a2) && negb (is_nominated (set_rbr p0 (Some (q_now q)))) && q_use q then nominate (set_rbr p0 (Some (q_now q))) (a_lite a2) else Ok (set_rbr p0 (Some (q_now q)))) = Ok p1
     /\ p_id p1 = p_id p0 /\ p_local p1 = p_local p0 /\ p_remote p1 = p_remote p0 /\ p_att p1 = p_att p0 /\ p_prio p1 = p_prio p0
     /\ pair_ok (a_cfg a2) (a_rufrag a2) p1 /\ (is_nominated p0 = true -> is_nominated p1 = true)).
  { pose proof (Forall_nth _ _ _ _ (iv_ok _ _ _ _ _ _ _ _ A2) N0) as OK. destruct (_ && _ && _) eqn:E.
    - unfold nominate. rewrite !andb_true_iff in E. destruct E as [[_ E] _]. unfold is_nominated in E. cbn [p_nom set_rbr] in *.
      destruct (p_nom p0) eqn:NM; try discriminate. eexists. split; [reflexivity|].
      cbn. spl; auto; try apply OK.
      + unfold is_nominated. rewrite NM. discriminate.
    - eexists. split; [reflexivity|]. cbn. spl; auto. }
  destruct Q1 as (p1 & -> & Q2 & Q3 & Q4 & Q5 & Q6 & Q7 & Q8). cbn [bind].
  match goal with |- context[if ?c then evaluate_nomination ?b else Ok ?b] => assert (IB : Inv b) end.
  { constructor; [constructor|]; flds; auto; [|eapply upd_sorted; eauto]. eapply inv_upd0; eauto. rewrite Q5. reflexivity. }
  destruct (_ && _).
  - destruct (evalnom_total _ IB) as [a3 ->]. cbn [bind]. eauto.
  - cbn [bind]. eauto.
Qed.

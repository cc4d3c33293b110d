(** Every call keeps the invariant. *)
From Verif Require Import Base BaseFacts PrioModel PrioSpec PrioProofs IceModel IceSpec IceProofs IceProofs2.
From Coq Require Import Sorted Permutation.

Ltac bok H x E := match type of H with bind ?r _ = Ok _ => destruct r as [x| |] eqn:E; cbn [bind] in H; try discriminate H end.
Ltac flds := cbn [a_cfg a_lite a_tie a_ctrl a_state a_last_now a_lufrag a_rufrag a_locals a_remotes a_pairs a_transmit a_events a_queue a_disc a_nsend a_fresh a_log
   set_locals set_remotes set_pairs set_fresh set_ctrl set_queue set_nsend set_last_now set_state set_transmit set_events set_disc_recv set_creds push_event emit_event].
Ltac okinj H := match type of H with Ok ?x = Ok ?y => let E := fresh in assert (E : y = x) by congruence; clear H; try (subst y) end.

Lemma NoDup_map_inj {A B} (g : A -> B) l x y : NoDup (map g l) -> In x l -> In y l -> g x = g y -> x = y.
Proof.
  induction l as [|a l IH]; cbn; intros N X Y E; [tauto|]. inversion N as [|? ? N1 N2]; subst.
  destruct X as [<-|X], Y as [<-|Y]; auto.
  - exfalso. apply N1. rewrite E. apply in_map. exact Y.
  - exfalso. apply N1. rewrite <- E. apply in_map. exact X.
Qed.

Lemma nominate_ok p b p' : nominate p b = Ok p' ->
  p_nom p = NNone /\ p' = set_nom p (if b then Success else Nominated).
Proof. unfold nominate. destruct (p_nom p); intro H; try discriminate. split; [reflexivity|congruence]. Qed.
Lemma set_nom_ok k ru p n : pair_ok k ru p -> pair_ok k ru (set_nom p n).
Proof. intro H. exact H. Qed.

Lemma get_in {A} (l : list A) i x : get l i = Ok x -> In x l.
Proof. rewrite get_ok. apply nth_error_In. Qed.

(** evaluate_nomination *)
Lemma evalnom_shape a a' : evaluate_nomination a = Ok a' -> a' = a \/
  exists i b b' l r, nth_error a.(a_pairs) i = Some b /\ eligible a.(a_ctrl) b = true
    /\ (forall q, In q a.(a_pairs) -> eligible a.(a_ctrl) q = true -> p_prio q <= p_prio b)
    /\ nominated_prio a <> Some (p_prio b)
    /\ (b' = b /\ is_nominated b = true \/ is_nominated b = false /\ a.(a_ctrl) = true /\ b' = set_nom b (if a.(a_lite) then Success else Nominated))
    /\ nth_error a.(a_locals) b.(p_local) = Some l /\ nth_error a.(a_remotes) b.(p_remote) = Some r
    /\ a' = emit_event (set_nsend (set_pairs a (upd i b' a.(a_pairs))) (Some b.(p_id))) (EvNominated l.(i_proto) (base l) r.(i_addr)).
Proof.
  unfold evaluate_nomination. intro H. destruct (best _ _) as [i|] eqn:B; [|left; congruence].
  apply best_some in B. destruct B as (b & N & EL & MX).
  unfold get at 1 in H. rewrite N in H. cbn [bind] in H.
  destruct (match nominated_prio a with Some _ => _ | None => _ end) eqn:E; [left; congruence|right].
  bok H b' EB. bok H l EL2. bok H r ER2. okinj H. apply get_ok in EL2. apply get_ok in ER2.
  assert (NP : nominated_prio a <> Some (p_prio b)) by (destruct (nominated_prio a) as [z|]; [intro X; assert (z = p_prio b) by congruence; lia|discriminate]).
  assert (Q : b' = b /\ is_nominated b = true \/ is_nominated b = false /\ a_ctrl a = true /\ b' = set_nom b (if a_lite a then Success else Nominated)).
  { destruct (is_nominated b) eqn:IN; cbn [negb andb] in EB.
    - left. split; congruence.
    - right. split; [reflexivity|]. unfold eligible in EL. destruct (a_ctrl a); [|congruence]. split; [reflexivity|].
      cbn [orb] in EB. apply nominate_ok in EB. apply EB. }
  exists i, b, b', l, r. repeat split; auto.
  - destruct Q as [[-> _]|(_ & _ & ->)]; exact EL2.
  - destruct Q as [[-> _]|(_ & _ & ->)]; exact ER2.
  - destruct Q as [[-> _]|(_ & _ & ->)]; reflexivity.
Qed.

Lemma inv_evalnom a a' : Inv a -> evaluate_nomination a = Ok a' -> Inv a'.
Proof.
  intros [[A B C] D] H. apply evalnom_shape in H. destruct H as [->|(i & b & b' & l & r & N & EL & MX & _ & Q & L & R & ->)].
  { constructor; [constructor|]; assumption. }
  assert (Q' : p_id b' = p_id b /\ p_local b' = p_local b /\ p_remote b' = p_remote b /\ p_att b' = p_att b /\ p_prio b' = p_prio b
     /\ pair_ok (a_cfg a) (a_rufrag a) b' /\ is_nominated b' = true).
  { pose proof (iv_ok _ _ _ _ _ _ _ _ A) as OK. rewrite Forall_forall in OK. specialize (OK b (nth_error_In _ _ N)).
    destruct Q as [[-> Q]|(_ & _ & ->)]; [repeat split; auto; apply OK|].
    repeat split; auto; try apply OK. destruct (a_lite a); reflexivity. }
  destruct Q' as (Q1 & Q2 & Q3 & Q4 & Q5 & Q6 & Q7).
  assert (IU : INV (a_cfg a) (a_rufrag a) (a_locals a) (a_remotes a) (upd i b' (a_pairs a)) (a_fresh a) (a_nsend a) (send_of_events (a_log a) None)).
  { eapply inv_upd0; eauto. rewrite Q4; reflexivity. }
  constructor; [constructor|]; flds.
  - rewrite send_app. cbn [send_of_events]. destruct IU as [X1 X2 X3 X4 X5 X6 X7 X8]. constructor; auto.
    + rewrite Forall_forall in X3. apply X3. rewrite <- Q1. apply in_map. apply nth_error_In with i.
      rewrite nth_upd, Nat.eqb_refl, N. reflexivity.
    + intros p IN EQ. assert (p = b') as ->.
      { eapply NoDup_map_inj; [exact X2|exact IN| |congruence]. apply nth_error_In with i. rewrite nth_upd, Nat.eqb_refl, N. reflexivity. }
      split; [exact Q7|]. exists l, r. rewrite Q2, Q3. auto.
  - rewrite state_app. exact B.
  - unfold disc_ok. rewrite disc_app. exact C.
  - eapply upd_sorted; eauto.
Qed.

(** form_pair and form_all keep everything but the order *)
Lemma form_pair_frame a li ri a' : form_pair a li ri = Ok a' ->
  a_locals a' = a_locals a /\ a_remotes a' = a_remotes a /\ a_cfg a' = a_cfg a /\ a_lite a' = a_lite a /\ a_ctrl a' = a_ctrl a
  /\ a_rufrag a' = a_rufrag a /\ a_log a' = a_log a /\ a_state a' = a_state a /\ a_disc a' = a_disc a /\ a_nsend a' = a_nsend a
  /\ a_last_now a' = a_last_now a.
Proof.
  unfold form_pair. intro H. bok H l EL. bok H r ER. destruct (negb _); [okinj H; repeat split|].
  bok H rp EP1. bok H lp EP2. bok H pr EP3. cbn zeta in H. bok H f EF. destruct f as [[i c]|].
  - destruct (_ <=? _); okinj H; repeat split.
  - okinj H; repeat split.
Qed.

Lemma find_redundant_nth a l r ps i j c : find_redundant a l r ps i = Ok (Some (j, c)) ->
  (i <= j)%nat /\ nth_error ps (j - i) = Some c /\ redundant a l r c = Ok true.
Proof.
  revert i. induction ps as [|p t IH]; intros i H; cbn in H; [discriminate|]. bok H b E. destruct b.
  - assert (i = j /\ p = c) as [-> ->] by (split; congruence). rewrite Nat.sub_diag. auto.
  - apply IH in H. destruct H as (L & N & R). replace (j - i)%nat with (S (j - S i)) by lia. repeat split; auto; lia.
Qed.
Lemma copy_nom_fields p q : p_id (copy_nom p q) = p_id p /\ p_local (copy_nom p q) = p_local p /\ p_remote (copy_nom p q) = p_remote p
  /\ p_att (copy_nom p q) = p_att p /\ p_state (copy_nom p q) = p_state p /\ p_resp (copy_nom p q) = p_resp p /\ p_prio (copy_nom p q) = p_prio p
  /\ p_cached (copy_nom p q) = p_cached p.
Proof. unfold copy_nom. destruct (p_nom q); repeat split. Qed.

Lemma inv0_form_pair a li ri a' : Inv0 a ->
  (forall l, nth_error (a_locals a) li = Some l -> i_disc l = false) ->
  (forall r, nth_error (a_remotes a) ri = Some r -> i_disc r = false) ->
  form_pair a li ri = Ok a' -> Inv0 a'.
Proof.
  intros I0 HL HR H. pose proof I0 as [A B C].
  unfold form_pair in H. bok H l EL. bok H r ER. destruct (negb _); [okinj H; exact I0|].
  bok H rp EP1. bok H lp EP2. bok H pr EP3. cbn zeta in H. bok H f EF.
  apply get_ok in EL. apply get_ok in ER.
  assert (LV : live (a_locals a) (a_remotes a) (new_pair (a_fresh a) li ri pr)) by (exists l, r; cbn; repeat split; auto).
  destruct f as [[i c]|].
  - destruct (_ <=? _); okinj H.
    + constructor; auto. flds. apply inv_fresh. exact A.
    + constructor; auto. flds. apply inv_replace; [exact A| |].
      * destruct (copy_nom_fields (new_pair (a_fresh a) li ri pr) c) as (F1 & F2 & F3 & F4 & F5 & F6 & _).
        unfold fresh_pair. destruct (a_lite a); cbn; rewrite ?F1, ?F4, ?F5, ?F6; repeat split.
      * destruct (copy_nom_fields (new_pair (a_fresh a) li ri pr) c) as (F1 & F2 & F3 & F4 & F5 & F6 & _).
        unfold live in *. destruct (a_lite a); cbn; rewrite ?F2, ?F3; exact LV.
  - okinj H. constructor; auto. flds. apply inv_push; [exact A|repeat split|exact LV].
Qed.
Lemma inv0_form_all lr : forall a a', Inv0 a ->
  (forall l r c, In (l, r) lr -> nth_error (a_locals a) l = Some c -> i_disc c = false) ->
  (forall l r c, In (l, r) lr -> nth_error (a_remotes a) r = Some c -> i_disc c = false) ->
  form_all a lr = Ok a' -> Inv0 a' /\
  (a_locals a' = a_locals a /\ a_remotes a' = a_remotes a /\ a_cfg a' = a_cfg a /\ a_lite a' = a_lite a /\ a_ctrl a' = a_ctrl a
  /\ a_rufrag a' = a_rufrag a /\ a_log a' = a_log a /\ a_state a' = a_state a /\ a_disc a' = a_disc a /\ a_nsend a' = a_nsend a
  /\ a_last_now a' = a_last_now a).
Proof.
  induction lr as [|[l r] t IH]; intros a a' I HL HR H; cbn [form_all] in H.
  - okinj H. split; [exact I|]. repeat split.
  - bok H a1 E. pose proof (form_pair_frame _ _ _ _ E) as F. destruct F as (F1 & F2 & F).
    assert (I1 : Inv0 a1).
    { eapply inv0_form_pair; eauto.
      - intros c Hc. eapply HL; [left; reflexivity|exact Hc].
      - intros c Hc. eapply HR; [left; reflexivity|exact Hc]. }
    apply IH in H; auto.
    + destruct H as [I2 G]. split; [exact I2|]. decompose [and] G. decompose [and] F. repeat split; congruence.
    + intros l0 r0 c IN Hc. rewrite F1 in Hc. eapply HL; [right; exact IN|exact Hc].
    + intros l0 r0 c IN Hc. rewrite F2 in Hc. eapply HR; [right; exact IN|exact Hc].
Qed.

Lemma form_pairs_inv a ls rs a' : Inv0 a ->
  (forall l c, In l ls -> nth_error (a_locals a) l = Some c -> i_disc c = false) ->
  (forall r c, In r rs -> nth_error (a_remotes a) r = Some c -> i_disc c = false) ->
  form_pairs a ls rs = Ok a' -> Inv a' /\ (length (a_pairs a') <= k_max_pairs (a_cfg a))%nat /\
  (a_locals a' = a_locals a /\ a_remotes a' = a_remotes a /\ a_cfg a' = a_cfg a /\ a_lite a' = a_lite a /\ a_ctrl a' = a_ctrl a
  /\ a_rufrag a' = a_rufrag a /\ a_log a' = a_log a /\ a_state a' = a_state a /\ a_disc a' = a_disc a /\ a_nsend a' = a_nsend a
  /\ a_last_now a' = a_last_now a).
Proof.
  intros I HL HR H. unfold form_pairs in H. bok H u E1. bok H a1 E2. okinj H.
  apply inv0_form_all in E2; auto.
  - destruct E2 as [[A B C] F]. decompose [and] F. flds. split; [|split; [|repeat split; assumption]].
    + constructor; [constructor|]; flds; auto.
      * apply inv_firstn. eapply inv_perm; [symmetry; apply sort_perm|exact A].
      * apply firstn_sorted, sort_sorted.
    + rewrite firstn_length. replace (a_cfg a1) with (a_cfg a). lia.
  - intros l r c IN. apply in_flat_map in IN. destruct IN as (x & X1 & X2). apply in_map_iff in X2. destruct X2 as (y & Y1 & Y2).
    assert (x = l) as -> by congruence. apply HL. exact X1.
  - intros l r c IN. apply in_flat_map in IN. destruct IN as (x & X1 & X2). apply in_map_iff in X2. destruct X2 as (y & Y1 & Y2).
    assert (y = r) as -> by congruence. apply HR. exact Y2.
Qed.

(** candidates *)
Definition conn_preserved (ls ls' : list icand) : Prop := True.

Lemma place_local_inv a c a' i : Inv a -> i_disc c = false -> place_local a c = Ok (Some (a', i)) ->
  Inv a' /\ (forall x, nth_error (a_locals a') i = Some x -> i_disc x = false) /\ a_remotes a' = a_remotes a
  /\ a_log a' = a_log a /\ a_cfg a' = a_cfg a.
Proof.
  intros [[A B C] D] DC H. unfold place_local in H. cbn zeta in H. destruct (position _ (a_locals a)) as [j|] eqn:P.
  - apply position_some in P. destruct P as (o & N & _). unfold get at 1 in H. rewrite N in H. cbn [bind] in H.
    destruct (_ && _ && _) eqn:E.
    + okinj H. assert (i = j /\ a' = set_locals a (upd j (set_disc o false) (a_locals a))) as [-> ->] by (split; congruence). clear H0.
      split; [|split; [|repeat split]].
      * constructor; [constructor|]; flds; auto. eapply inv_cands; [exact A| |].
        -- intros p _ L. apply live_upd_l; [exact L|]. right. reflexivity.
        -- intros p x _ L. eapply conn_upd_l; eauto.
      * flds. intros x. rewrite nth_upd, Nat.eqb_refl, N. cbn. intro X. assert (x = set_disc o false) as -> by congruence. reflexivity.
    + bok H cp E1. bok H opr E2. destruct (cp <? opr); [discriminate|]. 
      assert (i = length (a_locals (discard_local (set_locals a (upd j (set_disc o true) (a_locals a))) j)) /\
        a' = set_locals (discard_local (set_locals a (upd j (set_disc o true) (a_locals a))) j) (upd j (set_disc o true) (a_locals a) ++ [c])) as [-> ->]
        by (split; unfold discard_local in *; revert H; flds; congruence). clear H.
      unfold discard_local. flds. split; [|split; [|repeat split]].
      * constructor; [constructor|]; flds; auto; [|apply filter_sorted; exact D].
        eapply inv_cands; [apply inv_filter; exact A| |].
        -- intros p IN L. apply filter_In in IN. destruct IN as [_ IN]. apply live_push_l. apply live_upd_l; [exact L|]. left. lia.
        -- intros p x _ L. apply conn_push_l. eapply conn_upd_l; eauto.
      * intros x. rewrite nth_error_app2, Nat.sub_diag by lia. cbn. congruence.
  - assert (i = length (a_locals a) /\ a' = set_locals a (a_locals a ++ [c])) as [-> ->] by (split; congruence).
    flds. split; [|split; [|repeat split]].
    + constructor; [constructor|]; flds; auto. eapply inv_cands; [exact A| |].
      * intros p _ L. apply live_push_l. exact L.
      * intros p x _ L. apply conn_push_l. exact L.
    + intros x. rewrite nth_error_app2, Nat.sub_diag by lia. cbn. congruence.
Qed.

Lemma nondisc_positions f ls r c : (forall v, f v = true -> i_disc v = false) ->
  In r (positions f ls) -> nth_error ls r = Some c -> i_disc c = false.
Proof. intros F IN N. apply positions_spec in IN. destruct IN as (x & X & Y). assert (x = c) as -> by congruence. apply F. exact Y. Qed.

Lemma inv_add_local a c a' : Inv a -> i_disc c = false -> add_local a c = Ok a' -> Inv a'.
Proof.
  intros I DC H. unfold add_local in H. destruct (_ && _); [okinj H; exact I|]. bok H p E. cbn zeta in H. bok H pl EP.
  destruct pl as [[a1 i]|]; [|okinj H; exact I].
  apply place_local_inv in EP; auto. destruct EP as (I1 & DI & _).
  apply form_pairs_inv in H; [tauto|apply I1| |].
  - intros l x [<-|[]]. apply DI.
  - intros r x IN N. eapply nondisc_positions; [|exact IN|exact N]. intros v V. apply andb_true_iff in V. destruct V as [V _]. destruct (i_disc v); [discriminate|reflexivity].
Qed.

Lemma place_remote_inv a c ex a' i : Inv a -> i_disc c = false -> place_remote a c ex = Ok (a', i) ->
  Inv a' /\ (forall x, nth_error (a_remotes a') i = Some x -> i_disc x = false) /\ a_locals a' = a_locals a.
Proof.
  intros [[A B C] D] DC H. unfold place_remote in H. cbn zeta in H.
  assert (PUSH : Ok (set_remotes a (a_remotes a ++ [c]), length (a_remotes a)) = Ok (a', i) ->
    Inv a' /\ (forall x, nth_error (a_remotes a') i = Some x -> i_disc x = false) /\ a_locals a' = a_locals a).
  { intro X. assert (i = length (a_remotes a) /\ a' = set_remotes a (a_remotes a ++ [c])) as [-> ->] by (split; congruence).
    flds. split; [|split; [|reflexivity]].
    - constructor; [constructor|]; flds; auto. eapply inv_cands; [exact A| |].
      + intros p _ L. apply live_push_r. exact L.
      + intros p x _ L. apply conn_push_r. exact L.
    - intros x. rewrite nth_error_app2, Nat.sub_diag by lia. cbn. congruence. }
  destruct (position _ (a_remotes a)) as [j|] eqn:P.
  - apply position_some in P. destruct P as (o & N & F). rewrite !andb_true_iff in F. destruct F as [_ F]. apply addr_eqb_eq in F.
    assert (i = j /\ a' = set_remotes a (upd j c (a_remotes a))) as [-> ->] by (split; congruence).
    flds. split; [|split; [|reflexivity]].
    + constructor; [constructor|]; flds; auto. eapply inv_cands; [exact A| |].
      * intros p _ L. apply live_upd_r; auto.
      * intros p x _ L. eapply conn_upd_r; eauto.
    + intros x. rewrite nth_upd, Nat.eqb_refl, N. cbn. congruence.
  - destruct ex as [j|]; [|auto]. bok H o E. apply get_ok in E. destruct (i_disc o); [|auto].
    assert (i = j /\ a' = set_remotes a (upd j (set_disc o false) (a_remotes a))) as [-> ->] by (split; congruence).
    flds. split; [|split; [|reflexivity]].
    + constructor; [constructor|]; flds; auto. eapply inv_cands; [exact A| |].
      * intros p _ L. apply live_upd_r; auto.
      * intros p x _ L. eapply conn_upd_r; eauto.
    + intros x. rewrite nth_upd, Nat.eqb_refl, E. cbn. intro X. assert (x = set_disc o false) as -> by congruence. reflexivity.
Qed.
Lemma inv_add_remote a c a' : Inv a -> i_disc c = false -> add_remote a c = Ok a' -> Inv a'.
Proof.
  intros I DC H. unfold add_remote in H. destruct (negb _); [okinj H; exact I|].
  destruct (match a_rufrag a with Some _ => _ | None => _ end); [okinj H; exact I|]. cbn zeta in H.
  bok H exa E1. bok H exb E2. destruct exb as [existing|]; [|okinj H; exact I].
  bok H ai E3. destruct ai as [a1 i].
  apply place_remote_inv in E3; auto. destruct E3 as (I1 & DI & EL).
  apply form_pairs_inv in H; [tauto|apply I1| |].
  - intros r x IN N. eapply nondisc_positions; [|exact IN|exact N]. intros v V. apply andb_true_iff in V. destruct V as [V _]. destruct (i_disc v); [discriminate|reflexivity].
  - intros l x [<-|[]]. apply DI.
Qed.

Lemma inv_invalidate_remote a c a' b : Inv a -> invalidate_remote a c = Ok (a', b) -> Inv a'.
Proof.
  intros I H. pose proof I as [[A B C] D]. unfold invalidate_remote in H. destruct (position _ _) as [i|] eqn:P; [|assert (a' = a) as -> by congruence; exact I].
  bok H o E. apply get_ok in E. destruct (negb _); [|assert (a' = a) as -> by congruence; exact I].
  assert (a' = discard_remote (set_remotes a (upd i (set_disc o true) (a_remotes a))) i) as -> by congruence.
  unfold discard_remote. constructor; [constructor|]; flds; auto; [|apply filter_sorted; exact D].
  eapply inv_cands; [apply inv_filter; exact A| |].
  - intros p IN L. apply filter_In in IN. apply live_upd_r; [exact L|]. left. lia.
  - intros p x _ L. eapply conn_upd_r; eauto.
Qed.
Lemma inv_invalidate a c a' b : Inv a -> invalidate a c = Ok (a', b) -> Inv a'.
Proof.
  intros I H. pose proof I as [[A B C] D]. unfold invalidate in H. destruct (position _ _) as [i|] eqn:P; [|eapply inv_invalidate_remote; eauto].
  bok H o E. apply get_ok in E. destruct (negb _); [|eapply inv_invalidate_remote; eauto].
  assert (a' = discard_local (set_locals a (upd i (set_disc o true) (a_locals a))) i) as -> by congruence.
  unfold discard_local. constructor; [constructor|]; flds; auto; [|apply filter_sorted; exact D].
  eapply inv_cands; [apply inv_filter; exact A| |].
  - intros p IN L. apply filter_In in IN. apply live_upd_l; [exact L|]. left. lia.
  - intros p x _ L. eapply conn_upd_l; eauto.
Qed.

Lemma inv_restart a u k : Inv a -> Inv (ice_restart a u k).
Proof.
  intros [[A B C] D]. unfold ice_restart. cbn zeta. apply inv_conn. constructor; [constructor|]; flds.
  - apply inv_nil. eapply iv_ns_lt; eauto.
  - rewrite state_app. exact B.
  - unfold disc_ok. rewrite disc_app. cbn. split; [constructor|intros x []].
  - constructor.
Qed.

Lemma inv_recreate a a' : Inv a -> recreate a = Ok a' -> Inv a'.
Proof.
  intros [[A B C] D] H. unfold recreate in H. cbn zeta in H. bok H a1 E. okinj H. apply inv_conn.
  apply form_pairs_inv in E; [tauto| | |].
  - constructor; auto. flds. apply inv_nil. eapply iv_ns_lt; eauto.
  - intros r x IN N. eapply nondisc_positions; [|exact IN|exact N]. intros v V. cbn beta in V. destruct (i_disc v); [discriminate|reflexivity].
  - intros r x IN N. eapply nondisc_positions; [|exact IN|exact N]. intros v V. cbn beta in V. destruct (i_disc v); [discriminate|reflexivity].
Qed.

Lemma inv_reprio k ru ls rs fr ns sd a ps : forall ps', INV k ru ls rs ps fr ns sd -> reprio a ps = Ok ps' -> INV k ru ls rs ps' fr ns sd.
Proof.
  intros ps' IV H.
  assert (Q : exists f, ps' = map (fun x => set_prio (fst x) (snd x)) (combine ps f) /\ length f = length ps).
  { clear IV. revert ps' H. induction ps as [|p t IH]; intros ps' H; cbn in H.
    - okinj H. exists []. auto.
    - bok H l E1. bok H r E2. bok H lp E3. bok H rp E4. bok H pr E5. bok H t' E6. okinj H.
      destruct (IH _ eq_refl) as (f & -> & L). exists (pr :: f). cbn. auto. }
  destruct Q as (f & -> & L).
  assert (G : forall P : pair -> Prop, (forall p z, P p -> P (set_prio p z)) -> Forall P ps -> Forall P (map (fun x => set_prio (fst x) (snd x)) (combine ps f))).
  { intros P HP FA. apply Forall_map. rewrite Forall_forall in *. intros [p z] IN. apply HP. apply FA. eapply in_combine_l; eauto. }
  assert (TE : tids (map (fun x => set_prio (fst x) (snd x)) (combine ps f)) = tids ps).
  { clear - L. revert f L. induction ps as [|p t IH]; intros [|z f] L; cbn in *; try discriminate; auto. rewrite IH; auto. }
  assert (IE : map p_id (map (fun x => set_prio (fst x) (snd x)) (combine ps f)) = map p_id ps).
  { clear - L. revert f L. induction ps as [|p t IH]; intros [|z f] L; cbn in *; try discriminate; auto. rewrite IH; auto. }
  destruct IV as [A B C D E F G' H']. constructor; rewrite ?TE, ?IE; auto.
  intros q IN EQ. apply in_map_iff in IN. destruct IN as ([p z] & <- & IN). apply in_combine_l in IN. exact (H' p IN EQ).
Qed.
Lemma inv_switch_role a c a' : Inv a -> switch_role a c = Ok a' -> Inv a'.
Proof.
  intros I H. pose proof I as [[A B C] D]. unfold switch_role in H. destruct (Bool.eqb _ _); [okinj H; exact I|]. cbn zeta in H.
  bok H ps E. okinj H. constructor; [constructor|]; flds; auto; [|apply sort_sorted].
  eapply inv_perm; [symmetry; apply sort_perm|]. eapply inv_reprio; eauto.
Qed.

Lemma best_remote_spec f l : forall i cur j q, best_remote f l i cur = Ok (Some (j, q)) ->
  cur = Some (j, q) \/ (exists c, (i <= j)%nat /\ nth_error l (j - i) = Some c /\ f c = true /\ iprio c = Ok q).
Proof.
  induction l as [|c t IH]; intros i cur j q H; cbn in H; [left; congruence|].
  destruct (f c) eqn:FC.
  - bok H pr E. apply IH in H. destruct H as [H|(x & L & N & R)].
    + destruct cur as [[j0 q0]|].
      * destruct (q0 <=? pr).
        -- right. exists c. assert (i = j /\ pr = q) as [-> ->] by (split; congruence). rewrite Nat.sub_diag. auto.
        -- left. exact H.
      * right. exists c. assert (i = j /\ pr = q) as [-> ->] by (split; congruence). rewrite Nat.sub_diag. auto.
    + right. exists x. replace (j - i)%nat with (S (j - S i)) by lia. repeat split; auto; try apply R. lia.
  - apply IH in H. destruct H as [H|(x & L & N & R)]; [left; exact H|].
    right. exists x. replace (j - i)%nat with (S (j - S i)) by lia. repeat split; auto; try apply R. lia.
Qed.

Lemma request_remote_inv a q a' i : Inv a -> request_remote a q = Ok (Some (a', i)) ->
  Inv a' /\ (exists r, nth_error (a_remotes a') i = Some r /\ i_disc r = false /\ i_addr r = q_src q /\ i_proto r = q_proto q)
  /\ a_locals a' = a_locals a /\ a_pairs a' = a_pairs a /\ a_ctrl a' = a_ctrl a /\ a_lite a' = a_lite a /\ a_fresh a' = a_fresh a
  /\ a_cfg a' = a_cfg a /\ a_last_now a' = a_last_now a.
Proof.
  intros I H. pose proof I as [[A B C] D]. unfold request_remote in H. cbn zeta in H. bok H f E. destruct f as [[j z]|].
  - apply best_remote_spec in E. destruct E as [E|(c & _ & N & F & _)]; [discriminate|]. rewrite Nat.sub_0_r in N.
    assert (i = j /\ a' = a) as [-> ->] by (split; congruence).
    rewrite !andb_true_iff in F. destruct F as (F1 & F2 & F3). apply cproto_eqb_eq in F2. apply addr_eqb_eq in F3.
    split; [exact I|]. split; [|repeat split]. exists c. destruct (i_disc c); [discriminate|]. auto.
  - destruct (existsb _ _); [discriminate|].
    assert (i = length (a_remotes a) /\ a' = set_remotes a (a_remotes a ++ [peer_reflexive (q_proto q) (q_src q) (q_src q) (q_prio q) true (a_lufrag a)])) as [-> ->] by (split; congruence).
    flds. split; [|repeat split].
    + constructor; [constructor|]; flds; auto. eapply inv_cands; [exact A| |].
      * intros p _ L. apply live_push_r. exact L.
      * intros p x _ L. apply conn_push_r. exact L.
    + eexists. rewrite nth_error_app2, Nat.sub_diag by lia. cbn. repeat split.
Qed.

Lemma request_pair_inv a li ri a' : Inv a -> (forall r, nth_error (a_remotes a) ri = Some r -> i_disc r = false) ->
  request_pair a li ri = Ok (Some a') ->
  Inv a' /\ (exists p, In p (a_pairs a') /\ of_pair li ri p = true) /\ a_locals a' = a_locals a /\ a_remotes a' = a_remotes a
  /\ a_ctrl a' = a_ctrl a /\ a_lite a' = a_lite a.
Proof.
  intros I HR H. pose proof I as [[A B C] D]. unfold request_pair in H. destruct (position _ _) as [i|] eqn:P.
  - okinj H. assert (a' = a) as -> by congruence. apply position_some in P. destruct P as (p & N & F).
    split; [exact I|]. split; [|repeat split]. exists p. split; [eapply nth_error_In; eauto|exact F].
  - bok H l EL. bok H r ER. apply get_ok in EL. apply get_ok in ER. destruct (i_disc l) eqn:DL; [discriminate|].
    bok H rp E1. bok H lp E2. bok H pr E3.
    assert (a' = set_fresh (set_pairs a (sort_pairs (a_pairs a ++ [new_pair (a_fresh a) li ri pr]))) (a_fresh a + 1)) as -> by congruence.
    flds. split; [|split; [|repeat split]].
    + constructor; [constructor|]; flds; auto; [|apply sort_sorted].
      eapply inv_perm; [symmetry; apply sort_perm|]. apply inv_push; [exact A|repeat split|]. exists l, r. cbn. repeat split; auto.
    + exists (new_pair (a_fresh a) li ri pr). split.
      * eapply Permutation_in; [symmetry; apply sort_perm|]. apply in_or_app. right. left. reflexivity.
      * unfold of_pair. cbn. rewrite !Nat.eqb_refl. reflexivity.
Qed.

Lemma inv_transmit a t : Inv a -> Inv (set_transmit a t).
Proof. intro I. eapply inv_same; [exact I|reflexivity..]. Qed.

Lemma request_finish_inv a q li ri a' : Inv a -> request_finish a q li ri = Ok a' -> Inv a'.
Proof.
  intros I H. pose proof I as [[A B C] D]. unfold request_finish in H. destruct (position _ _) as [i|] eqn:P; [|discriminate].
  bok H p E1. bok H l E2. bok H r E3. cbn zeta in H. bok H p1 E4. bok H a1 E5. okinj H. apply inv_transmit.
  apply get_ok in E1.
  pose proof (iv_ok _ _ _ _ _ _ _ _ A) as OK. rewrite Forall_forall in OK. specialize (OK p (nth_error_In _ _ E1)).
  assert (Q : p_id p1 = p_id p /\ p_local p1 = p_local p /\ p_remote p1 = p_remote p /\ p_att p1 = p_att p /\ p_prio p1 = p_prio p
     /\ pair_ok (a_cfg a) (a_rufrag a) p1 /\ (is_nominated p = true -> is_nominated p1 = true)).
  { match type of E4 with (if ?c then _ else _) = _ => destruct c end.
    - apply nominate_ok in E4. destruct E4 as [NN ->]. repeat split; try apply OK.
      unfold is_nominated in *. cbn in NN. rewrite NN. discriminate.
    - assert (p1 = set_rbr p (Some (q_now q))) as -> by congruence. repeat split; try apply OK. auto. }
  destruct Q as (Q1 & Q2 & Q3 & Q4 & Q5 & Q6 & Q7).
  assert (I1 : Inv (set_pairs a (upd i p1 (a_pairs a)))).
  { constructor; [constructor|]; flds; auto; [|eapply upd_sorted; eauto]. eapply inv_upd0; eauto. rewrite Q4. reflexivity. }
  match type of E5 with (if ?c then _ else _) = _ => destruct c end; [|assert (a1 = set_pairs a (upd i p1 (a_pairs a))) as -> by congruence; exact I1].
  eapply inv_evalnom; eauto.
Qed.

Lemma inv_handle_request_at a q li a' : Inv a -> handle_request_at a q li = Ok a' -> Inv a'.
Proof.
  intros I H. unfold handle_request_at in H. destruct (_ && _); [okinj H; exact I|]. bok H rr E1. destruct rr as [[a1 ri]|]; [|okinj H; exact I].
  apply request_remote_inv in E1; auto. destruct E1 as (I1 & (r & R1 & R2 & _) & _). bok H rp E2. destruct rp as [a2|]; [|okinj H; exact I1].
  apply request_pair_inv in E2; auto.
  - destruct E2 as (I2 & _). eapply request_finish_inv; eauto.
  - intros x N. assert (x = r) as -> by congruence. exact R2.
Qed.
Lemma inv_handle_request a q a' : Inv a -> handle_request a q = Ok a' -> Inv a'.
Proof.
  intros I H. unfold handle_request in H. destruct (a_rufrag a) as [ru|]; [|discriminate]. destruct (negb _); [okinj H; exact I|].
  destruct (position _ _) as [li|]; [|okinj H; exact I].
  destruct (conflict q (a_ctrl a)) as [peer|].
  - destruct (_ <=? _); [okinj H; apply inv_transmit; exact I|]. bok H a1 E. eapply inv_handle_request_at; [|exact H].
    eapply inv_switch_role; eauto.
  - eapply inv_handle_request_at; eauto.
Qed.
Lemma inv_server a q a' : Inv a -> server_message a q = Ok a' -> Inv a'.
Proof.
  intros I H. unfold server_message in H. destruct (a_rufrag a).
  - eapply inv_handle_request; eauto.
  - okinj H. eapply inv_same; [exact I|reflexivity..].
Qed.

Lemma skipn_incl {A} n (l : list A) x : In x (skipn n l) -> In x l.
Proof. intro H. rewrite <- (firstn_skipn n l). apply in_or_app. right. exact H. Qed.
Lemma NoDup_skipn {A} n (l : list A) : NoDup l -> NoDup (skipn n l).
Proof. intro H. rewrite <- (firstn_skipn n l) in H. apply NoDup_app_inv in H. tauto. Qed.

Lemma att_nodup k ru ls rs ps fr ns sd p : INV k ru ls rs ps fr ns sd -> In p ps ->
  NoDup (map t_id (p_att p)) /\ forall x, In x (map t_id (p_att p)) -> x < fr.
Proof.
  intros IV IN. pose proof (iv_tids _ _ _ _ _ _ _ _ IV) as T. pose proof (iv_tids_lt _ _ _ _ _ _ _ _ IV) as TL.
  apply in_split in IN. destruct IN as (l1 & l2 & ->). rewrite tids_app in T, TL. cbn [tids flat_map] in T, TL.
  apply NoDup_app_inv in T. destruct T as (_ & T & _). apply NoDup_app_inv in T. destruct T as (T & _).
  split; [exact T|]. intros x X. apply Forall_app in TL. destruct TL as [_ TL]. apply Forall_app in TL. destruct TL as [TL _].
  rewrite Forall_forall in TL. apply TL. exact X.
Qed.

Lemma new_attempt_shape k p now tid c p' : new_attempt k p now tid c = Ok p' ->
  p_id p' = p_id p /\ p_local p' = p_local p /\ p_remote p' = p_remote p /\ p_prio p' = p_prio p /\ p_resp p' = p_resp p
  /\ p_state p' = (match p_state p with Waiting => InProgress | s => s end) /\ p_att p' <> []
  /\ (exists nm, p_att p' = skipn (length (p_att p) + 1 - k_max_retr k) (p_att p ++ [mkAtt tid now None nm c]))
  /\ (length (p_att p') <= k_max_retr k)%nat /\ is_nominated p' = is_nominated p /\ p_cached p' = None /\ p_rbr p' = p_rbr p.
Proof.
  unfold new_attempt. cbn zeta. intro H.
  set (nm := match match p_nom p with Nominated => Attempt | n => n end with NNone => false | _ => true end) in *.
  rewrite app_length in H. cbn [length] in H.
  destruct (skipn (length (p_att p) + 1 - k_max_retr k) (p_att p ++ [mkAtt tid now None nm c])) as [|x t] eqn:E; [discriminate|]. okinj H. cbn.
  repeat split; try discriminate.
  - exists nm. rewrite E. reflexivity.
  - replace (S (length t)) with (length (x :: t)) by reflexivity. rewrite <- E, skipn_length, app_length. cbn [length]. lia.
  - unfold is_nominated. cbn. destruct (p_nom p); reflexivity.
Qed.

Lemma inv_binding_request a now i a' : Inv a -> binding_request a now i = Ok a' -> Inv a'.
Proof.
  intros I H. pose proof I as [[A B C] D]. unfold binding_request in H. destruct (a_rufrag a) as [ru|] eqn:RU; [|discriminate].
  bok H p E1. bok H l E2. bok H r E3. bok H pr E4. cbn zeta in H. bok H p1 E5. okinj H. apply inv_transmit.
  apply get_ok in E1. apply new_attempt_shape in E5.
  destruct E5 as (Q1 & Q2 & Q3 & Q4 & Q5 & Q6 & Q7 & (nm & Q8) & Q9 & Q10 & Q11 & Q12).
  destruct (att_nodup _ _ _ _ _ _ _ _ p A (nth_error_In _ _ E1)) as [ND LT].
  pose proof (iv_ok _ _ _ _ _ _ _ _ A) as OK. rewrite Forall_forall in OK. specialize (OK p (nth_error_In _ _ E1)).
  constructor; [constructor|]; flds; auto; [|eapply upd_sorted; eauto]. rewrite RU in *.
  eapply inv_upd; eauto.
  - rewrite Q8, <- skipn_map, map_app. apply NoDup_skipn. apply NoDup_app_intro; [exact ND|repeat constructor; auto|].
    intros x X [<-|[]]. apply LT in X. cbn in X. lia.
  - rewrite Q8, <- skipn_map, map_app. intros x X. apply skipn_incl in X. apply in_app_or in X.
    destruct X as [X|[<-|[]]]; auto.
  - destruct OK as (O1 & O2 & O3 & O4 & O5). unfold pair_ok. rewrite Q5, Q6. repeat split; auto; try discriminate.
    + intro X. destruct (p_state p); try discriminate. apply O3. reflexivity.
    + intro X. apply O3 in X. rewrite X. reflexivity.
    + intro X. destruct (p_state p); discriminate.
Qed.

Lemma inv_handle_error a t c a' : Inv a -> handle_error a t c = Ok a' -> Inv a'.
Proof.
  intros I H. unfold handle_error in H. destruct c as [c|]; [|okinj H; exact I]. destruct (negb _); [okinj H; exact I|].
  destruct (find_attempt _ _) as [b|]; [|okinj H; exact I]. destruct (negb _); [okinj H; exact I|]. eapply inv_switch_role; eauto.
Qed.

Lemma answer_shape l tid now l' b : answer l tid now = Some (l', b) ->
  map t_id l' = map t_id l /\ length l' = length l /\ In b l /\ t_id b = tid /\ l <> [].
Proof.
  revert l' b. induction l as [|x t IH]; intros l' b H; cbn in H; [discriminate|].
  destruct (t_id x =? tid) eqn:E.
  - assert (b = x /\ l' = mkAtt (t_id x) (t_sent x) (Some now) (t_nom x) (t_ctrl x) :: t) as [-> ->] by (split; congruence).
    cbn. repeat split; auto; [lia|discriminate].
  - destruct (answer t tid now) as [[t' c]|]; [|discriminate].
    assert (b = c /\ l' = x :: t') as [-> ->] by (split; congruence). destruct (IH _ _ eq_refl) as (I1 & I2 & I3 & I4 & I5).
    cbn. rewrite I1, I2. repeat split; auto. discriminate.
Qed.
Lemma record_shape p now tid p' : record_response p now tid = Ok p' ->
  p_id p' = p_id p /\ p_local p' = p_local p /\ p_remote p' = p_remote p /\ p_prio p' = p_prio p /\ p_resp p' = p_resp p + 1
  /\ p_state p' = (match p_state p with InProgress => Succeeded | s => s end)
  /\ map t_id (p_att p') = map t_id (p_att p) /\ length (p_att p') = length (p_att p) /\ p_att p <> []
  /\ is_nominated p' = is_nominated p /\ p_cached p' = None /\ p_rbr p' = p_rbr p.
Proof.
  unfold record_response. intro H. destruct (answer _ _ _) as [[att b]|] eqn:E; [|discriminate]. okinj H. cbn.
  apply answer_shape in E. destruct E as (E1 & E2 & E3 & E4 & E5). repeat split; auto.
  unfold is_nominated. cbn. destruct (t_nom b), (p_nom p); reflexivity.
Qed.

Lemma inv_handle_response a now tid m a' : Inv a -> handle_response a now tid m = Ok a' -> Inv a'.
Proof.
  intros I H. pose proof I as [[A B C] D]. unfold handle_response in H. destruct (position _ _) as [i|] eqn:P; [|okinj H; exact I].
  bok H p E1. bok H a1 E2. bok H p1 E3. cbn zeta in H. bok H a3 E4. okinj H. apply inv_state.
  apply get_ok in E1. apply record_shape in E3.
  destruct E3 as (Q1 & Q2 & Q3 & Q4 & Q5 & Q6 & Q7 & Q8 & Q9 & Q10 & _).
  assert (I1 : Inv a1 /\ a_pairs a1 = a_pairs a).
  { destruct (position _ (a_locals a)); [assert (a1 = a) as -> by congruence; auto|].
    bok E2 l EL. bok E2 pr EP.
    assert (a1 = set_locals a (a_locals a ++ [peer_reflexive (i_proto l) m (base l) pr false (a_lufrag a)])) as -> by congruence.
    split; [|reflexivity]. constructor; [constructor|]; flds; auto. eapply inv_cands; [exact A| |].
    - intros q _ L. apply live_push_l. exact L.
    - intros q x _ L. apply conn_push_l. exact L. }
  destruct I1 as [I1 EP]. rewrite EP in *.
  assert (I2 : Inv (set_pairs a1 (upd i p1 (a_pairs a)))).
  { destruct I1 as [[A1 B1 C1] D1]. rewrite EP in A1.
    pose proof (iv_ok _ _ _ _ _ _ _ _ A1) as OK. rewrite Forall_forall in OK. specialize (OK p (nth_error_In _ _ E1)).
    constructor; [constructor|]; flds; auto; [|eapply upd_sorted; eauto].
    eapply inv_upd0; eauto.
    - destruct OK as (O1 & O2 & O3 & O4 & O5). unfold pair_ok. rewrite Q5, Q6, Q8. 
      assert (ST : p_state p <> Waiting) by (intro X; apply Q9; auto).
      repeat split; auto; try lia.
      + intro X. destruct (p_state p); congruence.
      + intro X. destruct (p_state p); congruence.
    }
  flds. cbn [a_ctrl set_pairs] in E4. destruct (a_ctrl a1).
  - eapply inv_evalnom; eauto.
  - assert (a3 = set_pairs a1 (upd i p1 (a_pairs a))) as -> by congruence. exact I2.
Qed.

Lemma inv_packet a now pr src m a' : Inv a -> handle_packet a now pr src m = Ok a' -> Inv a'.
Proof.
  intros I H. unfold handle_packet in H. bok H ok E. destruct (negb ok); [okinj H; exact I|]. bok H a1 E1. okinj H.
  apply inv_discovered. destruct m.
  - eapply inv_server; eauto.
  - eapply inv_handle_response; eauto.
  - eapply inv_handle_error; eauto.
  - assert (a1 = a) as -> by congruence. exact I.
Qed.

Lemma next_fields k p now : let g := fst (next_attempt k p now) in
  p_id g = p_id p /\ p_local g = p_local p /\ p_remote g = p_remote p
  /\ p_att g = p_att p /\ p_state g = p_state p /\ p_resp g = p_resp p /\ p_nom g = p_nom p /\ p_prio g = p_prio p.
Proof. unfold next_attempt. destruct (p_cached p); cbn; repeat split. Qed.
Lemma inv_deadlines a now : Inv a -> Inv (set_pairs a (fst (deadlines (a_cfg a) now (a_pairs a)))).
Proof.
  intros [[A B C] D]. constructor; [constructor|]; flds; auto.
  - cbn [deadlines fst]. apply inv_map; [exact A|]. intro p. pose proof (next_fields (a_cfg a) p now) as F. cbn zeta in F. tauto.
  - cbn [deadlines fst]. eapply sorted_prios; [|exact D]. rewrite map_map. apply map_ext. intro p. symmetry. apply (next_fields (a_cfg a) p now).
Qed.

Lemma inv_filter_pairs a f : Inv a -> Inv (set_pairs a (filter f (a_pairs a))).
Proof. intros [[A B C] D]. constructor; [constructor|]; flds; auto; [apply inv_filter; exact A|apply filter_sorted; exact D]. Qed.

Lemma inv_timeout_checks a now a' : Inv a -> timeout_checks a now = Ok a' -> Inv a'.
Proof.
  intros I H. unfold timeout_checks in H. cbn zeta in H.
  assert (I0 : Inv (set_last_now a (Some now))) by (eapply inv_same; [exact I|reflexivity..]).
  bok H a1 E1. pose proof (inv_evalnom _ _ I0 E1) as I1. pose proof (inv_filter_pairs a1 (keep a1 now) I1) as I2.
  bok H a2 E2.
  assert (I3 : Inv a2).
  { destruct (negb _).
    - bok E2 a3 E3. okinj E2. apply inv_state. eapply inv_evalnom; eauto.
    - assert (a2 = set_pairs a1 (filter (keep a1 now) (a_pairs a1))) as -> by congruence. exact I2. }
  destruct (a_rufrag a2); [|okinj H; exact I3]. destruct (a_lite a2).
  - okinj H. pose proof I3 as [[A B C] D]. constructor; [constructor|]; flds; auto.
    + apply inv_map; [exact A|]. intro p. destruct (p_rbr p); cbn; repeat split.
    + eapply sorted_prios; [|exact D]. rewrite map_map. apply map_ext. intro p. destruct (p_rbr p); reflexivity.
  - pose proof (inv_deadlines a2 now I3) as I4. destruct (deadlines _ _ _) as [ps ds]. cbn [fst] in I4.
    destruct (min_from ds 0 None) as [[i d]|].
    + destruct (d <=? now); [|okinj H; exact I4]. eapply inv_binding_request; eauto.
    + okinj H. exact I4.
Qed.
Lemma inv_emit_restart a u : Inv a -> Inv (emit_event a (EvRestart u)).
Proof.
  intros [[A B C] D]. constructor; [constructor|]; flds; auto.
  - rewrite send_app. exact A.
  - rewrite state_app. exact B.
  - unfold disc_ok. rewrite disc_app. cbn. split; [constructor|intros x []].
Qed.
Lemma inv_handle_timeout a now a' : Inv a -> handle_timeout a now = Ok a' -> Inv a'.
Proof.
  intros I H. unfold handle_timeout in H. cbn zeta in H.
  match type of H with match a_rufrag ?x with _ => _ end = _ => assert (I1 : Inv x) end.
  { apply inv_state. destruct (conn_eqb _ _); [apply inv_emit_restart; exact I|exact I]. }
  revert H. match goal with |- match a_rufrag ?x with _ => _ end = _ -> _ => generalize dependent x end. intros b I1 H.
  destruct (a_rufrag b).
  - destruct (drop_old _ _ _).
    + eapply inv_timeout_checks; [|exact H]. eapply inv_same; [exact I1|reflexivity..].
    + eapply inv_handle_request; [|exact H]. eapply inv_same; [exact I1|reflexivity..].
  - eapply inv_timeout_checks; eauto.
Qed.
Lemma inv_poll_timeout a : Inv a -> Inv (fst (poll_timeout a)).
Proof.
  intro I. unfold poll_timeout. destruct (a_last_now a) as [ln|]; [|exact I].
  destruct (a_queue a); [|exact I]. destruct (a_transmit a); [|exact I]. destruct (a_lite a); [exact I|].
  pose proof (inv_deadlines a ln I) as I4. destruct (deadlines _ _ _) as [ps ds]. exact I4.
Qed.

(** New candidates come from the constructors, which never discard. *)

Lemma inv_step a o a' : Inv a -> op_fresh o -> step a o = Ok a' -> Inv a'.
Proof.
  intros I F H. destruct o; cbn [step op_fresh] in *.
  - okinj H. pose proof I as [[A B C] D]. constructor; [constructor|]; flds; auto. eapply inv_ru; eauto.
  - eapply inv_add_local; eauto.
  - eapply inv_add_remote; eauto.
  - bok H x E. destruct x as [a1 b]. okinj H. eapply inv_invalidate; eauto.
  - okinj H. apply inv_restart. exact I.
  - eapply inv_recreate; eauto.
  - eapply inv_packet; eauto.
  - eapply inv_handle_timeout; eauto.
  - okinj H. apply inv_transmit. exact I.
  - okinj H. eapply inv_same; [exact I|reflexivity..].
  - okinj H. apply inv_poll_timeout. exact I.
Qed.
Lemma inv_init k lite ctrl tie u : Inv (init k lite ctrl tie u).
Proof.
  constructor; [constructor|]; cbn; try reflexivity.
  - apply inv_nil. exact I.
  - split; [constructor|intros x []].
  - constructor.
Qed.
Lemma inv_run os : forall a a', Inv a -> Forall op_fresh os -> run a os = Ok a' -> Inv a'.
Proof.
  induction os as [|o t IH]; intros a a' I F H; cbn in H; [okinj H; exact I|].
  inversion F; subst. bok H a1 E. eapply IH; [|eassumption|exact H]. eapply inv_step; eauto.
Qed.

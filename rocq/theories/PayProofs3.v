(** When updating the configuration succeeds. *)
From Coq Require Import Permutation.
From Verif Require Import Base BaseFacts PayModel PaySpec PayProofs PayProofs2.

(** The remote numbers that will be locked. *)
Definition picked (remote : list pp) (p : pp) : list Z :=
  if p_locked p then [] else match best_remote p remote with Some r => own_pts r | None => [] end.
Definition wanted (cfg remote : list pp) : list Z := flat_map (picked remote) cfg.

Lemma max_from_in {A} (key : A -> Z) l : forall c, In (max_from key c l) (c :: l).
Proof. induction l as [|y r IH]; intros c; cbn [max_from]; [left; reflexivity|]. destruct (IH (if key c <=? key y then y else c)) as [E|E].
  - destruct (_ <=? _); rewrite <- E; [right; left|left]; reflexivity.
  - right; right; exact E. Qed.
Lemma best_in p remote r : best_remote p remote = Some r -> In r remote /\ compatible (p_spec p) (p_spec r).
Proof.
  unfold best_remote, max_by. destruct (filter _ remote) as [|y l] eqn:F; [discriminate|].
  intros E. assert (H : max_from (fun r => okey (score (p_spec p) (p_spec r))) y l = r) by congruence.
  assert (I : In r (filter (fun r => is_some (score (p_spec p) (p_spec r))) remote)) by (rewrite F, <- H; apply max_from_in).
  apply filter_In in I as (I & S). split; [exact I|]. apply score_iff. destruct (score _ _); [discriminate|discriminate S].
Qed.
Lemma best_none p remote : best_remote p remote = None -> forall r, In r remote -> ~ compatible (p_spec p) (p_spec r).
Proof.
  unfold best_remote, max_by. destruct (filter _ remote) as [|y l] eqn:F; [|discriminate].
  intros _ r I C. apply score_iff in C.
  assert (X : In r (filter (fun r => is_some (score (p_spec p) (p_spec r))) remote)).
  { apply filter_In. split; [exact I|]. destruct (score _ _); [reflexivity|tauto]. }
  rewrite F in X. destruct X.
Qed.
(** The last of the remotes with the highest score. *)
Lemma max_from_last {T} (key : T -> Z) l : forall c, exists l1 l2, c :: l = l1 ++ max_from key c l :: l2 /\
  (forall y, In y l1 -> key y <= key (max_from key c l)) /\ (forall y, In y l2 -> key y < key (max_from key c l)).
Proof.
  induction l as [|y r IH]; intros c; cbn [max_from].
  - exists [], []. split; [reflexivity|]. split; intros ? [].
  - destruct (Z.leb_spec (key c) (key y)) as [L|L].
    + destruct (IH y) as (l1 & l2 & A & B & C). exists (c :: l1), l2. split; [cbn [app]; f_equal; exact A|]. split; [|exact C].
      intros z [<-|Z]; [|auto]. assert (key y <= key (max_from key y r)); [|lia].
      destruct l1 as [|w l1]; cbn [app] in A; [|apply B; left; congruence].
      assert (y = max_from key y r) as <- by congruence. lia.
    + destruct (IH c) as (l1 & l2 & A & B & C). destruct l1 as [|w l1]; cbn [app] in A.
      * assert (max_from key c r = c) as Q by congruence. rewrite Q in *. exists [], (y :: r).
        split; [reflexivity|]. split; [intros ? []|]. intros z [<-|Z]; [exact L|]. apply C. assert (r = l2) as <- by congruence. exact Z.
      * assert (w = c) as -> by congruence. assert (r = l1 ++ max_from key c r :: l2) as A' by congruence.
        exists (c :: y :: l1), l2. split; [cbn [app]; do 2 f_equal; exact A'|]. split; [|exact C].
        assert (K : key c <= key (max_from key c r)) by (apply B; left; reflexivity).
        intros z [<-|[<-|Z]]; [exact K|lia|]. apply B. right. exact Z.
Qed.

Lemma own_len p : (1 <= length (own_pts p) <= 2)%nat.
Proof. unfold own_pts. destruct (p_resend p); cbn; lia. Qed.
Lemma flat_own_len l : (length (flat_map own_pts l) <= 2 * length l)%nat.
Proof. induction l as [|p r IH]; cbn [flat_map length]; [lia|]. rewrite app_length. pose proof (own_len p). lia. Qed.
Lemma split_len cfg : (length (lockd cfg) + length (free cfg) = length cfg)%nat.
Proof. induction cfg as [|p r IH]; [reflexivity|]. cbn [lockd free filter]. fold (lockd r) (free r). destruct (p_locked p); cbn [negb length]; lia. Qed.

Definition le127 (l : list Z) : Prop := forall v, In v l -> v <= 127.

Lemma remap_total own pt cl un : pt <= 127 -> (forall v, own = Some v -> v <= 127) -> le127 cl -> (length cl + length un < 87)%nat ->
  exists v un', remap true own pt cl un = Ok (v, un') /\ ~ In v cl /\ v <= 127.
Proof.
  intros A B C L. unfold remap, is_claimed. destruct (Z.ltb_spec 127 pt); [lia|]. cbn [bind].
  destruct (mem pt cl) eqn:M.
  2:{ exists pt, un. apply mem_false in M. auto. }
  destruct (find_unclaimed_total cl un L) as (w & W). pose proof (find_unclaimed_some _ _ _ W) as (W1 & W2 & W3).
  assert (W4 : w <= 127). { pose proof (proj2 (proj2 preferred_facts)) as PF. rewrite Forall_forall in PF. apply PF in W3. lia. }
  destruct own as [v|]; cbn [bind].
  - specialize (B v eq_refl). destruct (Z.ltb_spec 127 v); [lia|]. cbn [bind].
    destruct (mem v cl) eqn:V; cbn [bind].
    + rewrite W. eauto.
    + apply mem_false in V. eauto.
  - rewrite W. eauto.
Qed.

Definition okn (p : pp) : Prop := le127 (own_pts p).
Lemma okn_pt p : okn p -> p_pt p <= 127.
Proof. intros H. apply H. left. reflexivity. Qed.
Lemma okn_rs p v : okn p -> p_resend p = Some v -> v <= 127.
Proof. intros H E. apply H. unfold own_pts. rewrite E. right. left. reflexivity. Qed.

Lemma update_param_total p remote cl ctrl un :
  (forall r, In r remote -> okn r) -> okn p -> le127 cl -> (length cl + length un <= 85)%nat ->
  (ctrl = true \/ NoDup (picked remote p ++ cl)) ->
  exists p' cl' un', update_param p remote cl ctrl un = Ok (p', cl', un') /\ le127 cl' /\
    (length cl' <= length cl + if p_locked p then 0 else 2)%nat /\ (length un' <= length un)%nat /\
    (ctrl = false -> Permutation cl' (picked remote p ++ cl)) /\ (length (picked remote p) <= 2)%nat.
Proof.
  intros R P C L D. unfold picked, update_param in *. destruct (best_remote p remote) as [r|] eqn:B.
  2:{ exists p, cl, un. split; [reflexivity|]. split; [auto|]. split; [destruct (p_locked p); lia|]. split; [lia|].
      destruct (p_locked p); cbn; split; auto. }
  apply best_in in B as (B & _). pose proof (R r B) as Rr.
  change (p_locked (set_spec p _)) with (p_locked p).
  change (p_pt (set_spec p _)) with (p_pt p). change (p_resend (set_spec p _)) with (p_resend p).
  destruct (p_locked p).
  { eexists _, cl, un. split; [reflexivity|]. split; [auto|]. split; [lia|]. split; [lia|]. cbn; auto. }
  destruct ctrl.
  - destruct (remap_total (Some (p_pt p)) (p_pt r) cl un) as (v & un1 & E1 & N1 & B1); auto.
    + apply okn_pt; auto.
    + intros v [= <-]. apply okn_pt; auto.
    + lia.
    + rewrite E1. cbn [bind]. rewrite claim_once_total by auto. cbn [bind].
      pose proof (remap_ok _ _ _ _ _ _ _ E1) as (_ & _ & U1 & _).
      assert (C1 : le127 (v :: cl)) by (intros w [<-|W]; auto).
      destruct (p_resend r) as [rtx|] eqn:Hr.
      * destruct (remap_total (p_resend p) rtx (v :: cl) un1) as (w & un2 & E2 & N2 & B2); auto.
        -- apply (okn_rs r); auto.
        -- intros w W. apply (okn_rs p); auto.
        -- cbn [length]. lia.
        -- rewrite E2. cbn [bind]. rewrite claim_once_total by auto. cbn [bind].
           pose proof (remap_ok _ _ _ _ _ _ _ E2) as (_ & _ & U2 & _).
           eexists _, _, _. split; [reflexivity|]. split; [intros x [<-|X]; auto|]. split; [cbn [length]; lia|]. split; [lia|].
           split; [discriminate|]. unfold own_pts; rewrite Hr; cbn; lia.
      * eexists _, _, _. split; [reflexivity|]. split; [auto|]. split; [cbn [length]; lia|]. split; [lia|].
        split; [discriminate|]. unfold own_pts; rewrite Hr; cbn; lia.
  - destruct D as [D|D]; [discriminate|]. cbn [remap bind]. unfold own_pts in D. cbn [app] in D. inversion D as [|? ? D1 D2]; subst.
    rewrite claim_once_total; [|apply okn_pt; auto|intros X; apply D1; apply in_or_app; auto]. cbn [bind].
    assert (C1 : le127 (p_pt r :: cl)) by (intros w [<-|W]; [apply okn_pt; auto|auto]).
    destruct (p_resend r) as [rtx|] eqn:Hr.
    + cbn [app] in D2, D1. inversion D2 as [|? ? D3 D4]; subst.
      rewrite claim_once_total; [|apply (okn_rs r); auto|].
      2:{ intros [X|X]; [apply D1; left; auto|auto]. }
      cbn [bind]. eexists _, _, _. split; [reflexivity|]. split; [intros x [<-|X]; [apply (okn_rs r); auto|auto]|]. split; [cbn [length]; lia|]. split; [lia|].
      unfold own_pts; rewrite Hr. split; [|cbn; lia]. intros _. cbn [app]. apply perm_swap.
    + eexists _, _, _. split; [reflexivity|]. split; [auto|]. split; [cbn [length]; lia|]. split; [lia|].
      unfold own_pts; rewrite Hr. split; [|cbn; lia]. intros _. reflexivity.
Qed.

Lemma update_all_total cfg remote ctrl : forall cl un,
  (forall r, In r remote -> okn r) -> (forall p, In p cfg -> okn p) -> le127 cl -> (length cl + 2 * length (free cfg) + length un <= 86)%nat ->
  (ctrl = true \/ NoDup (wanted cfg remote ++ cl)) ->
  exists cfg' cl' un', update_all cfg remote ctrl cl un = Ok (cfg', cl', un') /\ le127 cl' /\ (length un' <= length un)%nat /\
    (ctrl = false -> Permutation cl' (wanted cfg remote ++ cl)).
Proof.
  induction cfg as [|p r IH]; intros cl un R P C L D; cbn [update_all].
  - exists [], cl, un. split; [reflexivity|]. auto.
  - unfold wanted in D. cbn [flat_map] in D. fold (wanted r remote) in D. cbn [free filter] in L. fold (free r) in L.
    destruct (p_locked p) eqn:K; cbn [negb length] in L.
    + (* locked: nothing claimed *)
      assert (PK : picked remote p = []) by (unfold picked; rewrite K; reflexivity). rewrite PK in D. cbn [app] in D.
      assert (UP : exists p', update_param p remote cl ctrl un = Ok (p', cl, un)).
      { unfold update_param. destruct (best_remote p remote) as [q|]; [|eauto]. change (p_locked (set_spec p _)) with (p_locked p). rewrite K. eauto. }
      destruct UP as (p' & ->). cbn [bind].
      destruct (IH cl un R (fun q Q => P q (or_intror Q)) C L D) as (r' & cl2 & un2 & E2 & F2 & G2 & H2). rewrite E2. cbn [bind].
      eexists _, _, _. split; [reflexivity|]. split; [auto|]. split; [auto|].
      unfold wanted. cbn [flat_map]. rewrite PK. exact H2.
    + destruct (update_param_total p remote cl ctrl un R (P p (or_introl eq_refl)) C ltac:(lia)) as (p' & cl1 & un1 & E & F & G & H & I & J).
      { destruct D as [D|D]; [auto|]. right. rewrite <- app_assoc in D.
        apply NoDup_app_inv in D as (D1 & D2 & D3). apply NoDup_app_intro; auto.
        - eapply NoDup_app_inv in D2. tauto.
        - intros x X Y. apply (D3 x X). apply in_or_app. auto. }
      rewrite E. cbn [bind].
      destruct (IH cl1 un1 R (fun q Q => P q (or_intror Q)) F) as (r' & cl2 & un2 & E2 & F2 & G2 & H2).
      * rewrite K in G. lia.
      * destruct D as [D|D]; [auto|]. destruct ctrl; [auto|]. right. specialize (I eq_refl).
        rewrite I. eapply Permutation_NoDup; [|exact D]. rewrite !app_assoc. apply Permutation_app_tail, Permutation_app_comm.
      * rewrite E2. cbn [bind]. eexists _, _, _. split; [reflexivity|]. split; [auto|]. split; [lia|].
        intros ->. rewrite (H2 eq_refl), (I eq_refl). unfold wanted. cbn [flat_map]. rewrite !app_assoc. apply Permutation_app_tail, Permutation_app_comm.
Qed.

Lemma move_total v cl un : v <= 127 -> (length cl + length un < 87)%nat -> exists w cl' un', move v cl un = Ok (w, cl', un').
Proof.
  intros A L. unfold move, is_claimed. destruct (Z.ltb_spec 127 v); [lia|]. cbn [bind]. destruct (mem v cl); [|eauto].
  destruct (find_unclaimed_total cl un L) as (w & W). rewrite W. apply find_unclaimed_some in W as (W1 & W2 & W3).
  pose proof (proj2 (proj2 preferred_facts)) as PF. rewrite Forall_forall in PF. apply PF in W3.
  rewrite claim_once_total by (auto; lia). cbn [bind]. eauto.
Qed.
Lemma reassign_total cfg : forall cl un, (forall p, In p cfg -> p_locked p = false -> okn p) ->
  (length cl + 2 * length (free cfg) + length un <= 86)%nat -> exists cfg', reassign cfg cl un = Ok cfg'.
Proof.
  induction cfg as [|p r IH]; intros cl un P L; cbn [reassign]; [eauto|].
  cbn [free filter] in L. fold (free r) in L. destruct (p_locked p) eqn:K; cbn [negb length] in L.
  - destruct (IH cl un) as (r' & ->); [intros q Q; apply P; right; exact Q|exact L|]. cbn [bind]. eauto.
  - pose proof (P p (or_introl eq_refl) K) as O.
    destruct (move_total (p_pt p) cl un) as (w & c1 & u1 & E1); [apply okn_pt; auto|lia|]. rewrite E1. cbn [bind].
    apply move_ok in E1 as (_ & _ & _ & _ & _ & _ & _ & A8 & A9).
    destruct (p_resend p) as [v|] eqn:Hr.
    + destruct (move_total v c1 u1) as (w2 & c2 & u2 & E2); [apply (okn_rs p); auto|lia|]. rewrite E2. cbn [bind].
      apply move_ok in E2 as (_ & _ & _ & _ & _ & _ & _ & B8 & B9).
      destruct (IH c2 u2) as (r' & ->); [intros q Q; apply P; right; exact Q|lia|]. cbn [bind]. eauto.
    + destruct (IH c1 u1) as (r' & ->); [intros q Q; apply P; right; exact Q|lia|]. cbn [bind]. eauto.
Qed.

Lemma le_own cfg : le127 (numbers cfg) -> forall p, In p cfg -> okn p.
Proof. intros H p I v Hv. apply H. rewrite numbers_own. apply in_flat_map. eauto. Qed.
Lemma upd_free remote ctrl cfg cfg' : Forall2 (upd_rel remote ctrl) cfg cfg' ->
  (forall p, In p cfg' -> p_locked p = false -> In p cfg) /\ (length (free cfg') <= length (free cfg))%nat /\ length cfg' = length cfg.
Proof.
  induction 1 as [|p p' r r' (A & B & _) F (IH1 & IH2 & IH3)]; [cbn; auto|]. split; [|split; [|cbn [length]; lia]].
  - intros q [<-|Q] K; [left; symmetry; auto|right; auto].
  - cbn [free filter]. fold (free r) (free r'). destruct (p_locked p') eqn:L'; cbn [negb length].
    + destruct (p_locked p); cbn [negb length]; lia.
    + rewrite (B eq_refl) in L'. rewrite L'. cbn [negb length]. lia.
Qed.

Lemma update_params_total cfg remote rr :
  NoDup (numbers cfg) -> le127 (numbers cfg) -> (length cfg <= 21)%nat -> le127 (numbers remote) ->
  (rr = false \/ NoDup (wanted cfg remote ++ numbers (lockd cfg))) ->
  exists cfg', update_params cfg remote rr = Ok cfg'.
Proof.
  intros N B L R D. unfold update_params.
  rewrite numbers_own in N. pose proof (Permutation_NoDup (flat_partition own_pts cfg) N) as N2.
  pose proof (proj1 (NoDup_app_inv _ _ N2)) as N3.
  assert (BL : le127 (flat_map own_pts (lockd cfg))).
  { intros v Hv. apply B. rewrite numbers_own. eapply Permutation_in; [symmetry; apply flat_partition|]. apply in_or_app; auto. }
  destruct (claim_locked_total cfg []) as (cl & E1); [rewrite app_nil_r; exact N3|exact BL|]. rewrite E1. cbn [bind].
  apply claim_locked_ok in E1 as (P1 & N4). rewrite app_nil_r in P1. specialize (N4 (NoDup_nil _)).
  assert (LC : (length cl <= 2 * length (lockd cfg))%nat) by (rewrite (Permutation_length P1); apply flat_own_len).
  assert (LU : (length (unlocked_pts cfg) <= 2 * length (free cfg))%nat) by (apply flat_own_len).
  pose proof (split_len cfg) as SL.
  destruct (update_all_total cfg remote (negb rr) cl (unlocked_pts cfg)) as (cfg1 & cl1 & un1 & E2 & F2 & G2 & H2).
  - apply le_own; auto.
  - apply le_own; auto.
  - intros v Hv. apply BL. eapply Permutation_in; eauto.
  - lia.
  - destruct D as [->|D]; [auto|]. right. eapply Permutation_NoDup; [|exact D]. rewrite numbers_own.
    apply Permutation_app_head. symmetry. exact P1.
  - rewrite E2. cbn [bind]. apply update_all_ok in E2 as (A1 & A2 & A3 & A4 & A5 & A6 & A7); [|exact N4].
    destruct (upd_free _ _ _ _ A1) as (U1 & U2 & U3).
    assert (P2 : Permutation cl1 (flat_map own_pts (lockd cfg1))).
    { rewrite P1 in A3. eapply Permutation_app_inv_r. exact A3. }
    pose proof (Permutation_length P2) as PL. pose proof (flat_own_len (lockd cfg1)) as FL. pose proof (split_len cfg1) as SL1.
    apply reassign_total; [|lia].
    intros p I K. apply (le_own cfg B). auto.
Qed.

(** The other direction: a number wanted twice, or already in use, stops the program. *)
Lemma update_all_wanted cfg remote : forall cl un x, update_all cfg remote false cl un = Ok x -> NoDup cl -> NoDup (wanted cfg remote ++ cl).
Proof.
  induction cfg as [|p r IH]; intros cl un x E N; cbn [update_all] in E; [exact N|].
  destruct (update_param p remote cl false un) as [[[p1 c1] u1]| |] eqn:E1; try discriminate. cbn [bind] in E.
  destruct (update_all r remote false c1 u1) as [[[r2 c2] u2]| |] eqn:E2; try discriminate.
  pose proof E1 as E1'. apply update_param_ok in E1 as (A1 & A2 & A3 & A4 & A5 & A6 & A7 & A8); [|exact N].
  apply IH in E2; [|exact A1]. unfold wanted. cbn [flat_map]. fold (wanted r remote).
  assert (Q : claims_of p p1 = picked remote p).
  { unfold claims_of, picked. destruct (p_locked p) eqn:K; [reflexivity|]. destruct (best_remote p remote) as [q|].
    - destruct A8 as (B1 & B2 & B3 & B4 & B5). rewrite B1. destruct (B4 eq_refl eq_refl) as (B6 & B7). unfold own_pts. rewrite B6, B7. reflexivity.
    - subst p1. rewrite K. reflexivity. }
  rewrite Q in A2. eapply Permutation_NoDup; [|exact E2]. rewrite A2, !app_assoc. apply Permutation_app_tail, Permutation_app_comm.
Qed.
Lemma update_params_wanted cfg remote cfg' : update_params cfg remote true = Ok cfg' -> NoDup (wanted cfg remote ++ numbers (lockd cfg)).
Proof.
  unfold update_params. intros E. destruct (claim_locked cfg []) as [cl| |] eqn:E1; try discriminate. cbn [bind] in E.
  apply claim_locked_ok in E1 as (P1 & N1). specialize (N1 (NoDup_nil _)). rewrite app_nil_r in P1. cbn [negb] in E.
  destruct (update_all cfg remote false cl (unlocked_pts cfg)) as [x| |] eqn:E2; try discriminate.
  apply update_all_wanted in E2; [|exact N1]. rewrite numbers_own. eapply Permutation_NoDup; [|exact E2].
  apply Permutation_app_head. exact P1.
Qed.
(** never an error value *)
Lemma update_params_not_err cfg remote rr : update_params cfg remote rr <> Err.
Proof.
  assert (CO : forall cl v, claim_once cl v <> Err) by (intros; unfold claim_once; destruct (_ <? _); [discriminate|]; destruct (mem _ _); discriminate).
  assert (CL : forall cfg cl, claim_locked cfg cl <> Err).
  { induction cfg0 as [|p r IH]; intros cl; cbn [claim_locked]; [discriminate|]. destruct (p_locked p); [|apply IH].
    destruct (claim_once cl (p_pt p)) as [c1| |] eqn:E1; cbn [bind]; try discriminate; [|exfalso; eapply CO; eauto].
    destruct (claim_resend c1 (p_resend p)) as [c2| |] eqn:E2; cbn [bind]; try discriminate; [apply IH|].
    exfalso. destruct (p_resend p); cbn in E2; [eapply CO; eauto|discriminate]. }
  assert (IC : forall cl v, is_claimed cl v <> Err) by (intros; unfold is_claimed; destruct (_ <? _); discriminate).
  assert (RM : forall c o v cl un, remap c o v cl un <> Err).
  { intros c o v cl un. unfold remap. destruct c; [|discriminate]. destruct (is_claimed cl v) as [k| |] eqn:E; cbn [bind]; try discriminate; [|exfalso; eapply IC; eauto].
    destruct k; [|discriminate]. destruct o as [w|]; cbn [bind].
    - destruct (is_claimed cl w) as [k| |] eqn:E'; cbn [bind]; try discriminate; [|exfalso; eapply IC; eauto].
      destruct k; [|discriminate]. destruct (find_unclaimed _ _); discriminate.
    - destruct (find_unclaimed _ _); discriminate. }
  assert (UP : forall p rem cl c un, update_param p rem cl c un <> Err).
  { intros p rem cl c un. unfold update_param. destruct (best_remote p rem) as [q|]; [|discriminate].
    destruct (p_locked _); [discriminate|].
    destruct (remap c _ (p_pt q) cl un) as [[v u]| |] eqn:E; cbn [bind]; try discriminate; [|exfalso; eapply RM; eauto].
    destruct (claim_once cl v) as [c1| |] eqn:E1; cbn [bind]; try discriminate; [|exfalso; eapply CO; eauto].
    destruct (p_resend q) as [w|]; [|discriminate].
    destruct (remap c _ w c1 u) as [[v2 u2]| |] eqn:E2; cbn [bind]; try discriminate; [|exfalso; eapply RM; eauto].
    destruct (claim_once c1 v2) as [c2| |] eqn:E3; cbn [bind]; try discriminate. exfalso; eapply CO; eauto. }
  assert (UA : forall cfg rem c cl un, update_all cfg rem c cl un <> Err).
  { induction cfg0 as [|p r IH]; intros rem c cl un; cbn [update_all]; [discriminate|].
    destruct (update_param p rem cl c un) as [[[p1 c1] u1]| |] eqn:E; cbn [bind]; try discriminate; [|exfalso; eapply UP; eauto].
    destruct (update_all r rem c c1 u1) as [[[r2 c2] u2]| |] eqn:E2; cbn [bind]; try discriminate. exfalso; eapply IH; eauto. }
  assert (MV : forall v cl un, move v cl un <> Err).
  { intros v cl un. unfold move. destruct (is_claimed cl v) as [k| |] eqn:E; cbn [bind]; try discriminate; [|exfalso; eapply IC; eauto].
    destruct k; [|discriminate]. destruct (find_unclaimed _ _) as [w|]; [|discriminate].
    destruct (claim_once cl w) as [c1| |] eqn:E1; cbn [bind]; try discriminate. exfalso; eapply CO; eauto. }
  assert (RA : forall cfg cl un, reassign cfg cl un <> Err).
  { induction cfg0 as [|p r IH]; intros cl un; cbn [reassign]; [discriminate|]. destruct (p_locked p).
    - destruct (reassign r cl un) eqn:E; cbn [bind]; try discriminate. exfalso; eapply IH; eauto.
    - destruct (move (p_pt p) cl un) as [[[w c1] u1]| |] eqn:E; cbn [bind]; try discriminate; [|exfalso; eapply MV; eauto].
      destruct (p_resend p) as [v|].
      + destruct (move v c1 u1) as [[[w2 c2] u2]| |] eqn:E2; cbn [bind]; try discriminate; [|exfalso; eapply MV; eauto].
        destruct (reassign r c2 u2) eqn:E3; cbn [bind]; try discriminate. exfalso; eapply IH; eauto.
      + destruct (reassign r c1 u1) eqn:E3; cbn [bind]; try discriminate. exfalso; eapply IH; eauto. }
  unfold update_params. destruct (claim_locked cfg []) as [cl| |] eqn:E; cbn [bind]; try discriminate; [|exfalso; eapply CL; eauto].
  destruct (update_all cfg remote (negb rr) cl (unlocked_pts cfg)) as [[[c1 cl1] u1]| |] eqn:E2; cbn [bind]; try discriminate; [apply RA|exfalso; eapply UA; eauto].
Qed.

(** Two peers that negotiate end up with the same numbers. *)
From Coq Require Import Permutation.
From Verif Require Import Base BaseFacts PayModel PaySpec PayProofs PayProofs2 PayProofs3 PayProofs4.

(** All numbers stay below 128. *)
Lemma update_params_le cfg remote rr cfg' : update_params cfg remote rr = Ok cfg' -> NoDup (numbers cfg) -> le127 (numbers cfg) -> le127 (numbers cfg').
Proof.
  unfold update_params. intros E N B. rewrite numbers_own in N.
  destruct (claim_locked cfg []) as [cl| |] eqn:E1; try discriminate. cbn [bind] in E.
  apply claim_locked_ok in E1 as (P1 & N1). specialize (N1 (NoDup_nil _)). rewrite app_nil_r in P1.
  destruct (update_all cfg remote (negb rr) cl (unlocked_pts cfg)) as [[[cfg1 cl1] un1]| |] eqn:E2; try discriminate. cbn [bind] in E.
  apply update_all_ok in E2 as (A1 & A2 & A3 & A4 & A5 & A6 & A7); [|exact N1].
  assert (P2 : Permutation cl1 (flat_map own_pts (lockd cfg1))).
  { rewrite P1 in A3. eapply Permutation_app_inv_r. exact A3. }
  pose proof (flat_partition own_pts cfg) as Q. pose proof (Permutation_NoDup Q N) as N2.
  apply NoDup_app_inv in N2 as (_ & N3 & _).
  destruct (free_flat_incl _ _ _ _ A1) as (F1 & F2).
  assert (U : forall v, In v (flat_map own_pts (free cfg1)) -> In v un1 \/ In v cl1).
  { intros v Hv. apply A5. unfold unlocked_pts. apply F1. exact Hv. }
  apply reassign_ok in E as (B1 & B2 & B3); [|auto|exact U].
  intros v Hv. rewrite numbers_own in Hv. apply (Permutation_in _ (flat_partition own_pts cfg')) in Hv. apply in_app_or in Hv.
  destruct Hv as [Hv|Hv]; [|apply B3; exact Hv]. rewrite (keep_lockd _ _ B1) in Hv.
  apply (Permutation_in _ (Permutation_sym P2)) in Hv.
  assert (Forall (fun v => v <= 127) cl1) as X.
  { apply A7. apply Forall_forall. intros w Hw. apply B. rewrite numbers_own. eapply Permutation_in; [symmetry; apply flat_partition|].
    apply in_or_app. left. eapply Permutation_in; eauto. }
  rewrite Forall_forall in X. auto.
Qed.

(** Without conflicts it does not matter who controls. *)
Lemma remap_id own pt cl un : ~ In pt cl -> pt <= 127 -> remap true own pt cl un = Ok (pt, un).
Proof. intros A B. unfold remap, is_claimed. destruct (Z.ltb_spec 127 pt); [lia|]. cbn [bind]. apply mem_false in A. rewrite A. reflexivity. Qed.
Lemma update_param_ctrl p remote cl un : (forall r, In r remote -> okn r) -> NoDup (picked remote p ++ cl) ->
  update_param p remote cl true un = update_param p remote cl false un.
Proof.
  intros R N. unfold update_param, picked in *. destruct (best_remote p remote) as [r|] eqn:B; [|reflexivity].
  apply best_in in B as (B & _). specialize (R r B). cbv zeta.
  change (p_locked (set_spec p _)) with (p_locked p). destruct (p_locked p); [reflexivity|].
  unfold own_pts in N. cbn [app] in N. inversion N as [|? ? N1 N2]; subst.
  rewrite remap_id; [|intros X; apply N1; apply in_or_app; auto|apply okn_pt; auto].
  change (remap false (Some (p_pt (set_spec p (neg_spec (p_spec p) (p_spec r))))) (p_pt r) cl un) with (Ok (p_pt r, un)). cbn [bind].
  destruct (claim_once cl (p_pt r)) as [c1| |] eqn:C; try reflexivity. cbn [bind].
  apply claim_once_ok in C as (C1 & C2 & ->). destruct (p_resend r) as [v|] eqn:Hr; [|reflexivity].
  cbn [app] in *. inversion N2 as [|? ? N3 N4]; subst.
  rewrite remap_id; [reflexivity| |apply (okn_rs r); auto].
  intros [X|X]; [apply N1; left; auto|auto].
Qed.
Lemma update_all_ctrl cfg remote : (forall r, In r remote -> okn r) -> forall cl un, NoDup (wanted cfg remote ++ cl) ->
  update_all cfg remote true cl un = update_all cfg remote false cl un.
Proof.
  intros R. induction cfg as [|p r IH]; intros cl un N; cbn [update_all]; [reflexivity|].
  unfold wanted in N. cbn [flat_map] in N. fold (wanted r remote) in N. rewrite <- app_assoc in N.
  assert (N' : NoDup (picked remote p ++ cl)).
  { apply NoDup_app_inv in N as (D1 & D2 & D3). apply NoDup_app_intro; auto.
    - apply NoDup_app_inv in D2. tauto.
    - intros x X Y. apply (D3 x X). apply in_or_app. auto. }
  rewrite update_param_ctrl by auto.
  destruct (update_param p remote cl false un) as [[[p1 c1] u1]| |] eqn:E1; try reflexivity. cbn [bind].
  rewrite IH; [reflexivity|].
  assert (NC : NoDup cl) by (apply NoDup_app_inv in N'; tauto).
  pose proof E1 as E1'. apply update_param_ok in E1 as (A1 & A2 & A3 & A4 & A5 & A6 & A7 & A8); [|exact NC].
  assert (Q : claims_of p p1 = picked remote p).
  { unfold claims_of, picked. destruct (p_locked p) eqn:K; [reflexivity|]. destruct (best_remote p remote) as [q|].
    - destruct A8 as (B1 & B2 & B3 & B4 & B5). rewrite B1. destruct (B4 eq_refl eq_refl) as (B6 & B7). unfold own_pts. rewrite B6, B7. reflexivity.
    - subst p1. rewrite K. reflexivity. }
  rewrite Q in A2. rewrite A2. eapply Permutation_NoDup; [|exact N]. rewrite !app_assoc. apply Permutation_app_tail, Permutation_app_comm.
Qed.
Lemma update_params_ctrl cfg remote : le127 (numbers remote) -> NoDup (wanted cfg remote ++ numbers (lockd cfg)) ->
  update_params cfg remote false = update_params cfg remote true.
Proof.
  intros R N. unfold update_params. destruct (claim_locked cfg []) as [cl| |] eqn:E1; try reflexivity. cbn [bind negb].
  apply claim_locked_ok in E1 as (P1 & N1). rewrite app_nil_r in P1. rewrite update_all_ctrl; [reflexivity|apply le_own; exact R|].
  rewrite P1, <- numbers_own. exact N.
Qed.

(** Positions *)
Lemma F2_len {A B} (R : A -> B -> Prop) l0 l : Forall2 R l0 l -> length l0 = length l.
Proof. induction 1; cbn; congruence. Qed.
Lemma F2_r {A B} (R : A -> B -> Prop) l0 l : Forall2 R l0 l -> forall y, In y l -> exists x, In x l0 /\ In (x, y) (combine l0 l) /\ R x y.
Proof.
  induction 1 as [|a b r r' H F IH]; intros y I; [destruct I|]. destruct I as [<-|I].
  - exists a. split; [left; reflexivity|]. split; [left; reflexivity|exact H].
  - destruct (IH y I) as (x & X1 & X2 & X3). exists x. split; [right; exact X1|]. split; [right; exact X2|exact X3].
Qed.
Lemma F2_l {A B} (R : A -> B -> Prop) l0 l : Forall2 R l0 l -> forall x, In x l0 -> exists y, In y l /\ In (x, y) (combine l0 l) /\ R x y.
Proof.
  induction 1 as [|a b r r' H F IH]; intros y I; [destruct I|]. destruct I as [<-|I].
  - exists b. split; [left; reflexivity|]. split; [left; reflexivity|exact H].
  - destruct (IH y I) as (x & X1 & X2 & X3). exists x. split; [right; exact X1|]. split; [right; exact X2|exact X3].
Qed.
Lemma comb_fun {A B} (l0 : list A) : forall (l : list B) x y z, NoDup l0 -> In (x, y) (combine l0 l) -> In (x, z) (combine l0 l) -> y = z.
Proof.
  induction l0 as [|a r IH]; intros l x y z N I J; [destruct I|]. destruct l as [|b l]; [destruct I|].
  inversion N as [|? ? N1 N2]; subst. cbn [combine] in I, J. destruct I as [I|I]; destruct J as [J|J].
  - congruence.
  - exfalso. apply N1. assert (a = x) as -> by congruence. apply in_combine_l in J. exact J.
  - exfalso. apply N1. assert (a = x) as -> by congruence. apply in_combine_l in I. exact I.
  - eapply IH; eauto.
Qed.
Lemma NoDup_flat_pos {A B} (l0 : list A) : forall (l : list B) (f : B -> list Z), length l0 = length l -> NoDup l0 -> (forall y, In y l -> NoDup (f y)) ->
  (forall x y x' y' v, In (x, y) (combine l0 l) -> In (x', y') (combine l0 l) -> In v (f y) -> In v (f y') -> x = x') -> NoDup (flat_map f l).
Proof.
  induction l0 as [|a r IH]; intros l f L N F D; destruct l as [|b l]; try discriminate; [constructor|]. cbn [flat_map].
  inversion N as [|? ? N1 N2]; subst. apply NoDup_app_intro.
  - apply F. left. reflexivity.
  - apply IH; auto.
    + intros y Y. apply F. right. exact Y.
    + intros x y x' y' v I J. apply D; right; assumption.
  - intros v V W. apply in_flat_map in W as (y & Y & W). 
    assert (exists x, In (x, y) (combine r l)) as (x & X).
    { clear -Y L. cbn [length] in L. assert (L' : length r = length l) by congruence. clear L. revert l Y L'.
      induction r as [|c r IH]; intros l Y L; destruct l as [|d l]; try discriminate; [destruct Y|].
      destruct Y as [<-|Y]; [exists c; left; reflexivity|]. cbn [length] in L. destruct (IH l Y ltac:(congruence)) as (x & X). exists x. right. exact X. }
    assert (a = x) as ->.
    { apply (D a b x y v); [left; reflexivity|right; exact X|exact V|exact W]. }
    apply N1. apply in_combine_l in X. exact X.
Qed.

Definition good (cfg : list pp) : Prop :=
  NoDup (numbers cfg) /\ le127 (numbers cfg) /\ (length cfg <= 21)%nat /\ (forall p, In p cfg -> writable (p_spec p)).
Lemma good_nodup cfg : NoDup (numbers cfg) -> NoDup cfg.
Proof.
  rewrite numbers_own. induction cfg as [|p r IH]; intros N; [constructor|]. cbn [flat_map] in N.
  apply NoDup_app_inv in N as (A & B & C). constructor; [|auto]. intros I. apply (C (p_pt p)); [left; reflexivity|].
  apply in_flat_map. exists p. split; [exact I|left; reflexivity].
Qed.
Lemma share cfg p q v : NoDup (numbers cfg) -> In p cfg -> In q cfg -> In v (own_pts p) -> In v (own_pts q) -> p = q.
Proof.
  rewrite numbers_own. induction cfg as [|x r IH]; intros N I J V W; [destruct I|]. cbn [flat_map] in N.
  apply NoDup_app_inv in N as (A & B & C). destruct I as [->|I]; destruct J as [J|J].
  - auto.
  - exfalso. apply (C v V). apply in_flat_map. eauto.
  - subst. exfalso. apply (C v W). apply in_flat_map. eauto.
  - auto.
Qed.
Lemma same_own p q : same_numbers p q -> own_pts p = own_pts q.
Proof. intros (A & B). unfold own_pts. rewrite A, B. reflexivity. Qed.

Definition matched (A : list pp) (M : pp -> Prop) (b0 b : pp) : Prop :=
  exists a, In a A /\ M a /\ compatible (p_spec b0) (p_spec a) /\ p_locked b = true /\ p_spec b = neg_spec (p_spec b0) (p_spec a) /\ same_numbers b a.
Definition unmatched (A : list pp) (M : pp -> Prop) (b0 b : pp) : Prop :=
  (forall a, In a A -> M a -> ~ compatible (p_spec b0) (p_spec a)) /\ p_spec b = p_spec b0 /\ p_locked b = p_locked b0 /\
  (p_locked b0 = true -> same_numbers b b0).
Definition pos A M b0 b := matched A M b0 b \/ unmatched A M b0 b.
(** each locked entry has a locked partner with its numbers *)
Definition lcov (B A : list pp) : Prop := forall b, In b B -> p_locked b = true ->
  exists a, In a A /\ p_locked a = true /\ compatible (p_spec b) (p_spec a) /\ same_numbers b a.

Section Phase.
  Context (A B0 : list pp).
  Hypothesis GA : good A.
  Hypothesis NB : NoDup B0.
  Hypothesis SA : separated A.
  Hypothesis SB : separated B0.
  Hypothesis LB : forall b, In b B0 -> p_locked b = true -> exists a, In a A /\ compatible (p_spec b) (p_spec a) /\ same_numbers b a.

  Lemma uniq a a' s : In a A -> In a' A -> compatible s (p_spec a) -> compatible s (p_spec a') -> a = a'.
  Proof. intros I J C D. apply (SA s); auto; apply compat_sym; auto. Qed.
  Lemma neg_uniq b a a' : In a A -> In a' A -> compatible b (p_spec a') -> compatible (neg_spec b (p_spec a')) (p_spec a) -> a = a'.
  Proof.
    intros I J C D. destruct (neg_widen b (p_spec a') (p_spec a) (p_spec a) C D (compat_refl _)) as [X|X].
    - eapply uniq; eauto.
    - apply (SA (p_spec a')); auto. apply compat_refl.
  Qed.
  Lemma pos_compat M b0 b a : pos A M b0 b -> In a A -> (compatible (p_spec b) (p_spec a) <-> compatible (p_spec b0) (p_spec a)).
  Proof.
    intros [(a1 & I1 & M1 & C1 & L1 & S1 & N1)|(U & S1 & _)] I; [|rewrite S1; tauto]. rewrite S1. split; intros C.
    - rewrite (neg_uniq _ _ _ I I1 C1 C). exact C1.
    - rewrite (uniq _ _ _ I I1 C C1). apply neg_compat. exact C1.
  Qed.
  Lemma neg_idem s t : neg_spec (neg_spec s t) t = neg_spec s t.
  Proof.
    unfold neg_spec. destruct (codec_beq (s_codec s) (s_codec t)) eqn:E; [|rewrite E; reflexivity]. cbn [s_codec s_clock s_channels s_fmt]. rewrite E.
    f_equal. destruct (s_codec s); try reflexivity; cbn [neg_fmt f_minptime f_stereo f_sprop_stereo f_fec f_dtx f_asym f_pmode f_plid f_pid f_profile f_level_idx f_tier f_h265 f_h266 f_don]; f_equal.
    - unfold neg_ptl. destruct (f_h265 (s_fmt t)) as [r|]; [|reflexivity]. destruct (f_h265 (s_fmt s)) as [l|]; unfold with_level; cbn [pl_level pl_profile pl_tier]; do 2 f_equal; lia || (destruct r; cbn; f_equal; lia).
    - unfold neg_don. destruct (f_don (s_fmt t)); reflexivity.
    - unfold neg_ptl. destruct (f_h266 (s_fmt t)) as [r|]; [|reflexivity]. destruct (f_h266 (s_fmt s)) as [l|]; unfold with_level; cbn [pl_level pl_profile pl_tier]; do 2 f_equal; lia || (destruct r; cbn; f_equal; lia).
    - unfold neg_don. destruct (f_don (s_fmt t)); reflexivity.
  Qed.

  (** reading the offered subset *)
  Context (S : list pp).
  Hypothesis IS : incl S A.
  Hypothesis NS : NoDup (numbers S).
  Lemma wire_in r : In r (wire S) -> exists a, In a S /\ key r = key a.
  Proof.
    intros I. assert (K : map key (wire S) = map key S) by (apply wire_key; [intros p P; apply GA; auto|exact NS]).
    apply (in_map key) in I. rewrite K in I. apply in_map_iff in I as (a & E & J). exists a. auto.
  Qed.
  Lemma in_wire a : In a S -> exists r, In r (wire S) /\ key r = key a.
  Proof.
    intros I. assert (K : map key (wire S) = map key S) by (apply wire_key; [intros p P; apply GA; auto|exact NS]).
    apply (in_map key) in I. rewrite <- K in I. apply in_map_iff in I as (r & E & J). exists r. auto.
  Qed.
  Lemma key_own p q : key p = key q -> own_pts p = own_pts q /\ p_spec p = p_spec q /\ same_numbers p q.
  Proof.
    unfold key, own_pts. intros E. assert (E1 : p_pt p = p_pt q) by congruence. assert (E2 : p_resend p = p_resend q) by congruence.
    assert (E3 : p_spec p = p_spec q) by congruence. rewrite E1, E2, E3. unfold same_numbers. auto.
  Qed.
  Lemma wire_le : le127 (numbers (wire S)).
  Proof.
    intros v V. rewrite numbers_own in V. apply in_flat_map in V as (r & I & V). destruct (wire_in r I) as (a & J & E).
    apply key_own in E as (E & _). rewrite E in V. apply (proj1 (proj2 GA)). rewrite numbers_own. apply in_flat_map. eauto.
  Qed.

  Definition claims (b : pp) : list Z := picked (wire S) b ++ if p_locked b then own_pts b else [].
  Lemma flat_two {T} (f g : T -> list Z) l : Permutation (flat_map f l ++ flat_map g l) (flat_map (fun x => f x ++ g x) l).
  Proof.
    induction l as [|x r IH]; [reflexivity|]. cbn [flat_map]. rewrite <- IH, <- !app_assoc. apply Permutation_app_head.
    rewrite !app_assoc. apply Permutation_app_tail, Permutation_app_comm.
  Qed.
  Lemma flat_lockd l : numbers (lockd l) = flat_map (fun b => if p_locked b then own_pts b else []) l.
  Proof. rewrite numbers_own. induction l as [|x r IH]; [reflexivity|]. cbn [lockd filter flat_map]. fold (lockd r). destruct (p_locked x); cbn [flat_map app]; rewrite IH; reflexivity. Qed.

  Lemma claims_from M b0 b v : In b0 B0 -> pos A M b0 b -> In v (claims b) -> exists a, In a A /\ In v (own_pts a) /\ compatible (p_spec b0) (p_spec a).
  Proof.
    intros I0 P V. unfold claims, picked in V. destruct (p_locked b) eqn:L.
    - cbn [app] in V. destruct P as [(a & I & Ma & C & _ & _ & N)|(U & _ & K & N)].
      + exists a. rewrite <- (same_own _ _ N). auto.
      + rewrite L in K. destruct (LB b0 I0 (eq_sym K)) as (a & I & C & N'). exists a. split; [exact I|]. split; [|exact C].
        rewrite <- (same_own _ _ N'), <- (same_own _ _ (N (eq_sym K))). exact V.
    - rewrite app_nil_r in V. destruct (best_remote b (wire S)) as [r|] eqn:B; [|destruct V].
      apply best_in in B as (B & C). destruct (wire_in r B) as (a & J & E). apply key_own in E as (E1 & E2 & _).
      exists a. rewrite <- E1. split; [auto|]. split; [exact V|]. rewrite E2 in C. apply (pos_compat M b0 b a P (IS _ J)). exact C.
  Qed.
  Lemma own_nodup cfg p : NoDup (numbers cfg) -> In p cfg -> NoDup (own_pts p).
  Proof.
    rewrite numbers_own. induction cfg as [|x r IH]; intros N I; [destruct I|]. cbn [flat_map] in N. apply NoDup_app_inv in N as (N1 & N2 & _).
    destruct I as [->|I]; auto.
  Qed.
  Lemma no_conflict M B : good B -> Forall2 (pos A M) B0 B -> NoDup (wanted B (wire S) ++ numbers (lockd B)).
  Proof.
    intros GB F. rewrite flat_lockd. unfold wanted. eapply Permutation_NoDup; [symmetry; apply flat_two|].
    change (NoDup (flat_map claims B)). apply (NoDup_flat_pos B0).
    - eapply F2_len; eauto.
    - exact NB.
    - intros b I. unfold claims, picked. destruct (p_locked b); cbn [app]; [eapply own_nodup; [apply GB|exact I]|]. rewrite app_nil_r.
      destruct (best_remote b (wire S)) as [r|] eqn:E; [|constructor]. apply best_in in E as (E & _). apply wire_in in E as (a & J & E).
      apply key_own in E as (-> & _). eapply own_nodup; [apply GA|auto].
    - assert (P2 : forall x y, In (x, y) (combine B0 B) -> In x B0 /\ pos A M x y).
      { clear -F. induction F as [|a b r r' H F IH]; [intros x y []|]. intros x y [E|I].
        - assert (a = x /\ b = y) as (-> & ->) by (split; congruence). split; [left; reflexivity|exact H].
        - destruct (IH x y I). split; [right; assumption|assumption]. }
      intros x y x' y' v I J V W. destruct (P2 _ _ I) as (Ix & Px). destruct (P2 _ _ J) as (Ix' & Px').
      destruct (claims_from M x y v Ix Px V) as (a & A1 & A2 & A3). destruct (claims_from M x' y' v Ix' Px' W) as (a' & A1' & A2' & A3').
      assert (a = a') as <- by (apply (share A a a' v); auto; apply GA). apply (SB (p_spec a)); auto.
  Qed.

  Lemma step_pos M rr b0 b b' : In b0 B0 -> pos A M b0 b -> step_rel (wire S) rr b b' -> rr = false -> pos A (fun a => M a \/ In a S) b0 b'.
  Proof.
    intros I0 P (q & (U1 & U2 & U3) & (K1 & K2 & K3 & K4)) ->. destruct (best_remote b (wire S)) as [r|] eqn:B.
    - destruct U3 as (V1 & V2 & V3 & V4 & V5). apply best_in in B as (B & C). destruct (wire_in r B) as (a & J & E).
      apply key_own in E as (E1 & E2 & E3). rewrite E2 in C. pose proof (proj1 (pos_compat M b0 b a P (IS _ J)) C) as C0.
      left. exists a. rewrite V1 in K2. specialize (K3 V1). subst b'. split; [auto|]. split; [auto|]. split; [exact C0|]. split; [exact V1|].
      rewrite V2, E2. destruct P as [(a1 & I1 & M1 & C1 & L1 & S1 & N1)|(U & S1 & L1 & N1)].
      + assert (a = a1) as <- by (apply (neg_uniq (p_spec b0)); auto; rewrite <- S1; exact C).
        rewrite S1. split; [apply neg_idem|]. destruct (V3 L1) as (X & Y). unfold same_numbers in *. rewrite X, Y. exact N1.
      + rewrite S1. split; [reflexivity|]. destruct (p_locked b) eqn:Lb.
        * destruct (V3 eq_refl) as (X & Y). symmetry in L1. destruct (LB b0 I0 L1) as (a1 & I1 & C1 & N2).
          assert (a = a1) as <- by (eapply uniq; eauto). specialize (N1 L1). unfold same_numbers in *. rewrite X, Y. destruct N1 as (-> & ->). exact N2.
        * destruct (V4 eq_refl eq_refl) as (X & Y). unfold same_numbers in *. rewrite X, Y. exact E3.
    - subst q. pose proof (best_none _ _ B) as BN.
      assert (NC : forall a, In a S -> ~ compatible (p_spec b0) (p_spec a)).
      { intros a J C. destruct (in_wire a J) as (r & R & E). apply key_own in E as (_ & E2 & _). apply (BN r R). rewrite E2.
        apply (pos_compat M b0 b a P (IS _ J)). exact C. }
      destruct P as [(a1 & I1 & M1 & C1 & L1 & S1 & N1)|(U & S1 & L1 & N1)].
      + left. rewrite (K3 L1). exists a1. auto 8.
      + right. split; [|split; [congruence|split; [congruence|]]].
        * intros a I [X|X]; [apply U; auto|apply NC; exact X].
        * intros L. rewrite <- L1 in L. rewrite (K3 L). apply N1. congruence.
  Qed.

  Lemma phase_step M B rr : good B -> Forall2 (pos A M) B0 B ->
    exists B', update_params B (wire S) rr = Ok B' /\ good B' /\ Forall2 (pos A (fun a => M a \/ In a S)) B0 B'.
  Proof.
    intros GB F. pose proof (no_conflict M B GB F) as NC. destruct GB as (G1 & G2 & G3 & G4).
    assert (E : update_params B (wire S) rr = update_params B (wire S) true).
    { destruct rr; [reflexivity|]. apply update_params_ctrl; [apply wire_le|exact NC]. }
    rewrite E. destruct (update_params_total B (wire S) true G1 G2 G3 wire_le (or_intror NC)) as (B' & E').
    exists B'. split; [exact E'|]. pose proof (update_params_le _ _ _ _ E' G1 G2) as LE.
    apply update_params_ok in E' as (N' & ST); [|exact G1].
    assert (W : forall p', In p' B' -> writable (p_spec p')).
    { intros p' I. destruct (F2_r _ _ _ ST p' I) as (p & J & _ & (q & (U1 & U2 & U3) & (K1 & _))). rewrite K1.
      destruct (best_remote p (wire S)) as [r|].
      - destruct U3 as (_ & -> & _). specialize (G4 p J). unfold writable in *. rewrite neg_codec, neg_clock, neg_channels. exact G4.
      - subst q. apply G4. exact J. }
    split.
    - split; [exact N'|]. split; [exact LE|]. split; [|exact W]. rewrite <- (F2_len _ _ _ ST). exact G3.
    - clear E NC LE W N'.
      assert (X : forall l0 l l', incl l0 B0 -> Forall2 (pos A M) l0 l -> Forall2 (step_rel (wire S) (negb true)) l l' -> Forall2 (pos A (fun a => M a \/ In a S)) l0 l').
      { induction l0 as [|b0 r0 IH]; intros l l' IL F1 F2; inversion F1; subst; inversion F2; subst; constructor.
        - eapply step_pos; eauto. apply IL. left. reflexivity.
        - eapply IH; eauto. intros z Z. apply IL. right. exact Z. }
      eapply X; eauto. intros z Z. exact Z.
  Qed.
End Phase.

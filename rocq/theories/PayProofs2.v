(** What updating the configuration does to the payload type numbers. *)
From Coq Require Import Permutation.
From Verif Require Import Base BaseFacts PayModel PaySpec PayProofs.

Lemma NoDup_app_l {A} (l1 l2 : list A) : NoDup (l1 ++ l2) -> NoDup l1.
Proof.
  induction l1 as [|x t IH]; cbn; [constructor|]. intro H. inversion H as [|? ? N D]; subst. constructor; [|auto].
  intro IN. apply N. apply in_or_app. left. exact IN.
Qed.
Lemma NoDup_app_inv {A} (l1 l2 : list A) : NoDup (l1 ++ l2) -> NoDup l1 /\ NoDup l2 /\ forall x, In x l1 -> ~ In x l2.
Proof.
  induction l1 as [|x t IH]; cbn.
  - intro H. repeat split; [constructor|exact H|tauto].
  - intro H. inversion H as [|? ? N D]; subst. destruct (IH D) as (A1 & A2 & A3). repeat split; auto.
    + constructor; [|exact A1]. intro. apply N, in_or_app. auto.
    + intros y [<-|Y] Y2; [apply N, in_or_app; auto|apply (A3 y Y Y2)].
Qed.
Lemma NoDup_app_intro {A} (l1 l2 : list A) : NoDup l1 -> NoDup l2 -> (forall x, In x l1 -> ~ In x l2) -> NoDup (l1 ++ l2).
Proof.
  induction l1 as [|x t IH]; cbn; intros A1 A2 A3; [exact A2|]. inversion A1 as [|? ? N D]; subst. constructor.
  - intro IN. apply in_app_or in IN. destruct IN as [IN|IN]; [tauto|]. apply (A3 x); auto.
  - apply IH; auto.
Qed.

Lemma mem_iff v l : mem v l = true <-> In v l.
Proof.
  unfold mem. rewrite existsb_exists. split.
  - intros (w & A & B). apply Z.eqb_eq in B. subst. auto.
  - intros A. exists v. rewrite Z.eqb_refl. auto.
Qed.
Lemma mem_false v l : mem v l = false <-> ~ In v l.
Proof. rewrite <- mem_iff. destruct (mem v l); split; congruence. Qed.
Lemma numbers_own cfg : numbers cfg = flat_map own_pts cfg.
Proof. unfold numbers. apply flat_map_ext. intros p. unfold own_pts. destruct (p_resend p); reflexivity. Qed.

Lemma claim_once_ok cl pt cl' : claim_once cl pt = Ok cl' -> pt <= 127 /\ ~ In pt cl /\ cl' = pt :: cl.
Proof.
  unfold claim_once. destruct (Z.ltb_spec 127 pt); [discriminate|]. destruct (mem pt cl) eqn:E; [discriminate|].
  intros [= <-]. apply mem_false in E. auto.
Qed.
Lemma claim_once_total cl pt : pt <= 127 -> ~ In pt cl -> claim_once cl pt = Ok (pt :: cl).
Proof.
  intros A B. unfold claim_once. destruct (Z.ltb_spec 127 pt); [lia|]. apply mem_false in B. rewrite B. reflexivity.
Qed.

Definition lockd (cfg : list pp) : list pp := filter p_locked cfg.
Definition free (cfg : list pp) : list pp := filter (fun p => negb (p_locked p)) cfg.

Lemma flat_partition {A} (f : pp -> list A) cfg : Permutation (flat_map f cfg) (flat_map f (lockd cfg) ++ flat_map f (free cfg)).
Proof.
  induction cfg as [|p r IH]; [constructor|]. cbn [flat_map lockd free filter]. fold (lockd r) (free r).
  destruct (p_locked p); cbn [negb flat_map].
  - rewrite <- app_assoc. apply Permutation_app_head, IH.
  - rewrite IH, !app_assoc. apply Permutation_app_tail, Permutation_app_comm.
Qed.

Lemma claim_locked_ok cfg : forall cl cl', claim_locked cfg cl = Ok cl' ->
  Permutation cl' (flat_map own_pts (lockd cfg) ++ cl) /\ (NoDup cl -> NoDup cl').
Proof.
  induction cfg as [|p r IH]; intros cl cl'; cbn [claim_locked lockd filter].
  - intros [= <-]. split; auto.
  - fold (lockd r). destruct (p_locked p); [|apply IH].
    destruct (claim_once cl (p_pt p)) as [c1| |] eqn:E1; try discriminate. cbn [bind].
    apply claim_once_ok in E1 as (A & B & ->). cbn [flat_map]. unfold own_pts at 1.
    destruct (p_resend p) as [v|]; cbn [claim_resend bind].
    + destruct (claim_once _ v) as [c2| |] eqn:E2; try discriminate. cbn [bind].
      apply claim_once_ok in E2 as (C & D & ->). intros E. apply IH in E as (F & G).
      split.
      * rewrite F. cbn [app]. rewrite <- !Permutation_middle. apply perm_swap.
      * intros N. apply G. constructor; [exact D|]. constructor; auto.
    + intros E. apply IH in E as (F & G). split.
      * rewrite F. cbn [app]. rewrite <- !Permutation_middle. reflexivity.
      * intros N. apply G. constructor; auto.
Qed.
Lemma claim_locked_total cfg : forall cl,
  NoDup (flat_map own_pts (lockd cfg) ++ cl) -> (forall v, In v (flat_map own_pts (lockd cfg)) -> v <= 127) ->
  exists cl', claim_locked cfg cl = Ok cl'.
Proof.
  induction cfg as [|p r IH]; intros cl N B; cbn [claim_locked]; [eauto|].
  cbn [lockd filter] in N, B. fold (lockd r) in N, B. destruct (p_locked p); [|apply IH; auto].
  cbn [flat_map] in N, B. unfold own_pts at 1 in N. unfold own_pts at 1 in B. cbn [app] in N, B.
  inversion N as [|? ? N1 N2]; subst.
  rewrite claim_once_total; [|apply B; left; reflexivity|].
  2:{ intros X. apply N1. apply in_or_app. right. exact X. }
  cbn [bind]. destruct (p_resend p) as [v|]; cbn [claim_resend bind app] in *.
  - inversion N2 as [|? ? N3 N4]; subst. rewrite claim_once_total; [|apply B; right; left; reflexivity|].
    2:{ intros [X|X]; [subst; apply N1; left; reflexivity|]. apply N3. apply in_or_app. right. exact X. }
    cbn [bind]. apply IH; [|intros w Hw; apply B; right; right; exact Hw].
    assert (Q : Permutation (p_pt p :: v :: flat_map own_pts (lockd r) ++ cl) (flat_map own_pts (lockd r) ++ v :: p_pt p :: cl)).
    { rewrite <- !Permutation_middle. apply perm_swap. }
    eapply Permutation_NoDup; [exact Q|exact N].
  - apply IH; [|intros w Hw; apply B; right; exact Hw].
    assert (Q : Permutation (p_pt p :: flat_map own_pts (lockd r) ++ cl) (flat_map own_pts (lockd r) ++ p_pt p :: cl)).
    { rewrite <- !Permutation_middle. reflexivity. }
    eapply Permutation_NoDup; [exact Q|exact N].
Qed.

(** [find_unclaimed] *)
Lemma find_unclaimed_some cl un v : find_unclaimed cl un = Some v -> ~ In v cl /\ ~ In v un /\ In v preferred.
Proof.
  unfold find_unclaimed. intros E. apply find_some in E as (A & B). apply andb_true_iff in B as (B & C).
  apply negb_true_iff in B, C. apply mem_false in B, C. auto.
Qed.
Lemma preferred_facts : NoDup preferred /\ length preferred = 87%nat /\ Forall (fun v => 0 <= v <= 127) preferred.
Proof.
  split; [|split; [reflexivity|]].
  - assert (E : forallb (fun n => forallb (fun m => (n =? m)%nat || negb (nth n preferred 0 =? nth m preferred 0)) (seq 0 87)) (seq 0 87) = true)
      by (vm_compute; reflexivity).
    apply (NoDup_nth preferred 0). intros n m A B C. rewrite (eq_refl : length preferred = 87%nat) in A, B.
    rewrite forallb_forall in E. assert (In n (seq 0 87)) as I1 by (apply in_seq; lia). apply E in I1 as E'. clear E.
    rewrite forallb_forall in E'. assert (In m (seq 0 87)) as I2 by (apply in_seq; lia). apply E' in I2 as E.
    rewrite C, Z.eqb_refl in E. cbn [negb] in E. rewrite orb_false_r in E. apply Nat.eqb_eq. exact E.
  - apply Forall_forall. intros v I. assert (E : forallb (fun v => (0 <=? v) && (v <=? 127)) preferred = true) by (vm_compute; reflexivity).
    rewrite forallb_forall in E. apply E in I. lia.
Qed.
Lemma find_unclaimed_total cl un : (length cl + length un < 87)%nat -> exists v, find_unclaimed cl un = Some v.
Proof.
  intros L. destruct (find_unclaimed cl un) as [v|] eqn:E; [eauto|]. exfalso.
  destruct preferred_facts as (N & M & _).
  assert (I : incl preferred (cl ++ un)).
  { intros v Hv. pose proof (find_none _ _ E v Hv) as X. apply andb_false_iff in X.
    apply in_or_app. destruct X as [X|X]; apply negb_false_iff, mem_iff in X; auto. }
  pose proof (NoDup_incl_length N I) as X. rewrite app_length, M in X. lia.
Qed.
Lemma zremove_in v w l : In w (zremove v l) <-> In w l /\ w <> v.
Proof.
  unfold zremove. rewrite filter_In. split; intros (A & B); split; auto.
  - apply negb_true_iff in B. apply Z.eqb_neq in B. congruence.
  - apply negb_true_iff, Z.eqb_neq. congruence.
Qed.
Lemma zremove_len v l : (length (zremove v l) <= length l)%nat.
Proof. unfold zremove. induction l as [|a r IH]; cbn [filter length]; [lia|]. destruct (negb _); cbn [length]; lia. Qed.

(** [remap] *)
Lemma remap_ok ctrl own pt cl un v un' : remap ctrl own pt cl un = Ok (v, un') ->
  incl un' un /\ (forall w, In w un -> In w un' \/ w = v) /\ (length un' <= length un)%nat /\ (~ In pt cl -> v = pt /\ un' = un) /\ (ctrl = false -> v = pt).
Proof.
  unfold remap. destruct ctrl.
  2:{ intros E. assert (v = pt /\ un' = un) as (-> & ->) by (split; congruence). repeat split; auto. intros w; auto. }
  unfold is_claimed. destruct (Z.ltb_spec 127 pt); [discriminate|]. cbn [bind].
  destruct (mem pt cl) eqn:M.
  - destruct (match own with Some v0 => _ | None => _ end) as [fr| |] eqn:F; try discriminate. cbn [bind].
    destruct (match fr with Some v0 => Some v0 | None => find_unclaimed cl un end) as [w|]; [|discriminate].
    intros E. assert (w = v /\ zremove v un = un') as (-> & <-) by (split; congruence).
    split; [|split; [|split; [|split]]].
    + intros u Hu. apply zremove_in in Hu. tauto.
    + intros u Hu. destruct (Z.eq_dec u v); [auto|]. left. apply zremove_in. auto.
    + apply zremove_len.
    + intros X. apply mem_iff in M. tauto.
    + discriminate.
  - intros E. assert (v = pt /\ un' = un) as (-> & ->) by (split; congruence). repeat split; auto. intros w; auto.
Qed.

(** One entry *)
Definition claims_of (p p' : pp) : list Z := if p_locked p then [] else if p_locked p' then own_pts p' else [].
Lemma update_param_ok p remote cl ctrl un p' cl' un' : update_param p remote cl ctrl un = Ok (p', cl', un') ->
  NoDup cl ->
  NoDup cl' /\ Permutation cl' (claims_of p p' ++ cl) /\ incl un' un /\ (forall w, In w un -> In w un' \/ In w cl') /\
  (p_locked p = true -> own_pts p' = own_pts p /\ p_locked p' = true) /\
  (p_locked p' = false -> p' = p) /\
  (Forall (fun v => v <= 127) cl -> Forall (fun v => v <= 127) cl') /\
  match best_remote p remote with
  | None => p' = p
  | Some r => p_locked p' = true /\ p_spec p' = neg_spec (p_spec p) (p_spec r) /\
      (p_locked p = true -> p_pt p' = p_pt p /\ p_resend p' = p_resend p) /\
      (p_locked p = false -> ctrl = false -> p_pt p' = p_pt r /\ p_resend p' = p_resend r) /\
      (p_locked p = false -> (is_some (p_resend p') = is_some (p_resend r)))
  end.
Proof.
  unfold update_param, claims_of. intros E N. destruct (best_remote p remote) as [r|].
  2:{ assert (p = p' /\ cl = cl' /\ un = un') as (-> & -> & ->) by (repeat split; congruence).
      destruct (p_locked p') eqn:L; cbn [app]; repeat split; auto; try discriminate; intros w; auto. }
  change (p_locked (set_spec p _)) with (p_locked p) in E.
  change (p_pt (set_spec p _)) with (p_pt p) in E. change (p_resend (set_spec p _)) with (p_resend p) in E.
  destruct (p_locked p) eqn:L.
  { assert (p' = set_spec p (neg_spec (p_spec p) (p_spec r)) /\ cl = cl' /\ un = un') as (-> & -> & ->) by (repeat split; congruence).
    cbn [app]. change (p_locked (set_spec p _)) with (p_locked p). rewrite L.
    repeat split; auto; try discriminate. intros w; auto. }
  destruct (remap ctrl (Some (p_pt p)) (p_pt r) cl un) as [[pt u1]| |] eqn:R1; try discriminate. cbn [bind] in E.
  destruct (claim_once cl pt) as [c1| |] eqn:C1; try discriminate. cbn [bind] in E.
  apply remap_ok in R1 as (A1 & A2 & A3 & A4 & A5). apply claim_once_ok in C1 as (B1 & B2 & ->).
  destruct (p_resend r) as [rtx|] eqn:Hr.
  - destruct (remap ctrl (p_resend p) rtx (pt :: cl) u1) as [[v u2]| |] eqn:R2; try discriminate. cbn [bind] in E.
    destruct (claim_once (pt :: cl) v) as [c2| |] eqn:C2; try discriminate. cbn [bind] in E.
    apply remap_ok in R2 as (D1 & D2 & D3 & D4 & D5). apply claim_once_ok in C2 as (F1 & F2 & ->).
    assert (p' = set_pts (set_spec p (neg_spec (p_spec p) (p_spec r))) pt (Some v) true /\ v :: pt :: cl = cl' /\ u2 = un') as (-> & <- & <-) by (repeat split; congruence).
    cbn [p_locked set_pts set_spec p_pt p_resend p_spec own_pts app].
    split; [|split; [|split; [|split; [|split; [|split; [|split]]]]]]; try discriminate.
    + constructor; [exact F2|]. constructor; auto.
    + apply perm_swap.
    + intros w Hw. auto.
    + intros w Hw. destruct (A2 w Hw) as [X|X]; [|subst; right; right; left; reflexivity].
      destruct (D2 w X) as [Y|Y]; [auto|subst; right; left; reflexivity].
    + intros X. constructor; [lia|]. constructor; [lia|auto].
    + repeat split; try discriminate; auto. f_equal. auto.
  - assert (p' = set_pts (set_spec p (neg_spec (p_spec p) (p_spec r))) pt None true /\ pt :: cl = cl' /\ u1 = un') as (-> & <- & <-) by (repeat split; congruence).
    cbn [p_locked set_pts set_spec p_pt p_resend p_spec own_pts app].
    split; [|split; [|split; [|split; [|split; [|split; [|split]]]]]]; try discriminate.
    + constructor; auto.
    + reflexivity.
    + auto.
    + intros w Hw. destruct (A2 w Hw) as [X|X]; [auto|subst; right; left; reflexivity].
    + intros X. constructor; [lia|auto].
    + repeat split; try discriminate; auto.
Qed.

(** All entries: [P] relates an entry before and after. *)
Definition upd_rel (remote : list pp) (ctrl : bool) (p p' : pp) : Prop :=
  (p_locked p = true -> own_pts p' = own_pts p /\ p_locked p' = true) /\
  (p_locked p' = false -> p' = p) /\
  match best_remote p remote with
  | None => p' = p
  | Some r => p_locked p' = true /\ p_spec p' = neg_spec (p_spec p) (p_spec r) /\
      (p_locked p = true -> p_pt p' = p_pt p /\ p_resend p' = p_resend p) /\
      (p_locked p = false -> ctrl = false -> p_pt p' = p_pt r /\ p_resend p' = p_resend r) /\
      (p_locked p = false -> (is_some (p_resend p') = is_some (p_resend r)))
  end.
Lemma update_all_ok cfg remote ctrl : forall cl un cfg' cl' un',
  update_all cfg remote ctrl cl un = Ok (cfg', cl', un') -> NoDup cl ->
  Forall2 (upd_rel remote ctrl) cfg cfg' /\ NoDup cl' /\
  Permutation (cl' ++ flat_map own_pts (lockd cfg)) (flat_map own_pts (lockd cfg') ++ cl) /\
  incl un' un /\ (forall w, In w un -> In w un' \/ In w cl') /\ incl cl cl' /\
  (Forall (fun v => v <= 127) cl -> Forall (fun v => v <= 127) cl').
Proof.
  induction cfg as [|p r IH]; intros cl un cfg' cl' un'; cbn [update_all].
  - intros E N. assert (cfg' = [] /\ cl = cl' /\ un = un') as (-> & -> & ->) by (repeat split; congruence).
    split; [constructor|]. split; [auto|]. split; [cbn; rewrite app_nil_r; reflexivity|]. split; [intros w; auto|]. split; [auto|]. split; [intros w; auto|auto].
  - intros E N. destruct (update_param p remote cl ctrl un) as [[[p1 c1] u1]| |] eqn:E1; try discriminate. cbn [bind] in E.
    destruct (update_all r remote ctrl c1 u1) as [[[r2 c2] u2]| |] eqn:E2; try discriminate. cbn [bind] in E.
    assert (cfg' = p1 :: r2 /\ c2 = cl' /\ u2 = un') as (-> & -> & ->) by (repeat split; congruence).
    apply update_param_ok in E1 as (A1 & A2 & A3 & A4 & A5 & A6 & A7 & A8); [|exact N].
    apply IH in E2 as (B1 & B2 & B3 & B4 & B5 & B6 & B7); [|exact A1].
    split; [constructor; [unfold upd_rel; auto|exact B1]|]. split; [exact B2|]. split; [|split; [|split; [|split]]].
    + cbn [lockd filter]. fold (lockd r) (lockd r2).
      assert (X : Permutation (cl' ++ flat_map own_pts (lockd r)) (claims_of p p1 ++ flat_map own_pts (lockd r2) ++ cl)).
      { rewrite B3, A2, !app_assoc. apply Permutation_app_tail, Permutation_app_comm. }
      unfold claims_of in X. destruct (p_locked p) eqn:Lp.
      * destruct (A5 eq_refl) as (Y & Z). rewrite Z. cbn [flat_map]. rewrite Y. cbn [app] in X.
        rewrite <- (app_assoc (own_pts p)), <- X, !app_assoc. apply Permutation_app_tail, Permutation_app_comm.
      * destruct (p_locked p1) eqn:Lp1; cbn [flat_map].
        -- rewrite <- app_assoc. exact X.
        -- exact X.
    + intros w Hw. auto.
    + intros w Hw. destruct (A4 w Hw) as [X|X]; [|right; apply B6; exact X]. apply B5. exact X.
    + intros w Hw. apply B6. eapply Permutation_in; [symmetry; exact A2|]. apply in_or_app. right. exact Hw.
    + auto.
Qed.

(** Moving the entries that are still open *)
Lemma move_ok v cl un w cl' un' : move v cl un = Ok (w, cl', un') ->
  ~ In w cl /\ incl cl cl' /\ (forall y, In y un -> In y un') /\ incl un' un /\
  ((w = v /\ cl' = cl) \/ (In v cl /\ In w cl' /\ ~ In w un /\ 0 <= w <= 127)) /\ v <= 127 /\
  (NoDup cl -> NoDup cl') /\ (length cl' <= S (length cl))%nat /\ (length un' <= length un)%nat.
Proof.
  unfold move, is_claimed. destruct (Z.ltb_spec 127 v); [discriminate|]. cbn [bind]. destruct (mem v cl) eqn:M.
  - destruct (find_unclaimed cl un) as [u|] eqn:F; [|discriminate].
    destruct (claim_once cl u) as [c| |] eqn:C; try discriminate. cbn [bind]. intros E.
    assert (u = w /\ c = cl' /\ zremove w un = un') as (-> & -> & <-) by (repeat split; congruence).
    apply find_unclaimed_some in F as (A & B & D). apply claim_once_ok in C as (F & G & ->).
    apply mem_iff in M. pose proof (proj2 (proj2 preferred_facts)) as PF. rewrite Forall_forall in PF. apply PF in D.
    split; [exact A|]. split; [intros y Hy; right; exact Hy|]. split; [|split; [|split; [|split; [|split; [|split]]]]].
    + intros y Hy. apply zremove_in. split; [exact Hy|]. intros ->. tauto.
    + intros y Hy. apply zremove_in in Hy. tauto.
    + right. split; [exact M|]. split; [left; reflexivity|]. split; [exact B|lia].
    + lia.
    + intros N. constructor; auto.
    + cbn [length]. lia.
    + apply zremove_len.
  - intros E. assert (v = w /\ cl = cl' /\ un = un') as (-> & -> & ->) by (repeat split; congruence).
    apply mem_false in M. split; [exact M|]. split; [intros y; auto|]. split; [auto|]. split; [intros y; auto|].
    split; [left; auto|]. split; [lia|]. split; [auto|]. split; lia.
Qed.
Definition keep_rel (p p' : pp) : Prop :=
  p_spec p' = p_spec p /\ p_locked p' = p_locked p /\ (p_locked p = true -> p' = p) /\ is_some (p_resend p') = is_some (p_resend p).
Lemma reassign_ok cfg : forall cl un cfg', reassign cfg cl un = Ok cfg' ->
  NoDup (flat_map own_pts (free cfg)) -> (forall v, In v (flat_map own_pts (free cfg)) -> In v un \/ In v cl) ->
  Forall2 keep_rel cfg cfg' /\ NoDup (flat_map own_pts (free cfg')) /\
  (forall v, In v (flat_map own_pts (free cfg')) -> ~ In v cl /\ v <= 127 /\ (In v (flat_map own_pts (free cfg)) \/ ~ In v un)).
Proof.
  induction cfg as [|p r IH]; intros cl un cfg'; cbn [reassign].
  - intros [= <-] _ _. split; [constructor|]. split; [constructor|]. cbn. tauto.
  - destruct (p_locked p) eqn:L.
    + destruct (reassign r cl un) as [r'| |] eqn:E; try discriminate. cbn [bind]. intros [= <-]. cbn [free filter]. rewrite L. cbn [negb].
      intros N U. destruct (IH _ _ _ E N U) as (A & B & C). split; [constructor; [repeat split; auto|exact A]|].
      auto.
    + cbn [free filter]. rewrite L. cbn [negb flat_map]. fold (free r).
      destruct (move (p_pt p) cl un) as [[[pt c1] u1]| |] eqn:E1; try discriminate. cbn [bind].
      apply move_ok in E1 as (A1 & A2 & A3 & A4 & A5 & A6 & A7 & A8 & A9). unfold own_pts at 1 3.
      destruct (p_resend p) as [v|] eqn:Hr.
      * destruct (move v c1 u1) as [[[w c2] u2]| |] eqn:E2; try discriminate. cbn [bind].
        apply move_ok in E2 as (B1 & B2 & B3 & B4 & B5 & B6 & B7 & B8 & B9).
        destruct (reassign r c2 u2) as [r'| |] eqn:E; try discriminate. cbn [bind]. intros [= <-] N U.
        cbn [app] in N, U. inversion N as [|? ? N1 N2]; subst. inversion N2 as [|? ? N3 N4]; subst.
        assert (U2 : forall y, In y (flat_map own_pts (free r)) -> In y u2 \/ In y c2).
        { intros y Hy. destruct (U y) as [X|X]; [right; right; exact Hy| left; auto | right; auto]. }
        destruct (IH _ _ _ E N4 U2) as (C1 & C2 & C3). split; [|cbn [free filter p_locked set_pts negb]; fold (free r'); cbn [flat_map app]; split].
        -- constructor; [|exact C1]. unfold keep_rel, set_pts; cbn. rewrite L, Hr. repeat split; auto; discriminate.
        -- change (own_pts (set_pts p pt (Some w) false)) with [pt; w]. cbn [app].
           assert (Q1 : ~ In w (flat_map own_pts (free r'))).
           { intros X. destruct (C3 w X) as (D1 & D2 & D3). destruct B5 as [(-> & ->)|(F1 & F2 & F3)]; [|tauto].
             destruct D3 as [D3|D3]; [exact (N3 D3)|]. destruct (U v) as [Y|Y]; [right; left; reflexivity| |]; auto. }
           assert (Q2 : ~ In pt (flat_map own_pts (free r'))).
           { intros X. destruct (C3 pt X) as (D1 & D2 & D3). destruct A5 as [(-> & ->)|(F1 & F2 & F3)].
             - destruct D3 as [D3|D3]; [apply N1; right; exact D3|]. destruct (U (p_pt p)) as [Y|Y]; [left; reflexivity| |]; auto.
             - apply D1. auto. }
           assert (Q3 : pt <> w).
           { intros <-. destruct A5 as [(-> & ->)|(F1 & F2 & F3)]; [|tauto].
             destruct B5 as [(B5 & _)|(G1 & G2 & G3 & G4)].
             - apply N1. left. congruence.
             - destruct (U (p_pt p)) as [Y|Y]; [left; reflexivity| |tauto]. apply G3. auto. }
           constructor; [intros [X|X]; [congruence|tauto]|]. constructor; auto.
        -- change (own_pts (set_pts p pt (Some w) false)) with [pt; w]. cbn [app].
           assert (Hpt : pt <= 127) by (destruct A5 as [(-> & _)|(_ & _ & _ & X)]; lia).
           assert (Hw : w <= 127) by (destruct B5 as [(-> & _)|(_ & _ & _ & X)]; lia).
           intros y [<-|[<-|Hy]].
           ++ split; [exact A1|]. split; [lia|]. destruct A5 as [(-> & _)|(_ & _ & F & _)]; [left; left; reflexivity|right; exact F].
           ++ split; [intros X; apply B1; auto|]. split; [lia|]. destruct B5 as [(-> & _)|(_ & _ & F & _)]; [left; unfold own_pts; rewrite ?Hr; cbn [app In]; auto|].
              right. intros X. apply F. auto.
           ++ destruct (C3 y Hy) as (D1 & D2 & D3). split; [intros X; apply D1; auto|]. split; [exact D2|].
              destruct D3 as [D3|D3]; [left; apply in_or_app; right; exact D3|right; intros X; apply D3; auto].
      * destruct (reassign r c1 u1) as [r'| |] eqn:E; try discriminate. cbn [bind]. intros [= <-] N U.
        cbn [app] in N, U. inversion N as [|? ? N1 N2]; subst.
        assert (U2 : forall y, In y (flat_map own_pts (free r)) -> In y u1 \/ In y c1).
        { intros y Hy. destruct (U y) as [X|X]; [right; exact Hy| left; auto | right; auto]. }
        destruct (IH _ _ _ E N2 U2) as (C1 & C2 & C3). split; [|cbn [free filter p_locked set_pts negb]; fold (free r'); cbn [flat_map app]; split].
        -- constructor; [|exact C1]. unfold keep_rel, set_pts; cbn. rewrite L, Hr. repeat split; auto; discriminate.
        -- change (own_pts (set_pts p pt None false)) with [pt]. cbn [app]. constructor; [|exact C2].
           intros X. destruct (C3 pt X) as (D1 & D2 & D3). destruct A5 as [(-> & ->)|(F1 & F2 & F3)].
           ++ destruct D3 as [D3|D3]; [apply N1; exact D3|]. destruct (U (p_pt p)) as [Y|Y]; [left; reflexivity| |]; auto.
           ++ tauto.
        -- change (own_pts (set_pts p pt None false)) with [pt]. cbn [app].
           assert (Hpt : pt <= 127) by (destruct A5 as [(-> & _)|(_ & _ & _ & X)]; lia).
           intros y [<-|Hy].
           ++ split; [exact A1|]. split; [lia|]. destruct A5 as [(-> & _)|(_ & _ & F & _)]; [left; left; reflexivity|right; exact F].
           ++ destruct (C3 y Hy) as (D1 & D2 & D3). split; [intros X; apply D1; auto|]. split; [exact D2|].
              destruct D3 as [D3|D3]; [left; apply in_or_app; right; exact D3|right; intros X; apply D3; auto].
Qed.

(** The whole call *)
Lemma free_flat_incl remote ctrl cfg cfg' : Forall2 (upd_rel remote ctrl) cfg cfg' ->
  (forall v, In v (flat_map own_pts (free cfg')) -> In v (flat_map own_pts (free cfg))) /\
  (NoDup (flat_map own_pts (free cfg)) -> NoDup (flat_map own_pts (free cfg'))).
Proof.
  induction 1 as [|p p' r r' (A & B & _) F (IH1 & IH2)]; [auto|]. cbn [free filter]. fold (free r) (free r').
  destruct (p_locked p') eqn:L'; cbn [negb].
  - split.
    + intros v Hv. destruct (p_locked p); cbn [negb flat_map]; [auto|]. apply in_or_app. right. auto.
    + intros N. apply IH2. destruct (p_locked p); cbn [negb flat_map] in N; [exact N|].
      clear -N. induction (own_pts p) as [|a l IH]; [exact N|]. cbn [app] in N. inversion N. auto.
  - rewrite (B eq_refl) in *. rewrite L'. cbn [negb flat_map]. split.
    + intros v Hv. apply in_app_or in Hv. apply in_or_app. destruct Hv; auto.
    + intros N. revert N. generalize (own_pts p). intros l. induction l as [|a l IH]; cbn [app]; [exact IH2|].
      intros N. inversion N as [|? ? N1 N2]; subst. constructor; [|auto]. intros X. apply N1.
      apply in_app_or in X. apply in_or_app. destruct X; auto.
Qed.
Lemma keep_lockd cfg cfg' : Forall2 keep_rel cfg cfg' -> flat_map own_pts (lockd cfg') = flat_map own_pts (lockd cfg).
Proof.
  induction 1 as [|p p' r r' (A & B & C & D) F IH]; [reflexivity|]. cbn [lockd filter]. fold (lockd r) (lockd r').
  rewrite B. destruct (p_locked p); [|exact IH]. cbn [flat_map]. rewrite (C eq_refl), IH. reflexivity.
Qed.
Definition step_rel (remote : list pp) (ctrl : bool) (p p' : pp) : Prop :=
  exists q, upd_rel remote ctrl p q /\ keep_rel q p'.
Lemma update_params_ok cfg remote rr cfg' : update_params cfg remote rr = Ok cfg' -> NoDup (numbers cfg) ->
  NoDup (numbers cfg') /\ Forall2 (step_rel remote (negb rr)) cfg cfg'.
Proof.
  unfold update_params. intros E N. rewrite numbers_own in N.
  destruct (claim_locked cfg []) as [cl| |] eqn:E1; try discriminate. cbn [bind] in E.
  apply claim_locked_ok in E1 as (P1 & N1). specialize (N1 (NoDup_nil _)). rewrite app_nil_r in P1.
  destruct (update_all cfg remote (negb rr) cl (unlocked_pts cfg)) as [[[cfg1 cl1] un1]| |] eqn:E2; try discriminate. cbn [bind] in E.
  apply update_all_ok in E2 as (A1 & A2 & A3 & A4 & A5 & A6 & A7); [|exact N1].
  assert (P2 : Permutation cl1 (flat_map own_pts (lockd cfg1))).
  { rewrite P1 in A3. eapply Permutation_app_inv_r. exact A3. }
  pose proof (flat_partition own_pts cfg) as Q. pose proof (Permutation_NoDup Q N) as N2.
  assert (N3 : NoDup (flat_map own_pts (free cfg))).
  { revert N2. generalize (flat_map own_pts (lockd cfg)). intros l. induction l as [|a l IH]; [auto|]. cbn [app]. intros X; inversion X; auto. }
  destruct (free_flat_incl _ _ _ _ A1) as (F1 & F2).
  assert (U : forall v, In v (flat_map own_pts (free cfg1)) -> In v un1 \/ In v cl1).
  { intros v Hv. apply A5. unfold unlocked_pts. apply F1. exact Hv. }
  apply reassign_ok in E as (B1 & B2 & B3); [|auto|exact U].
  split.
  - rewrite numbers_own. eapply Permutation_NoDup; [symmetry; apply flat_partition|].
    rewrite (keep_lockd _ _ B1). apply NoDup_app_intro.
    + eapply Permutation_NoDup; eauto.
    + exact B2.
    + intros v X Y. apply B3 in Y as (Y & _). apply Y. eapply Permutation_in; [symmetry; exact P2|exact X].
  - clear -A1 B1. revert cfg' B1. induction A1 as [|p p' r r' A F IH]; intros cfg' B1; inversion B1; subst; constructor; auto.
    exists p'. auto.
Qed.

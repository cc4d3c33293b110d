From Coq Require Import QArith Lia.
From Verif Require Import Base BaseFacts ProbeModel ProbeSpec ProbeProofs.
Open Scope Z_scope.

Section P.
Variables (B : Type) (A : arith B) (FAR : Z).
Notation hist := (list (bop B * bout B)).

Definition R (h : hist) : list (B * cause) := reported (since_reset h []).
Definition upd (l : list (B * cause)) : option B :=
  match rev (news A l None) with (e, _) :: _ => Some e | [] => None end.

Lemma desired_snoc : forall (h : hist) (x : bop B * bout B) (d : B), desired (h ++ [x]) d
  = match fst x with BDesired v => v | _ => desired h d end.
Proof.
  induction h as [|[o y] h IH]; intros [o' y'] d; cbn [app desired fst].
  - destruct o'; reflexivity.
  - destruct o; rewrite IH; reflexivity.
Qed.
Lemma since_reset_snoc : forall (h : hist) (x : bop B * bout B) (cur : hist), since_reset (h ++ [x]) cur
  = match fst x with BReset => [] | _ => since_reset h cur ++ [x] end.
Proof.
  induction h as [|[o y] h IH]; intros [o' y'] cur; cbn [app since_reset fst].
  - destruct o'; reflexivity.
  - destruct o; rewrite IH; reflexivity.
Qed.
Lemma R_snoc : forall (h : hist) (x : bop B * bout B), R (h ++ [x]) = match fst x with BReset => [] | o => R h ++ reports o end.
Proof.
  intros h [o y]. unfold R. rewrite since_reset_snoc. cbn [fst].
  destruct o; try reflexivity; unfold reported; rewrite flat_map_app; cbn [flat_map fst reports]; rewrite ?app_nil_r; reflexivity.
Qed.
Lemma news_snoc : forall l x last, news A (l ++ [x]) last
  = news A l last ++ news A [x] (match rev (news A l last) with (e, _) :: _ => Some e | [] => last end).
Proof.
  induction l as [|[e c] l IH]; intros [e' c'] last; [reflexivity|].
  cbn [app]. cbn [news]. destruct (beq_opt A last (Some e)) eqn:E; [apply IH|].
  rewrite IH. cbn [app rev]. f_equal. f_equal. f_equal.
  destruct (rev (news A l (Some e))) as [|[e2 c2] r]; reflexivity.
Qed.
Lemma news1 : forall l v c, news A (l ++ [(v, c)]) None
  = news A l None ++ (if beq_opt A (upd l) (Some v) then [] else [(v, c)]).
Proof. intros. rewrite news_snoc. reflexivity. Qed.

Definition rep (e : option B) (c : cause) : list (B * cause) := match e with Some v => [(v, c)] | None => [] end.
Definition J (l : list (B * cause)) (s : bwe B) : Prop :=
  b_upd s = upd l /\ forall v, p_est (b_pc s) = Some v -> In v (map fst l) /\ p_cs (b_pc s) = cause_of A l.
Definition core (p : pctl B) :=
  (p_en p, p_pend p, p_last p, p_nid p, p_pest p, p_drop p).
Definition core2 (p : pctl B) := (core p, p_alr0 p, p_alr1 p, p_des p, p_chg p, p_stag p, p_pdes p).

Lemma cause_eqb_eq : forall a b, cause_eqb a b = true -> a = b.
Proof. intros [] []; intros; try discriminate; reflexivity. Qed.
Lemma set_est_spec : forall p v c, core2 (set_estimated A p v c) = core2 p /\
  ((p_est (set_estimated A p v c) = Some v /\ p_cs (set_estimated A p v c) = c)
   \/ (set_estimated A p v c = p /\ (p_est p = None \/ p_cs p = c))).
Proof.
  intros. unfold set_estimated. destruct (p_est p) as [l|] eqn:E.
  - match goal with |- context [if ?b then _ else _] => destruct b eqn:D end.
    + split; [reflexivity|]. right. split; [reflexivity|]. right. apply andb_prop in D. destruct D as (_ & D).
      apply cause_eqb_eq. exact D.
    + split; [reflexivity|]. left. split; reflexivity.
  - destruct (eqb A v (ZERO A)); (split; [reflexivity|]); [right|left]; split; auto.
Qed.
Lemma cause_news : forall l l', news A l' None = news A l None -> cause_of A l' = cause_of A l.
Proof. intros l l' H. unfold cause_of. rewrite H. reflexivity. Qed.
Lemma cause_snoc : forall l v c, beq_opt A (upd l) (Some v) = false -> cause_of A (l ++ [(v, c)]) = c.
Proof. intros l v c H. unfold cause_of. rewrite news1, H. rewrite rev_app_distr. reflexivity. Qed.

Lemma prop_spec : forall l s e c, J l s ->
  let s' := propagate A s e c in
  J (l ++ rep e c) s' /\ core2 (b_pc s') = core2 (b_pc s) /\ b_desired s' = b_desired s /\ b_est s' = b_est s
  /\ (p_est (b_pc s') = p_est (b_pc s) \/ (length (news A l None) < length (news A (l ++ rep e c) None))%nat)
  /\ (length (news A l None) <= length (news A (l ++ rep e c) None))%nat.
Proof.
  intros l s [v|] c (U & H); cbn [rep propagate]; cbv zeta.
  2: { rewrite app_nil_r. split; [exact (conj U H)|]. repeat split; auto. }
  pose proof (news1 l v c) as N. rewrite U. destruct (beq_opt A (upd l) (Some v)) eqn:E.
  - rewrite app_nil_r in N. split; [|rewrite N; repeat split; auto].
    split; [unfold upd; rewrite N, U; reflexivity|].
    intros w Hw. destruct (H w Hw) as (H1 & H2). rewrite map_app. split; [apply in_or_app; left; exact H1|].
    rewrite (cause_news l _ N). exact H2.
  - destruct (set_est_spec (b_pc s) v c) as (C & D). cbn [b_pc b_desired b_est].
    split.
    { split.
      - cbn [b_upd]. unfold upd. rewrite N, rev_app_distr. reflexivity.
      - cbn [b_pc]. intros w Hw. rewrite cause_snoc by exact E. rewrite map_app. cbn [map fst].
        destruct D as [(D1 & D2)|(D1 & D2)].
        + rewrite D1 in Hw. injection Hw as <-. split; [apply in_or_app; right; left; reflexivity|exact D2].
        + rewrite D1 in Hw |- *. destruct D2 as [D2|D2]; [congruence|].
          split; [apply in_or_app; left; apply H; exact Hw|exact D2]. }
    split; [exact C|]. split; [reflexivity|]. split; [reflexivity|].
    rewrite N, app_length. cbn [length]. split; [right|]; lia.
Qed.

(** What a timeout of the probe control does. *)
Definition ctl (p p' : pctl B) : Prop :=
  p_en p' = p_en p /\ p_est p' = p_est p /\ p_cs p' = p_cs p /\ p_alr0 p' = p_alr0 p /\ p_alr1 p' = p_alr1 p
  /\ p_des p' = p_des p.
Inductive pcase (p : pctl B) (now : Z) (p' : pctl B) : option (cfg B) -> Prop :=
| PQuiet : ctl p p' -> core p' = core p -> pcase p now p' None
| PPop : forall g r, p_en p = true -> ctl p p' -> p_pend p = g :: r ->
    core p' = (p_en p, r, p_last p, p_nid p, p_pest p, p_drop p) -> pcase p now p' (Some g)
| PDecide : forall d e q o, p_en p = true -> ctl p p' -> p_pend p = [] -> p_des p = Some d -> p_est p = Some e ->
    permits (p_cs p) -> queued B A p q now d e ->
    p_last p' = p_last q -> p_nid p' = p_nid q -> p_pest p' = Some e -> p_drop p' = p_drop q ->
    p_pend q = match o with Some g => g :: p_pend p' | None => p_pend p' end -> (o = None -> p_pend p' = []) ->
    pcase p now p' o.

Lemma pc_cases : forall p now p' o, pc_timeout A FAR p now = (p', o) -> pcase p now p' o.
Proof.
  intros p now p' o H. unfold pc_timeout in H.
  destruct (now <? p_next p); [injection H as <- <-; apply PQuiet; repeat split|].
  cbn [p_en p_des p_est p_pend set_next] in H.
  destruct (p_en p) eqn:En; cbn [negb] in H; [|injection H as <- <-; apply PQuiet; repeat split].
  destruct (p_des p) as [d|] eqn:Ed; [|injection H as <- <-; apply PQuiet; repeat split].
  destruct (p_est p) as [e|] eqn:Ee; [|injection H as <- <-; apply PQuiet; repeat split].
  destruct (p_pend p) as [|g r] eqn:Ep.
  2: { injection H as <- <-. eapply PPop; [exact En|repeat split|exact Ep|unfold core; cbn; rewrite En; reflexivity]. }
  destruct (can_probe A (set_next p FAR) e) eqn:Ec; cbn [negb] in H;
    [|injection H as <- <-; apply PQuiet; repeat split].
  pose proof (decide_spec B A (set_next p FAR) now d e Ep) as Q.
  remember (decide A (set_next p FAR) now d e) as q eqn:Eq.
  assert (Q' : queued B A p q now d e).
  { destruct Q as (S & D & Q). split; [exact S|]. split; [exact D|]. exact Q. }
  clear Q. pose proof Q' as ((S1 & S2 & S3 & S4 & S5 & S6 & S7 & S8) & _).
  assert (Pm : permits (p_cs p)).
  { unfold can_probe in Ec. destruct (eqb A e (INF A)); [discriminate|]. cbn [set_next p_cs] in Ec.
    unfold permits. destruct (p_cs p); try discriminate; auto. }
  assert (X : forall s2 s3 t, s2 = set_pest (update_change A q now e) (Some e) -> next_timeout s2 now = (s3, t) ->
            p_en s3 = p_en q /\ p_des s3 = p_des q /\ p_est s3 = p_est q /\ p_cs s3 = p_cs q /\ p_alr0 s3 = p_alr0 q
            /\ p_alr1 s3 = p_alr1 q /\ p_pest s3 = Some e /\ p_drop s3 = p_drop q /\ p_last s3 = p_last q
            /\ p_nid s3 = p_nid q /\ p_pend s3 = p_pend q).
  { intros s2 s3 t E2 E3.
    assert (Y : p_en s2 = p_en q /\ p_des s2 = p_des q /\ p_est s2 = p_est q /\ p_cs s2 = p_cs q /\ p_alr0 s2 = p_alr0 q
            /\ p_alr1 s2 = p_alr1 q /\ p_pest s2 = Some e /\ p_drop s2 = p_drop q /\ p_last s2 = p_last q
            /\ p_nid s2 = p_nid q /\ p_pend s2 = p_pend q).
    { subst s2. unfold update_change. destruct (p_pest q); [destruct (eqb A e _)|];
        match goal with |- context [match p_chg ?x with _ => _ end] => destruct (p_chg x) end; repeat split. }
    unfold next_timeout in E3.
    destruct (match p_last s2 with Some l => is_ini (l_kind l) | None => false end).
    - destruct (p_sexp s2); injection E3 as <- <-; exact Y.
    - destruct (in_alr s2); [destruct (p_salr s2)|destruct (p_sstag s2)]; injection E3 as <- <-; exact Y. }
  destruct (next_timeout (set_pest (update_change A q now e) (Some e)) now) as [s3 t] eqn:E3.
  specialize (X _ _ _ eq_refl E3). destruct X as (X1 & X2 & X3 & X4 & X5 & X6 & X7 & X8 & X9 & X10 & X11).
  cbn [p_pend set_next] in H. rewrite X11 in H.
  destruct (p_pend q) as [|g r] eqn:Eq2; injection H as <- <-.
  - eapply (PDecide p now _ d e q None); auto;
      try (repeat split; cbn; congruence); try (cbn; congruence); try discriminate.
  - eapply (PDecide p now _ d e q (Some g)); auto;
      try (repeat split; cbn; congruence); try (cbn; congruence); try discriminate.
Qed.
End P.

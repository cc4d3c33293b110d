From Coq Require Import QArith Lia.
From Verif Require Import Base BaseFacts ProbeModel ProbeSpec.
Open Scope Z_scope.

Section P.
Variables (B : Type) (A : arith B) (FAR : Z).
Notation st := (pctl B).

Definition same (s s' : st) : Prop :=
  p_en s' = p_en s /\ p_des s' = p_des s /\ p_est s' = p_est s /\ p_cs s' = p_cs s /\ p_alr0 s' = p_alr0 s
  /\ p_alr1 s' = p_alr1 s /\ p_pest s' = p_pest s /\ p_chg s' = p_chg s.
Definition dropr (s s' : st) (now : Z) : Prop :=
  p_drop s' = p_drop s \/ p_drop s' = None \/ exists prev, p_pest s = Some prev /\ p_drop s' = Some (now, prev).
Definition idle (s s' : st) (now : Z) : Prop :=
  same s s' /\ dropr s s' now /\ p_stag s' = p_stag s /\ p_pend s' = p_pend s /\ p_last s' = p_last s /\ p_nid s' = p_nid s.

(** Why a probe may be decided, in the terms of the state. *)
Definition good (s : st) (now : Z) (d e : B) (g : cfg B) : Prop :=
  lt A (c_rate g) (KB5 A) = false
  /\ (exists v r, (v = e \/ p_pest s = Some v \/ exists t, p_drop s = Some (t, v)) /\ rate_rule A (c_kind g) d v r
                  /\ c_rate g = bmin A r (mul A d 2))
  /\ match c_kind g with
     | KIncreaseAlr => in_alr s = true /\ le A d e = false
     | KPeriodicAlr => in_alr s = true
     | KStagnant => in_alr s = false /\ le A d e = false
     | _ => True end
  /\ match c_kind g with
     | KInitial => p_last s = None
     | KPeriodicAlr | KLargeDrop => forall l, p_last s = Some l -> 5 * SEC <= now - l_when l
     | KExponential => exists l, p_last s = Some l /\ lt A e (l_further l) = false
                       /\ (beq_opt A (Some e) (l_was l) = false \/ SEC <= now - l_when l)
     | KIncreaseAlr => forall l, p_last s = Some l -> is_ini (l_kind l) = true -> SEC < now - l_when l
     | KStagnant => True
     end.

Definition lp (s : st) (now : Z) (g : cfg B) : lastp B := mkL now (c_kind g) (mul A (c_rate g) (7 # 10)) (p_est s).
Definition queued (s s' : st) (now : Z) (d e : B) : Prop :=
  same s s' /\ dropr s s' now /\
  ((p_pend s' = [] /\ p_last s' = p_last s /\ p_nid s' = p_nid s)
   \/ (exists g, p_pend s' = [g] /\ p_last s' = Some (lp s now g) /\ c_id g = p_nid s
                 /\ p_nid s' = (p_nid s + 1) mod 2 ^ 64 /\ good s now d e g)
   \/ (exists g1 g2, p_pend s' = [g1; g2] /\ p_last s' = Some (lp s now g2) /\ c_id g1 = p_nid s
                 /\ c_id g2 = (p_nid s + 1) mod 2 ^ 64 /\ c_kind g1 = c_kind g2
                 /\ p_nid s' = ((p_nid s + 1) mod 2 ^ 64 + 1) mod 2 ^ 64 /\ good s now d e g1 /\ good s now d e g2)).

Lemma same_refl : forall s, same s s.
Proof. intros; repeat split. Qed.
Lemma queue_cases : forall (s : st) r k d now,
  (lt A (bmin A r (mul A d 2)) (KB5 A) = true /\ queue_probe A s r k d now = s)
  \/ (exists g, g = mkC (p_nid s) (bmin A r (mul A d 2)) k /\ lt A (c_rate g) (KB5 A) = false
      /\ queue_probe A s r k d now
         = set_last (set_pend (set_nid s ((p_nid s + 1) mod 2 ^ 64)) (p_pend s ++ [g])) (Some (lp s now g))).
Proof.
  intros. unfold queue_probe. destruct (lt A (bmin A r (mul A d 2)) (KB5 A)) eqn:E; [left; auto|].
  right. eexists. split; [reflexivity|]. split; [exact E|]. reflexivity.
Qed.

Ltac q1 :=
  match goal with
  | |- context [queue_probe A ?s ?r ?k ?d ?now] =>
      let H := fresh "Q" in
      destruct (queue_cases s r k d now) as [[H ->]|(?g & ?Hg & H & ->)]
  end.

Lemma initial_spec : forall (s : st) now d e s' b, p_pend s = [] ->
  maybe_initial A s now d e = (s', b) -> if b then queued s s' now d e else s' = s.
Proof.
  intros s now d e s' b Hp H. unfold maybe_initial in H. destruct (p_last s) eqn:El; injection H as <- <-; [reflexivity|].
  assert (Hg : forall nid q, (q = 3 \/ q = 6)%Q -> lt A (bmin A (mul A e q) (mul A d 2)) (KB5 A) = false ->
            good s now d e (mkC nid (bmin A (mul A e q) (mul A d 2)) KInitial)).
  { intros nid q Hq Hl. unfold good; cbn. repeat split; auto. exists e, (mul A e q). repeat split; auto.
    destruct Hq as [->| ->]; auto. }
  destruct (queue_cases s (mul A e 3) KInitial d now) as [[Q1 ->]|(g1 & E1 & Q1 & ->)];
    match goal with |- queued _ (queue_probe A ?s1 _ _ _ _) _ _ _ =>
      destruct (queue_cases s1 (mul A e 6) KInitial d now) as [[Q2 ->]|(g2 & E2 & Q2 & ->)] end;
    (split; [repeat split|split; [left; reflexivity|]]); cbn; rewrite ?Hp; cbn; subst; cbn in *.
  - left; auto.
  - right; left. eexists; repeat split; auto. all: apply Hg; auto.
  - right; left. eexists; repeat split; auto. all: apply Hg; auto.
  - right; right. eexists _, _; repeat split; auto. all: apply Hg; auto.
Qed.

Lemma idle_refl : forall s now, idle s s now.
Proof. intros; repeat split; left; reflexivity. Qed.
Lemma idle_queued : forall s s1 s2 now d e, idle s s1 now -> queued s1 s2 now d e -> queued s s2 now d e.
Proof.
  intros s s1 s2 now d e (S1 & D1 & _ & P1 & L1 & N1) (S2 & D2 & H).
  assert (Hg : forall g, good s1 now d e g -> good s now d e g).
  { intros g (G1 & (v & r & V & G2) & G3 & G4). destruct S1 as (_ & _ & _ & _ & A0 & A1 & Pe & _).
    split; [exact G1|]. split.
    { exists v, r. split; [|exact G2]. destruct V as [->|[V|(t & V)]]; auto.
      - rewrite Pe in V. auto.
      - destruct D1 as [D|[D|(pv & D & D')]].
        + rewrite D in V. eauto.
        + rewrite D in V. discriminate.
        + rewrite D' in V. injection V as <- <-. auto. }
    assert (Ia : in_alr s1 = in_alr s) by (unfold in_alr; rewrite A0, A1; reflexivity).
    split; [rewrite <- Ia; exact G3|]. rewrite <- L1. exact G4. }
  split.
  { destruct S1 as (? & ? & ? & ? & ? & ? & ? & ?), S2 as (? & ? & ? & ? & ? & ? & ? & ?). repeat split; congruence. }
  split.
  { destruct S1 as (_ & _ & _ & _ & _ & _ & Pe & _).
    destruct D2 as [D|[D|(pv & D & D')]].
    - destruct D1 as [E|[E|(pv & E & E')]]; [left|right; left|right; right; exists pv]; try congruence.
      split; congruence.
    - right; left; exact D.
    - right; right. exists pv. split; congruence. }
  assert (El : forall g, lp s1 now g = lp s now g).
  { intros. unfold lp. destruct S1 as (_ & _ & -> & _). reflexivity. }
  destruct H as [(H1 & H2 & H3)|[(g & H1 & H2 & H3 & H4 & H5)|(g1 & g2 & H1 & H2 & H3 & H4 & H5 & H6 & H7 & H8)]].
  - left. repeat split; congruence.
  - right; left. exists g. rewrite <- N1, <- El. repeat split; auto; try apply Hg; auto.
  - right; right. exists g1, g2. rewrite <- N1, <- El. split; [auto|]. split; [auto|]. split; [auto|]. split; [auto|].
    split; [auto|]. split; [auto|]. split; apply Hg; auto.
Qed.

Lemma one : forall (s s0 : st) now d e r k,
  p_pend s = [] -> idle s s0 now ->
  (forall nid, lt A (bmin A r (mul A d 2)) (KB5 A) = false -> good s now d e (mkC nid (bmin A r (mul A d 2)) k)) ->
  queued s (queue_probe A s0 r k d now) now d e.
Proof.
  intros s s0 now d e r k Hp (S & D & St & P & L & N) Hg.
  destruct (queue_cases s0 r k d now) as [[Q1 ->]|(g1 & E1 & Q1 & ->)].
  - split; [exact S|]. split; [exact D|]. left. repeat split; congruence.
  - split; [exact S|]. split; [exact D|]. right; left. exists g1. cbn. rewrite P, Hp, N. cbn. subst g1. cbn in *.
    rewrite N. split; [reflexivity|]. split.
    { unfold lp. destruct S as (_ & _ & -> & _). reflexivity. }
    split; [reflexivity|]. split; [reflexivity|]. apply Hg. exact Q1.
Qed.

Lemma max_lt : forall S t, 0 <= S -> S < Z.max 0 t -> S < t.
Proof. intros; lia. Qed.
Lemma max_le : forall S t, 0 < S -> S <= Z.max 0 t -> S <= t.
Proof. intros; lia. Qed.
Lemma sec_pos : 0 < SEC.
Proof. reflexivity. Qed.
Lemma sec_nn : 0 <= WAIT_RESULT.
Proof. discriminate. Qed.
Lemma gap_pos : 0 < ALR_GAP.
Proof. reflexivity. Qed.
Lemma scale_rule : forall (c : cause) d e, rate_rule A KExponential d e (mul A e (probe_scale c)).
Proof. intros [] d e; cbn [rate_rule probe_scale]; auto. Qed.
Lemma exp_gap : forall (s : st) now l e, p_last s = Some l ->
  beq_opt A (Some e) (l_was l) && since_last_lt s now WAIT_RESULT = false ->
  beq_opt A (Some e) (l_was l) = false \/ SEC <= now - l_when l.
Proof.
  intros s now l e El E2. destruct (beq_opt A (Some e) (l_was l)); [right|left; reflexivity]. cbn [andb] in E2.
  unfold since_last_lt in E2. rewrite El in E2. apply Z.ltb_ge in E2. exact (max_le _ _ sec_pos E2).
Qed.
Lemma exponential_spec : forall (s : st) now d e s' b, p_pend s = [] ->
  maybe_exponential A s now d e = (s', b) -> if b then queued s s' now d e else s' = s.
Proof.
  intros s now d e s' b Hp H. unfold maybe_exponential in H. rewrite Hp in H.
  destruct (p_last s) as [l|] eqn:El; [|injection H as <- <-; reflexivity].
  destruct (lt A e (l_further l)) eqn:E1; [injection H as <- <-; reflexivity|].
  destruct (beq_opt A (Some e) (l_was l) && since_last_lt s now WAIT_RESULT) eqn:E2; [injection H as <- <-; reflexivity|].
  match type of H with (if ?b then _ else _) = _ => destruct b end; injection H as <- <-; [reflexivity|].
  apply one; [exact Hp|apply idle_refl|]. intros nid Hl. split; [exact Hl|]. split.
  { exists e, (mul A e (probe_scale (p_cs s))). split; [auto|]. split; [apply scale_rule|reflexivity]. }
  cbn [c_kind]. split; [exact I|]. exists l. split; [exact El|]. split; [exact E1|]. exact (exp_gap s now l e El E2).
Qed.
Lemma not_initial : forall (s : st) now, during_initial s now = false ->
  forall l, p_last s = Some l -> is_ini (l_kind l) = true -> SEC < now - l_when l.
Proof.
  intros s now H l El Hi. unfold during_initial in H. rewrite El, Hi in H. apply Z.leb_gt in H. exact (max_lt _ _ sec_nn H).
Qed.
Lemma not_recent : forall (s : st) now, since_last_lt s now ALR_GAP = false ->
  forall l, p_last s = Some l -> 5 * SEC <= now - l_when l.
Proof. intros s now H l El. unfold since_last_lt in H. rewrite El in H. apply Z.ltb_ge in H. exact (max_le _ _ gap_pos H). Qed.

Lemma increase_spec : forall (s : st) now d e s' b, p_pend s = [] ->
  maybe_increase A s now d e = (s', b) -> if b then queued s s' now d e else idle s s' now.
Proof.
  intros s now d e s' b Hp H. unfold maybe_increase in H.
  destruct (during_initial s now) eqn:E1; [injection H as <- <-; apply idle_refl|].
  destruct (in_alr s) eqn:E2; cbn [negb] in H; [|injection H as <- <-; apply idle_refl].
  assert (Hi : idle s (set_pdes s (Some d)) now) by (repeat split; left; reflexivity).
  destruct (p_pdes s) as [pv|]; [|injection H as <- <-; exact Hi].
  destruct (le A d pv); [injection H as <- <-; exact Hi|].
  destruct (le A d e) eqn:E3; [injection H as <- <-; exact Hi|].
  remember (mul A e 2) as lim eqn:Elim. remember (bmin A (mul A d 1) lim) as p1 eqn:Ep1. remember (set_pdes s (Some d)) as s1 eqn:Es1.
  assert (G1 : forall nid r, r = p1 \/ (r = mul A d 2 /\ le A (mul A d 2) lim = true) ->
            lt A (bmin A r (mul A d 2)) (KB5 A) = false -> good s now d e (mkC nid (bmin A r (mul A d 2)) KIncreaseAlr)).
  { intros nid r Hr Hl. split; [exact Hl|]. split.
    { exists e, r. split; [auto|]. split; [|reflexivity]. cbn [c_kind rate_rule]. subst. exact Hr. }
    cbn [c_kind]. split; [auto|]. exact (not_initial s now E1). }
  destruct (le A (mul A d 2) lim && lt A p1 (mul A d 2)) eqn:E4; injection H as <- <-.
  2: { apply one; auto. }
  apply andb_prop in E4. destruct E4 as (E4 & _).
  destruct (queue_cases s1 p1 KIncreaseAlr d now) as [[Q1 ->]|(g1 & X1 & Q1 & ->)].
  { apply one; auto. }
  match goal with |- queued _ (queue_probe A ?s1 _ _ _ _) _ _ _ =>
      destruct (queue_cases s1 (mul A d 2) KIncreaseAlr d now) as [[Q2 ->]|(g2 & X2 & Q2 & ->)] end;
    (split; [subst s1; repeat split|split; [subst s1; left; reflexivity|]]); cbn; subst s1 g1; try subst g2; cbn in *; rewrite ?Hp; cbn.
  - right; left. eexists. split; [reflexivity|]. split; [reflexivity|]. split; [reflexivity|]. split; [reflexivity|].
    apply G1; auto.
  - right; right. eexists _, _. split; [reflexivity|]. split; [reflexivity|]. split; [reflexivity|]. split; [reflexivity|].
    split; [reflexivity|]. split; [reflexivity|]. split; apply G1; auto.
Qed.
Lemma drop_spec : forall (s : st) now d e s' b, p_pend s = [] ->
  maybe_drop A s now d e = (s', b) -> if b then queued s s' now d e else idle s s' now.
Proof.
  intros s now d e s' b Hp H. unfold maybe_drop in H.
  destruct (during_initial s now) eqn:E1; [injection H as <- <-; apply idle_refl|].
  match type of H with (match p_drop ?x with _ => _ end) = _ => remember x as s1 eqn:Es1 end.
  assert (Hs : idle s s1 now).
  { rewrite Es1. destruct (p_drop s) eqn:Ed; [apply idle_refl|]. destruct (p_pest s) eqn:Ep; [|apply idle_refl].
    match goal with |- context [if ?b then _ else _] => destruct b end; [|apply idle_refl].
    split; [repeat split|]. split; [right; right; eexists; split; [exact Ep|reflexivity]|repeat split]. }
  destruct (p_drop s1) as [[t bf]|] eqn:Ed; [|injection H as <- <-; exact Hs].
  destruct (DROP_TIMEOUT <? since now t).
  { injection H as <- <-. destruct Hs as (? & ? & ? & ? & ? & ?). split; [assumption|].
    split; [right; left; reflexivity|]. repeat split; assumption. }
  destruct (negb (in_alr s1) && negb (alr_ended_recently s1 now)); [injection H as <- <-; exact Hs|].
  destruct (since_last_lt s1 now ALR_GAP) eqn:E2; injection H as <- <-; [exact Hs|].
  eapply (idle_queued s s1); [exact Hs|].
  assert (Hp1 : p_pend s1 = []) by (destruct Hs as (_ & _ & _ & -> & _); exact Hp).
  destruct (one s1 s1 now d e (mul A bf (85 # 100)) KLargeDrop Hp1 (idle_refl _ _)) as (S & D & Q).
  { intros nid Hl. split; [exact Hl|]. split; [eexists bf, _; split; [eauto|split; reflexivity]|].
    cbn [c_kind]. split; [exact I|]. exact (not_recent s1 now E2). }
  split; [exact S|]. split; [right; left; reflexivity|]. exact Q.
Qed.
Lemma periodic_spec : forall (s : st) now d e s' b, p_pend s = [] ->
  maybe_periodic A s now d = (s', b) -> if b then queued s s' now d e else s' = s.
Proof.
  intros s now d e s' b Hp H. unfold maybe_periodic in H.
  destruct (during_initial s now) eqn:E1; [injection H as <- <-; reflexivity|].
  destruct (in_alr s) eqn:E2; cbn [negb] in H; [|injection H as <- <-; reflexivity].
  destruct (since_last_lt s now ALR_GAP) eqn:E3; injection H as <- <-; [reflexivity|].
  apply one; auto using idle_refl. intros nid Hl. split; [exact Hl|].
  split; [eexists e, _; split; [auto|split; reflexivity]|]. cbn [c_kind]. split; [exact E2|]. exact (not_recent s now E3).
Qed.
Lemma stagnant_spec : forall (s : st) now d e s' b, p_pend s = [] ->
  maybe_stagnant A s now d e = (s', b) -> if b then queued s s' now d e else s' = s.
Proof.
  intros s now d e s' b Hp H. unfold maybe_stagnant in H.
  destruct (during_initial s now) eqn:E1; [injection H as <- <-; reflexivity|].
  destruct (in_alr s) eqn:E2; [injection H as <- <-; reflexivity|].
  destruct (p_chg s) eqn:E3; [|injection H as <- <-; reflexivity].
  destruct (since now _ <? STAG_GAP); [injection H as <- <-; reflexivity|].
  destruct (le A d e) eqn:E4; [injection H as <- <-; reflexivity|].
  match type of H with (if ?b then _ else _) = _ => destruct b end; injection H as <- <-; [reflexivity|].
  destruct (one s s now d e (mul A e 2) KStagnant Hp (idle_refl _ _)) as (S & D & Q).
  { intros nid Hl. split; [exact Hl|]. split; [eexists e, _; split; [auto|split; reflexivity]|]. cbn [c_kind]. auto. }
  split; [exact S|]. split; [exact D|]. exact Q.
Qed.

Lemma decide_spec : forall (s : st) now d e, p_pend s = [] -> queued s (decide A s now d e) now d e.
Proof.
  intros s now d e Hp. unfold decide.
  destruct (maybe_initial A s now d e) as [s1 b1] eqn:E1. apply initial_spec in E1; [|exact Hp].
  destruct b1; [exact E1|subst s1].
  destruct (maybe_exponential A s now d e) as [s2 b2] eqn:E2. apply exponential_spec in E2; [|exact Hp].
  destruct b2; [exact E2|subst s2].
  destruct (maybe_increase A s now d e) as [s3 b3] eqn:E3. apply increase_spec in E3; [|exact Hp].
  destruct b3; [exact E3|].
  eapply idle_queued; [exact E3|].
  assert (Hp3 : p_pend s3 = []) by (destruct E3 as (_ & _ & _ & -> & _); exact Hp).
  destruct (maybe_drop A s3 now d e) as [s4 b4] eqn:E4. apply drop_spec in E4; [|exact Hp3].
  destruct b4; [exact E4|].
  eapply idle_queued; [exact E4|].
  assert (Hp4 : p_pend s4 = []) by (destruct E4 as (_ & _ & _ & -> & _); exact Hp3).
  destruct (maybe_periodic A s4 now d) as [s5 b5] eqn:E5. apply periodic_spec with (e := e) in E5; [|exact Hp4].
  destruct b5; [exact E5|subst s5].
  destruct (maybe_stagnant A s4 now d e) as [s6 b6] eqn:E6. apply stagnant_spec in E6; [|exact Hp4].
  destruct b6; cbn [fst]; [exact E6|subst s6].
  split; [apply same_refl|]. split; [left; reflexivity|]. left. repeat split. exact Hp4.
Qed.
End P.

(** Two agents: the one with the larger tie-breaker keeps its role. *)
From Verif Require Import Base BaseFacts PrioModel PrioSpec PrioProofs PrioProps IceModel IceSpec IceProofs IceProofs2 IceProofs3 IceProofs4 IceProofs5 IceProofs6 IceProofs7 IceProofs8 IceProofs9.
From Coq Require Import Sorted Permutation.

(** A request that carries the role and tie-breaker of some check in [sent]. *)
Definition gq (sent : list xmit) (q : request) : Prop :=
  exists p s d c tie pr u, In (XRequest p s d (q_tid q) c tie pr u) sent
        /\ q_controlling q = (if c : bool then Some tie else None) /\ q_controlled q = (if c then None else Some tie).
Lemma gq_mono s s' q : incl s s' -> gq s q -> gq s' q.
Proof. intros I (p & x & d & c & tie & pr & u & H & E). exists p, x, d, c, tie, pr, u. auto. Qed.
Lemma gq_role sent q ctrl peer : gq sent q -> same_role q ctrl peer -> exists p s d pr u, In (XRequest p s d (q_tid q) ctrl peer pr u) sent.
Proof.
  intros (p & s & d & c & tie & pr & u & H & E1 & E2) R. unfold same_role in R.
  destruct ctrl, c; rewrite ?E1, ?E2 in R; try discriminate; assert (peer = tie) as -> by congruence; exists p, s, d, pr, u; exact H.
Qed.

Lemma step_requested a o a' sent : step a o = Ok a' -> genuine sent o -> (forall q, In q (a_queue a) -> gq sent q) ->
  a' = a \/ forall q, requested a o q -> gq sent q.
Proof.
  intros H G Q. destruct o; try (right; intros q []).
  - destruct m as [lu q ok| | |]; try (right; intros q []). destruct ok; [right; cbn; intros q0 <-; exact G|].
    left. cbn [step] in H. unfold handle_packet in H. cbn [accepts] in H. destruct (negb _); [cbn in H; congruence|].
    match type of H with context[if ?c then _ else _] => destruct c end; cbn in H; congruence.
  - right. cbn. exact Q.
Qed.
Lemma step_failure a now pr src tid a' sent : step a (OPacket now pr src (MFailure tid (Some 487) true)) = Ok a' -> genuine sent (OPacket now pr src (MFailure tid (Some 487) true)) ->
  exists p s d, In (XConflict p s d tid) sent.
Proof. intros _ G. exact G. Qed.

Record NI (c0 : bool) (ta tb : Z) (a b : agent) (sa sb : list xmit) : Prop := mkNI {
  ni_ta : a_tie a = ta; ni_tb : a_tie b = tb; ni_ca : a_ctrl a = c0;
  ni_sa : forall p s d tid c tie pr u, In (XRequest p s d tid c tie pr u) sa -> c = c0 /\ tie = ta;
  ni_sb : forall p s d tid c tie pr u, In (XRequest p s d tid c tie pr u) sb -> tie = tb /\ tid < a_fresh b;
  ni_uniq : forall p s d tid c tie pr u p' s' d' c' tie' pr' u', In (XRequest p s d tid c tie pr u) sb -> In (XRequest p' s' d' tid c' tie' pr' u') sb -> c = c';
  ni_tra : incl (a_transmit a) sa; ni_trb : incl (a_transmit b) sb;
  ni_conf_a : forall p s d tid, In (XConflict p s d tid) sa -> exists p' s' d' pr' u', In (XRequest p' s' d' tid c0 tb pr' u') sb;
  ni_conf_b : forall p s d tid, ~ In (XConflict p s d tid) sb;
  ni_att : forall p x, In p (a_pairs b) -> In x (p_att p) -> exists p' s' d' pr' u', In (XRequest p' s' d' (t_id x) (t_ctrl x) tb pr' u') sb;
  ni_qa : forall q, In q (a_queue a) -> gq sb q;
  ni_qb : forall q, In q (a_queue b) -> gq sa q }.

Lemma ni_a c0 ta tb a b sa sb o a' : tb < ta -> NI c0 ta tb a b sa sb -> genuine sb o -> step a o = Ok a' -> NI c0 ta tb a' b (sa ++ a_transmit a') sb.
Proof.
  intros LT [N1 N2 N3 N4 N5 N6 N7 N8 N9 N10 N11 N12 N13] G H.
  pose proof (step_track _ _ _ H) as [K1 K2 K3 K4 K5 K6 K7].
  destruct (step_requested _ _ _ _ H G N12) as [->|RQ].
  { constructor; auto.
    - intros p s d tid c tie pr u X. apply in_app_or in X. destruct X as [X|X]; eauto.
    - apply incl_appr, incl_refl.
    - intros p s d tid X. apply in_app_or in X. destruct X as [X|X]; eauto.
    - intros q Q. eapply gq_mono; [apply incl_appl, incl_refl|auto]. }
  assert (CA : a_ctrl a' = c0).
  { destruct K6 as [K6|[K6 [(q & peer & R1 & R2 & R3)|(now & pr & src & tid & p & x & -> & _)]]]; [congruence| |].
    - destruct (gq_role _ _ _ _ (RQ q R1) R2) as (p & s & d & pr & u & X). apply N5 in X. destruct X as [-> _]. lia.
    - cbn in G. destruct G as (p0 & s & d & X). exfalso. exact (N10 _ _ _ _ X). }
  constructor; auto; try congruence.
  - intros p s d tid c tie pr u X. apply in_app_or in X. destruct X as [X|X]; [eauto|]. destruct (K4 _ _ _ _ _ _ _ _ X) as [Y|(_ & -> & ->)]; [eauto|]. split; congruence.
  - apply incl_appr, incl_refl.
  - intros p s d tid X. apply in_app_or in X. destruct X as [X|X]; [eauto|]. destruct (K5 _ _ _ _ X) as [Y|(q & peer & Y1 & -> & Y2 & Y3 & Y4)]; [eauto|].
    destruct (gq_role _ _ _ _ (RQ q Y1) Y2) as (p' & s' & d' & pr' & u' & Z). pose proof (N5 _ _ _ _ _ _ _ _ Z) as [-> _]. rewrite N3 in Z. eauto 8.
  - intros q Q. destruct (K7 q Q) as [Y|Y]; auto.
  - intros q Q. eapply gq_mono; [apply incl_appl, incl_refl|auto].
Qed.

Lemma ni_b c0 ta tb a b sa sb o b' : tb < ta -> NI c0 ta tb a b sa sb -> genuine sa o -> step b o = Ok b' -> NI c0 ta tb a b' sa (sb ++ a_transmit b').
Proof.
  intros LT [N1 N2 N3 N4 N5 N6 N7 N8 N9 N10 N11 N12 N13] G H.
  pose proof (step_track _ _ _ H) as [K1 K2 K3 K4 K5 K6 K7].
  assert (NEW : forall p s d tid c tie pr u, In (XRequest p s d tid c tie pr u) (sb ++ a_transmit b') -> In (XRequest p s d tid c tie pr u) sb \/ (a_fresh b <= tid < a_fresh b' /\ c = a_ctrl b' /\ tie = tb)).
  { intros p s d tid c tie pr u X. apply in_app_or in X. destruct X as [X|X]; [auto|]. destruct (K4 _ _ _ _ _ _ _ _ X) as [Y|(Y1 & Y2 & Y3)]; [auto|]. right. split; [exact Y1|split; [exact Y2|congruence]]. }
  constructor; auto; try congruence.
  - intros p s d tid c tie pr u X. destruct (NEW _ _ _ _ _ _ _ _ X) as [Y|(Y1 & Y2 & Y3)]; [|split; [exact Y3|lia]]. destruct (N5 _ _ _ _ _ _ _ _ Y). split; [auto|lia].
  - intros p s d tid c tie pr u p' s' d' c' tie' pr' u' X X'. destruct (NEW _ _ _ _ _ _ _ _ X) as [Y|(Y1 & Y2 & Y3)], (NEW _ _ _ _ _ _ _ _ X') as [Y'|(Y1' & Y2' & Y3')].
    + eauto.
    + apply N5 in Y. lia.
    + apply N5 in Y'. lia.
    + congruence.
  - apply incl_appr, incl_refl.
  - intros p s d tid X. destruct (N9 _ _ _ _ X) as (p' & s' & d' & pr' & u' & Y). exists p', s', d', pr', u'. apply in_or_app. auto.
  - intros p s d tid X. apply in_app_or in X. destruct X as [X|X]; [exact (N10 _ _ _ _ X)|]. destruct (K5 _ _ _ _ X) as [Y|(q & peer & Y1 & -> & Y2 & Y3 & Y4)]; [exact (N10 _ _ _ _ (N8 _ Y))|].
    destruct (step_requested _ _ _ _ H G N13) as [->|RQ]; [exact (N10 _ _ _ _ (N8 _ X))|].
    destruct (gq_role _ _ _ _ (RQ q Y1) Y2) as (p' & s' & d' & pr' & u' & Z). apply N4 in Z. lia.
  - intros p x P X. destruct (K3 p x P X) as [(p0 & x0 & P0 & X0 & E1 & E2)|(pp & s & d & pr & u & Y)].
    + destruct (N11 _ _ P0 X0) as (p' & s' & d' & pr' & u' & Y). exists p', s', d', pr', u'. rewrite <- E1, <- E2. apply in_or_app. auto.
    + exists pp, s, d, pr, u. rewrite <- N2. apply in_or_app. auto.
  - intros q Q. eapply gq_mono; [apply incl_appl, incl_refl|auto].
  - intros q Q. destruct (step_requested _ _ _ _ H G N13) as [->|RQ]; [auto|]. destruct (K7 q Q) as [Y|Y]; auto.
Qed.
(** the other agent never turns back *)
Lemma ni_b_stays c0 ta tb a b sa sb o b' : tb < ta -> NI c0 ta tb a b sa sb -> genuine sa o -> step b o = Ok b' -> a_ctrl b = negb c0 -> a_ctrl b' = negb c0.
Proof.
  intros LT [N1 N2 N3 N4 N5 N6 N7 N8 N9 N10 N11 N12 N13] G H C.
  pose proof (step_track _ _ _ H) as [_ _ _ _ _ K6 _].
  destruct (step_requested _ _ _ _ H G N13) as [->|RQ]; [exact C|].
  destruct K6 as [K6|[K6 [(q & peer & R1 & R2 & R3)|(now & pr & src & tid & p & x & -> & P & X & E1 & E2)]]]; [congruence| |].
  - destruct (gq_role _ _ _ _ (RQ q R1) R2) as (p & s & d & pr & u & X). apply N4 in X. destruct X as [X _]. rewrite C in X. destruct c0; discriminate.
  - cbn in G. destruct G as (p0 & s & d & Y). destruct (N9 _ _ _ _ Y) as (p' & s' & d' & pr' & u' & Z). destruct (N11 _ _ P X) as (p2 & s2 & d2 & pr2 & u2 & Z2).
    rewrite E1 in Z2. pose proof (N6 _ _ _ _ _ _ _ _ _ _ _ _ _ _ _ Z Z2) as EC. rewrite E2, C in EC. destruct c0; discriminate.
Qed.
Lemma ni_init k k' lite lite' c0 c1 ta tb ua ub : NI c0 ta tb (init k lite c0 ta ua) (init k' lite' c1 tb ub) [] [].
Proof. constructor; try reflexivity; cbn; try (intros; contradiction); try (intros x []); auto. Qed.

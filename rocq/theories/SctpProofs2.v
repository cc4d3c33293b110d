(** Lemmas about one SCTP poll, continued (C48). *)
From Coq Require Import Sorting.Sorted.
From Verif Require Import Base BaseFacts DcepModel SctpModel SctpProofs.
From Verif Require ChanModel ChanProps.

Section P.
Context {A : Type} (P : proto A).
Section Inv.
Context (h : ChanModel.handler) (confs : list (Z * config)) (op : Z -> Prop).
Notation eok := (eok h confs op).
Notation visited := (visited h confs op).

Record evolves (es es1 : list entry) : Prop := {
  ev_fwd : forall id e, entry_by_id es id = Some e -> e_state e <> EClosed ->
    exists e1, entry_by_id es1 id = Some e1 /\ moves e e1;
  ev_bwd : forall id e1, entry_by_id es1 id = Some e1 -> e_state e1 = AwaitOpen ->
    exists e, entry_by_id es id = Some e /\ moves e e1
}.
Lemma evolves_refl es : evolves es es.
Proof. split; intros id e L _; exists e; split; auto using moves_refl. Qed.
Lemma evolves_trans a b c : evolves a b -> evolves b c -> evolves a c.
Proof.
  intros [F1 B1] [F2 B2]. split.
  - intros id e L N. destruct (F1 id e L N) as (e1 & L1 & M1). destruct (F2 id e1 L1) as (e2 & L2 & M2).
    + intro X. apply (m_closed _ _ M1) in X. contradiction.
    + exists e2. split; [exact L2|]. eapply moves_trans; eauto.
  - intros id e L W. destruct (B2 id e L W) as (e1 & L1 & M1). destruct (B1 id e1 L1) as (e2 & L2 & M2).
    + apply (m_wait _ _ M1) in W. destruct W as [W _]. exact W.
    + exists e2. split; [exact L2|]. eapply moves_trans; eauto.
Qed.
(** pointwise *)
Lemma evolves_upd es id f : (forall e, e_id (f e) = e_id e) -> (forall e, entry_by_id es id = Some e -> moves e (f e)) -> evolves es (upd_entry es id f).
Proof.
  intros F M. split.
  - intros id' e L _. rewrite look_upd by exact F. destruct (Z.eqb_spec id' id) as [->|N].
    + rewrite L. cbn. eexists. split; [reflexivity|]. apply M. exact L.
    + exists e. split; [exact L|apply moves_refl].
  - intros id' e L _. rewrite look_upd in L by exact F. destruct (Z.eqb_spec id' id) as [->|N].
    + destruct (entry_by_id es id) as [e0|] eqn:L0; [|discriminate]. injection L as <-. exists e0. auto.
    + exists e. split; [exact L|apply moves_refl].
Qed.
Lemma evolves_live es : sorted es -> evolves es (live es).
Proof.
  intro S. split.
  - intros id e L N. exists e. split; [|apply moves_refl]. rewrite live_look by exact S. rewrite L.
    destruct (estate_eqb (e_state e) EClosed) eqn:K; [apply estate_eqb_eq in K; contradiction|reflexivity].
  - intros id e L W. rewrite live_look in L by exact S. destruct (entry_by_id es id) as [e0|] eqn:L0; [|discriminate].
    destruct (estate_eqb _ _); [discriminate|]. injection L as <-. exists e0. split; [reflexivity|apply moves_refl].
Qed.
Lemma evolves_stream_entry es id : sorted es -> evolves es (stream_entry es id AwaitConfig).
Proof.
  intro S. split.
  - intros id' e L N. exists e. split; [|apply moves_refl]. rewrite stream_entry_look by exact S. rewrite L. reflexivity.
  - intros id' e L W. rewrite stream_entry_look in L by exact S. destruct (entry_by_id es id') as [e0|] eqn:L0.
    + injection L as <-. exists e0. split; [reflexivity|apply moves_refl].
    + destruct (id' =? id); [|discriminate]. injection L as <-. discriminate W.
Qed.

(** A list of entries between steps. *)
Definition base (es : list entry) : Prop := sorted es /\ forall e, In e es -> eok e.
Definition nodead (es : list entry) : Prop := forall e, In e es -> e_state e <> EClosed.

Lemma base_live es : base es -> base (live es) /\ nodead (live es).
Proof.
  intros [S O]. split; [split; [apply filter_sorted, S|]|].
  - intros e I. apply live_in in I as [I _]. auto.
  - intros e I. apply live_in in I as [_ I]. auto.
Qed.
Lemma base_upd es id f : (forall e, e_id (f e) = e_id e) -> (forall e, eok e -> eok (f e)) -> base es -> base (upd_entry es id f).
Proof.
  intros F K [S O]. split; [apply upd_sorted; auto|]. intros x I. apply in_upd in I as [I|(e & I & _ & ->)]; auto.
Qed.
Lemma base_stream_entry es id : base es -> base (stream_entry es id AwaitConfig).
Proof.
  intros [S O]. split; [apply stream_entry_sorted, S|]. intros e I. unfold stream_entry in I.
  destruct (entry_by_id es id); [auto|]. apply ins_in in I as [->|I]; [|auto]. unfold SctpProofs.eok. cbn. congruence.
Qed.
Lemma nodead_upd es id f : (forall e, e_state (f e) = EClosed -> e_state e = EClosed) -> nodead es -> nodead (upd_entry es id f).
Proof. intros F N x I E. apply in_upd in I as [I|(e & I & _ & ->)]; [eapply N; eauto|eapply N; eauto]. Qed.
Lemma nodead_stream_entry es id : nodead es -> nodead (stream_entry es id AwaitConfig).
Proof.
  intros N e I. unfold stream_entry in I. destruct (entry_by_id es id); [auto|]. apply ins_in in I as [->|I]; [discriminate|auto].
Qed.

(** Streams operations other than reading user data. *)
Definition wrote (t : list act) : Prop := forall id p buf, In (AWrite id p buf) t -> p = PDcep /\
  ((exists c cf t1 t2, ChanModel.channel_by_stream h id = Some c /\ conf_of confs c = Some cf /\ in_band cf = true /\
      send_open cf = Ok buf /\ t = t1 ++ [AOpened id; rel_act id cf; AWrite id PDcep buf] ++ t2) \/
   (buf = [2] /\ exists m d t1 t2, open_read m = Ok d /\
      t = t1 ++ [ARead id PDcep m; rel_act id (config_of_dcep d); AWrite id PDcep buf] ++ t2)).
Definition noreads (t : list act) : Prop := forall id p buf, In (ARead id p buf) t -> is_data p = false.
Definition tq (t : list act) : Prop := noreads t /\ wrote t.

Lemma wrote_app a b : wrote a -> wrote b -> wrote (a ++ b).
Proof.
  intros HA HB id p buf I. apply in_app_or in I as [I|I].
  - destruct (HA _ _ _ I) as (E & [(c & cf & t1 & t2 & H1 & H2 & H3 & H4 & H5)|(E2 & m & d & t1 & t2 & H1 & H2)]); (split; [exact E|]).
    + left. exists c, cf, t1, (t2 ++ b). repeat (split; [assumption|]). rewrite H5, <- app_assoc. reflexivity.
    + right. split; [exact E2|]. exists m, d, t1, (t2 ++ b). split; [exact H1|]. rewrite H2, <- app_assoc. reflexivity.
  - destruct (HB _ _ _ I) as (E & [(c & cf & t1 & t2 & H1 & H2 & H3 & H4 & H5)|(E2 & m & d & t1 & t2 & H1 & H2)]); (split; [exact E|]).
    + left. exists c, cf, (a ++ t1), t2. repeat (split; [assumption|]). rewrite H5, <- app_assoc. reflexivity.
    + right. split; [exact E2|]. exists m, d, (a ++ t1), t2. split; [exact H1|]. rewrite H2, <- app_assoc. reflexivity.
Qed.
Lemma tq_app a b : tq a -> tq b -> tq (a ++ b).
Proof.
  intros [A1 A2] [B1 B2]. split; [|apply wrote_app; assumption]. intros id p buf I. apply in_app_or in I as [I|I]; eauto.
Qed.
Lemma tq_nil : tq [].
Proof. split; intros ? ? ? []. Qed.
Lemma tq_of e t : eok e -> quiet_act e t -> tq t.
Proof.
  intros O [Q1 Q2]. split; [exact Q1|]. intros id p buf I. destruct (Q2 _ _ _ I) as (-> & E & [(W & cf & C & IB & SO & T)|(W & B & m & d & OR & T)]); (split; [exact E|]).
  - left. unfold SctpProofs.eok in O. rewrite W in O. destruct O as (cf' & c & O1 & O2 & O3). assert (cf' = cf) as -> by congruence.
    exists c, cf, [], []. repeat (split; [assumption|]). exact T.
  - right. split; [exact B|]. exists m, d, [], []. split; [exact OR|exact T].
Qed.

(** The result of the loop over the entries. *)
Definition dl_ok (now : Z) (e : entry) : Prop := e_state e = AwaitOpen -> forall d, e_deadline e = Some d -> d <= now + OPEN_TIMEOUT.

Ltac ex := cbn [e_id e_conf e_state e_close e_deadline e_thr e_set_state e_set_close e_set_conf e_set_deadline e_set_thr
  v_e v_w v_rp v_out v_acts] in *.

Lemma shut_deadline w rp e t : e_deadline (v_e (shut P w rp e t)) = e_deadline e.
Proof. unfold shut. destruct (propagate_close P true w rp (e_id e)) as [[[x w'] rp'] t']. reflexivity. Qed.
Lemma configure_deadline w e ok w1 e1 t : configure P w e = Ok (ok, w1, e1, t) -> e_deadline e1 = e_deadline e.
Proof. intro H. apply configure_spec in H as (cf & _ & -> & _). destruct ok; reflexivity. Qed.

Lemma visit_dl' now w rp e v : visit P now w rp e = Ok v ->
  e_deadline (v_e v) = e_deadline e \/ e_deadline (v_e v) = None \/ e_deadline (v_e v) = Some (now + OPEN_TIMEOUT).
Proof using Type.
  clear h confs op. intros H.
  unfold visit in H.
  assert (forall w rp e v, visit_read P w rp e = Ok v -> e_deadline (v_e v) = e_deadline e) as VR.
  { clear. intros w rp e v H. unfold visit_read in H. destruct (p_read P w (e_id e)) as [r w1]. destruct r as [| |p buf]; [injection H as <-; reflexivity|injection H as <-; reflexivity|].
    destruct p; try (injection H as <-; reflexivity). unfold visit_dcep in H. destruct (e_state e); try (injection H as <-; reflexivity).
    - destruct (open_read buf); try discriminate; [|injection H as <-; reflexivity]. destruct (configure P w1 _) as [[[[ok w2] e2] t1]| |] eqn:C; try discriminate.
      apply configure_deadline in C. cbn [bind] in H. assert (e_deadline e2 = e_deadline e) as C' by (rewrite C; destruct (e_conf e); reflexivity).
      destruct ok; cbn [negb] in H; [|injection H as <-; exact C'].
      change (ack_write 1) with (@Ok (list Z) [2]) in H. cbn [bind] in H. destruct (p_write P w2 _ _ _) as [wok w3]. destruct wok; injection H as <-; [exact C'|].
      rewrite shut_deadline. exact C'.
    - destruct (ack_read buf); try discriminate; [|injection H as <-; reflexivity]. destruct (e_conf e); [|discriminate]. injection H as <-. reflexivity. }
  destruct (estate_eqb (e_state e) AwaitOpen).
  - unfold visit_open in H. destruct (p_open P w (e_id e)) as [r w0].
    assert (forall w rp e t v, opened_out_of_band w rp e t = Ok v -> e_deadline (@v_e A v) = e_deadline e) as OB.
    { clear. intros w rp e t v H. unfold opened_out_of_band in H. destruct (e_conf e) as [c|]; [|discriminate]. destruct (in_band c); [discriminate|]. injection H as <-. reflexivity. }
    destruct r.
    + destruct (configure P w0 _) as [[[[ok w1] e1] t]| |] eqn:C; try discriminate. cbn [bind] in H. apply configure_deadline in C. ex.
      destruct ok; cbn [negb] in H; [|injection H as <-; rewrite shut_deadline; auto].
      destruct (e_conf e1) as [c|]; [|discriminate]. destruct (in_band c).
      * destruct (send_open c); try discriminate. cbn [bind] in H. destruct (p_write P w1 _ _ _) as [wok w2]. destruct wok; injection H as <-; ex; [auto|]. rewrite shut_deadline. ex. auto.
      * apply OB in H. right. left. congruence.
    + destruct (e_conf e) as [c|]; [|discriminate].
      assert (forall b, e_deadline (v_e v) = Some match e_deadline e with Some d => d | None => now + OPEN_TIMEOUT end -> b = true ->
        e_deadline (v_e v) = e_deadline e \/ e_deadline (v_e v) = None \/ e_deadline (v_e v) = Some (now + OPEN_TIMEOUT)) as K.
      { intros b E _. destruct (e_deadline e); auto. }
      destruct (in_band c || _ || _).
      * destruct (now <? _); injection H as <-; apply (K true); auto. rewrite shut_deadline. reflexivity.
      * destruct (negb _); [discriminate|]. destruct (configure P w0 e) as [[[[ok w1] e1] t]| |] eqn:C; try discriminate. cbn [bind] in H. apply configure_deadline in C.
        destruct ok; cbn [negb] in H; [apply OB in H; left; congruence|]. injection H as <-. rewrite shut_deadline. auto.
    + destruct (e_conf e) as [c|]; [|discriminate]. rewrite orb_true_r in H.
      assert (e_deadline (v_e v) = Some match e_deadline e with Some d => d | None => now + OPEN_TIMEOUT end) as E.
      { destruct (now <? _); injection H as <-; [reflexivity|]. rewrite shut_deadline. reflexivity. }
      rewrite E. destruct (e_deadline e); auto.
    + injection H as <-. rewrite shut_deadline. auto.
  - destruct (e_close e && _); [injection H as <-; rewrite shut_deadline; auto|].
    destruct (negb _); [injection H as <-; auto|]. destruct (e_thr e); try (apply VR in H; left; congruence).
    destruct (p_thr P w (e_id e) v0) as [ok w1]. destruct ok; [apply VR in H; left; exact H|]. injection H as <-. auto.
Qed.

Lemma visit_dl now w rp e v : e_state e <> EClosed -> eok e -> visit P now w rp e = Ok v -> dl_ok now e -> dl_ok now (v_e v).
Proof.
  intros N O H D W d E.
  assert (e_state e = AwaitOpen) as WE.
  { pose proof (visit_spec P h confs op now w rp e v N O H) as VS. unfold SctpProofs.visited in VS. destruct (v_out v) as [| |[]]; try tauto; try congruence.
    - destruct VS as [M _]. apply (m_wait _ _ M) in W. tauto.
    - destruct VS as (_ & _ & V & _). congruence.
    - destruct VS as (_ & _ & V & _). congruence.
    - destruct VS as (_ & _ & _ & V & V' & _). congruence. }
  specialize (D WE). destruct (visit_dl' _ _ _ _ _ H) as [X|[X|X]]; rewrite X in E; [auto|discriminate|injection E as <-; lia].
Qed.

Inductive scanned (now : Z) (es : list entry) (l : @lres A) : Prop :=
| ScCont : l_out l = Cont -> evolves es (l_es l) -> base (l_es l) -> nodead (l_es l) -> tq (l_acts l) ->
    (forall e, In e es -> e_close e = true -> e_state e = AwaitOpen) ->
    (forall e, In e (l_es l) -> e_state e = AwaitOpen -> exists d, e_deadline e = Some d /\ now < d) -> scanned now es l
| ScRestart : l_out l = Restart -> evolves es (l_es l) -> base (l_es l) -> nodead (l_es l) -> tq (l_acts l) -> scanned now es l
| ScEmit ev es1 e (v : @vres A) t1 : l_out l = Emit ev -> evolves es es1 -> base es1 -> nodead es1 -> entry_by_id es1 (e_id e) = Some e ->
    l_es l = upd_entry es1 (e_id e) (fun _ => v_e v) -> l_acts l = t1 ++ v_acts v -> tq t1 -> visited now e v -> v_out v = Emit ev ->
    scanned now es l.

Lemma evolves_cons e e1 r r1 : moves e e1 -> evolves r r1 -> evolves (e :: r) (e1 :: r1).
Proof.
  intros M [F B]. pose proof (m_id _ _ M) as I. split; intros id x; rewrite !look_cons, I.
  - destruct (e_id e =? id); [intros E _; injection E as <-; eauto|apply F].
  - destruct (e_id e =? id); [intros E _; injection E as <-; eauto|apply B].
Qed.

Definition same_ids (a b : list entry) := ids a = ids b.
Lemma scan_ids now w rp : forall es l, (forall e, In e es -> e_state e <> EClosed /\ eok e) -> scan P now w rp es = Ok l -> ids (l_es l) = ids es.
Proof.
  intros es. revert w rp. induction es as [|e r IH]; intros w rp l HH H; cbn [scan] in H; [injection H as <-; reflexivity|].
  destruct (visit P now w rp e) as [v| |] eqn:V; try discriminate. cbn [bind] in H.
  destruct (HH e (or_introl eq_refl)) as [N O]. pose proof (visit_spec P h confs op now w rp e v N O V) as VS.
  assert (e_id (v_e v) = e_id e) as I.
  { unfold SctpProofs.visited in VS. destruct (v_out v) as [| |[]]; try tauto.
    - destruct VS as [M _]. apply (m_id _ _ M).
    - destruct VS as [M _]. apply (m_id _ _ M).
    - destruct VS as (E1 & E2 & _). congruence.
    - destruct VS as (E1 & E2 & _). congruence.
    - destruct VS as (_ & _ & _ & _ & _ & M & _). apply (m_id _ _ M). }
  destruct (v_out v).
  - destruct (scan P now (v_w v) (v_rp v) r) as [l'| |] eqn:SC; try discriminate. cbn [bind] in H. injection H as <-. unfold ids in *. cbn [map l_es].
    rewrite I. f_equal. eapply IH; eauto. intros x Hx. apply HH. right. exact Hx.
  - injection H as <-. unfold ids. cbn. rewrite I. reflexivity.
  - injection H as <-. unfold ids. cbn. rewrite I. reflexivity.
Qed.

Lemma scan_spec now : forall es w rp l, base es -> nodead es -> scan P now w rp es = Ok l -> scanned now es l.
Proof.
  induction es as [|e r IH]; intros w rp l B N H.
  { cbn [scan] in H. injection H as <-. apply ScCont; cbn; auto using evolves_refl, tq_nil; intros ? []. }
  pose proof H as H0. destruct B as [S O].
  assert (ids (l_es l) = ids (e :: r)) as IDS by (eapply scan_ids; [|exact H]; intros x Hx; split; [apply N, Hx|apply O, Hx]).
  cbn [scan] in H. destruct (visit P now w rp e) as [v| |] eqn:V; try discriminate. cbn [bind] in H.
  pose proof (visit_spec P h confs op now w rp e v (N e (or_introl eq_refl)) (O e (or_introl eq_refl)) V) as VS.
  apply sorted_cons in S as S'. destruct S' as [S1 S2].
  assert (base r) as BR by (split; [exact S1|intros x Hx; apply O; right; exact Hx]).
  assert (nodead r) as NR by (intros x Hx; apply N; right; exact Hx).
  destruct (v_out v) as [| |ev] eqn:VO.
  - destruct (scan P now (v_w v) (v_rp v) r) as [l'| |] eqn:SC; try discriminate. cbn [bind] in H. injection H as <-. cbn [l_es] in IDS.
    unfold SctpProofs.visited in VS. rewrite VO in VS. destruct VS as (M & OK & Q & CL & DL).
    pose proof (m_id _ _ M) as I. apply (tq_of e) in Q; [|apply O; left; reflexivity].
    assert (e_state (v_e v) <> EClosed) as NC by (intro X; apply (m_closed _ _ M) in X; apply (N e); [left; reflexivity|exact X]).
    specialize (IH _ _ _ BR NR SC). destruct IH as [LO EV [SS OO] ND T CLL DLL|LO EV [SS OO] ND T|ev es1 e1 v1 t1 LO EV [SS OO] ND LK LE LA T V1 V2].
    + apply ScCont; cbn [l_out l_es l_acts].
      * exact LO.
      * apply evolves_cons; assumption.
      * split; [unfold sorted; rewrite IDS; exact S|]. intros x [<-|Hx]; auto.
      * intros x [<-|Hx]; auto.
      * apply tq_app; assumption.
      * intros x [<-|Hx] C; [|auto]. destruct (CL C) as [X|X]; [exact X|]. exfalso. apply (N e); [left; reflexivity|exact X].
      * intros x [<-|Hx] W; [|auto]. destruct (DL W) as (d & D1 & D2 & _). exists d. auto.
    + apply ScRestart; cbn [l_out l_es l_acts].
      * exact LO.
      * apply evolves_cons; assumption.
      * split; [unfold sorted; rewrite IDS; exact S|]. intros x [<-|Hx]; auto.
      * intros x [<-|Hx]; auto.
      * apply tq_app; assumption.
    + assert (ids (v_e v :: es1) = ids (e :: r)) as IDS1.
      { rewrite <- IDS. rewrite LE. unfold ids. cbn [map]. f_equal. symmetry. apply look_in in LK as [LK _].
        assert (e_id (v_e v1) = e_id e1) as IV.
        { unfold SctpProofs.visited in V1. rewrite V2 in V1. destruct ev; try tauto.
          - destruct V1 as (E1 & E2 & _). congruence.
          - destruct V1 as (E1 & E2 & _). congruence.
          - destruct V1 as (_ & _ & _ & _ & _ & M1 & _). apply (m_id _ _ M1). }
        clear - LK IV SS. revert LK. induction es1 as [|y ys IHy]; intro LK; [destruct LK|]. cbn [upd_entry map].
        destruct (Z.eqb_spec (e_id y) (e_id e1)) as [E|E]; cbn [map]; [congruence|]. f_equal.
        apply sorted_cons in SS as [SS _]. destruct LK as [->|LK]; [congruence|auto]. }
      eapply ScEmit with (ev := ev) (es1 := v_e v :: es1) (e := e1) (v := v1) (t1 := v_acts v ++ t1); cbn [l_out l_es l_acts].
      * exact LO.
      * apply evolves_cons; assumption.
      * split; [unfold sorted; rewrite IDS1; exact S|]. intros x [<-|Hx]; auto.
      * intros x [<-|Hx]; auto.
      * rewrite look_cons, I.
        destruct (Z.eqb_spec (e_id e) (e_id e1)) as [E|E]; [exfalso|exact LK].
        apply look_in in LK as [LK _]. unfold ids in IDS1. cbn [map] in IDS1. injection IDS1 as _ X.
        assert (In (e_id e1) (map e_id r)) as Y by (rewrite <- X; apply in_map, LK). apply in_map_iff in Y as (y & Y1 & Y2). specialize (S2 y Y2). lia.
      * rewrite LE. cbn [upd_entry]. rewrite I. destruct (Z.eqb_spec (e_id e) (e_id e1)) as [E|E]; [exfalso|reflexivity].
        apply look_in in LK as [LK _]. unfold ids in IDS1. cbn [map] in IDS1. injection IDS1 as _ X.
        assert (In (e_id e1) (map e_id r)) as Y by (rewrite <- X; apply in_map, LK). apply in_map_iff in Y as (y & Y1 & Y2). specialize (S2 y Y2). lia.
      * rewrite LA, app_assoc. reflexivity.
      * apply tq_app; assumption.
      * exact V1.
      * exact V2.
  - injection H as <-. cbn [l_es] in IDS. unfold SctpProofs.visited in VS. rewrite VO in VS. destruct VS as (M & OK & Q & W & W').
    apply ScRestart; cbn [l_out l_es l_acts].
    + reflexivity.
    + apply evolves_cons; [exact M|apply evolves_refl].
    + split; [unfold sorted; rewrite IDS; exact S|]. intros x [<-|Hx]; [exact OK|apply O; right; exact Hx].
    + intros x [<-|Hx]; [congruence|apply NR, Hx].
    + eapply tq_of; [|exact Q]. apply O. left. reflexivity.
  - injection H as <-. eapply ScEmit with (ev := ev) (es1 := e :: r) (e := e) (v := v) (t1 := []); cbn [l_out l_es l_acts].
    + reflexivity.
    + apply evolves_refl.
    + split; assumption.
    + exact N.
    + rewrite look_cons, Z.eqb_refl. reflexivity.
    + cbn [upd_entry]. rewrite Z.eqb_refl. reflexivity.
    + reflexivity.
    + apply tq_nil.
    + exact VS.
    + exact VO.
Qed.

Lemma scan_dl now : forall es w rp l, base es -> nodead es -> scan P now w rp es = Ok l -> (forall e, In e es -> dl_ok now e) -> forall e, In e (l_es l) -> dl_ok now e.
Proof.
  induction es as [|e r IH]; intros w rp l [S O] N H D; cbn [scan] in H; [injection H as <-; intros ? []|].
  destruct (visit P now w rp e) as [v| |] eqn:V; try discriminate. cbn [bind] in H.
  pose proof (visit_dl _ _ _ _ _ (N e (or_introl eq_refl)) (O e (or_introl eq_refl)) V (D e (or_introl eq_refl))) as VD.
  assert (forall x, In x r -> dl_ok now x) as DR by (intros x Hx; apply D; right; exact Hx).
  apply sorted_cons in S as [S _].
  assert (base r) as BR by (split; [exact S|intros x Hx; apply O; right; exact Hx]).
  assert (nodead r) as NR by (intros x Hx; apply N; right; exact Hx).
  destruct (v_out v).
  - destruct (scan P now (v_w v) (v_rp v) r) as [l'| |] eqn:SC; try discriminate. cbn [bind] in H. injection H as <-. cbn [l_es].
    intros x [<-|Hx]; [exact VD|eapply IH; eauto].
  - injection H as <-. cbn [l_es]. intros x [<-|Hx]; auto.
  - injection H as <-. cbn [l_es]. intros x [<-|Hx]; auto.
Qed.
End Inv.
End P.

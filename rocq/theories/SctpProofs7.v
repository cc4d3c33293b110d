(** Preservation of the invariant by timeouts and polls (C48). *)
From Verif Require Import Base BaseFacts DcepModel SctpModel SctpSpec SctpProofs SctpProofs2 SctpProofs3 SctpProofs4 SctpProofs5 SctpProofs6.
From Verif Require ChanModel ChanProps.

Section P.
Context {A : Type} (P : proto A).
Notation rtc := (@rtc A).
Notation hist := (@history A).
Notation handler := ChanModel.handler.

Ltac sx := cbn [s_st s_world s_assoc s_entries s_rpend s_rcomp s_pushed s_now s_client s_set_st s_set_world s_set_entries s_set_resets s_set_pushed s_set_now] in *.
Ltac ex := cbn [e_id e_conf e_state e_close e_deadline e_thr e_set_state e_set_close e_set_conf e_set_deadline e_set_thr] in *.
Ltac rx := cbn [r_h r_confs r_s r_now o_r o_evs o_acts o_idle with_s with_h quiet] in *.

Lemma step_timeout r tr now w x : inv r tr -> step P r (OTimeout now w) = Ok x -> stepped r tr (OTimeout now w) x.
Proof.
  intros I H. cbn [step] in H. pose proof I as [I1 I2 I3 I4 I5 I6 I7 I8 I9 I10 I11].
  destruct (Z.ltb_spec now (r_now r)) as [LT|GE]; [injection H as <-; apply still_step; auto; discriminate|].
  set (s := handle_timeout (r_s r) now w) in *.
  set (inited := match s_st s with Uninited => false | _ => true end) in *.
  destruct (ChanModel.handle_timeout (r_h r) inited (s_client s)) as [h l] eqn:HT.
  destruct (open_all P s (r_confs r) l) as [[s1 t]| |] eqn:OA; try discriminate. cbn [bind] in H. injection H as <-.
  destruct (timeout_on _ _ _ _ _ I1 HT) as (T1 & T2 & T3 & T4 & T5 & T6 & T7).
  assert (s_st s = s_st (r_s r) /\ s_assoc s = s_assoc (r_s r)) as [SS SA].
  { unfold s, handle_timeout. destruct (s_st (r_s r)) eqn:E; auto. }
  assert (s_st (r_s r) = Uninited \/ s_st (r_s r) <> Uninited) as [U|U] by (destruct (s_st (r_s r)); [left|right..]; congruence).
  - assert (inited = false) as IN by (unfold inited; rewrite SS, U; reflexivity). destruct (T6 IN) as [-> ->].
    assert (s = r_s r) as ES by (unfold s, handle_timeout; rewrite U; reflexivity). cbn [open_all] in OA. injection OA as <- <-. rewrite ES in *. specialize (I6 U).
    apply quiet_step; rx; auto; try lia.
    + right. rewrite I6. intros e [].
    + exact (same_look r).
    + discriminate.
  - assert (s_entries s = live (s_entries (r_s r)) /\ s_now s = now) as [EE EN] by (unfold s, handle_timeout; destruct (s_st (r_s r)); [contradiction|auto..]).
    destruct (base_live _ _ _ _ I2) as [B1 B2].
    assert (base h (r_confs r) (announced tr) (s_entries s)) as B3.
    { rewrite EE. apply (base_mono (r_h r) h (r_confs r) (r_confs r) (announced tr)); auto. intros e IE W. exfalso. exact (B2 e IE W). }
    destruct (open_all_spec P h (r_confs r) (announced tr) T1 l s s1 t B3) as [O1 O2 O3 O4 O5 O6 O7 O8 O9]; auto.
    { rewrite EE. exact B2. }
    { intros c id K. apply T5, K. }
    apply quiet_step; rx; auto; try lia.
    + intros c K. left. apply T4, K.
    + apply O4. rewrite EN, EE. intros e IE W d Ed. apply live_in in IE as [IE _]. destruct I4 as [I4|I4]; [|exfalso; exact (I4 e IE W)].
      specialize (I3 e IE W d Ed). lia.
    + rewrite O6, O7, SS, SA. exact I5.
    + rewrite O6, SS. contradiction.
    + intros a IA CA. destruct (T7 a IA CA) as (b & IB & EB & CB). rewrite <- EB. auto.
    + intros sid e L N. unfold look in *. rx. apply O3. rewrite EE, live_look by apply I2. rewrite L. destruct (estate_eqb (e_state e) EClosed) eqn:K; [apply estate_eqb_eq in K; contradiction|reflexivity].
    + rewrite O6, SS. auto.
    + discriminate.
Qed.

Lemma upd_set es id e0 e' : sorted es -> entry_by_id es id = Some e0 -> e_id e' = id ->
  sorted (upd_entry es id (fun _ => e')) /\ (forall x, In x (upd_entry es id (fun _ => e')) -> x = e' \/ (In x es /\ e_id x <> id)) /\
  (forall s, entry_by_id (upd_entry es id (fun _ => e')) s = if s =? id then Some e' else entry_by_id es s).
Proof.
  intros S L ID. rewrite (upd_const _ _ _ _ L ID S). set (f := fun y => if e_id y =? id then e' else y).
  assert (forall y, e_id (f y) = e_id y) as F by (intro y; unfold f; destruct (Z.eqb_spec (e_id y) id); congruence).
  pose proof (upd_sorted es id f F S) as S'. 
  assert (forall s, entry_by_id (upd_entry es id f) s = if s =? id then Some e' else entry_by_id es s) as LK.
  { intro s. rewrite look_upd by exact F. destruct (s =? id); [|reflexivity]. rewrite L. cbn. unfold f. apply look_in in L as [_ L]. rewrite L, Z.eqb_refl. reflexivity. }
  split; [exact S'|]. split; [|exact LK].
  intros x IX. pose proof (look_of _ x S' IX) as X. rewrite LK in X. destruct (Z.eqb_spec (e_id x) id) as [E|E]; [left; congruence|right].
  split; [|exact E]. apply look_in in X. tauto.
Qed.

Definition pre (tr : hist) (o : op) (t : list act) : hist := tr ++ ICall o :: map IAct t.
Lemma pre_items (tr : hist) o t r : pre tr o t = tr ++ items o (mkS r [] t false).
Proof. unfold pre, items. cbn [o_acts o_evs o_idle map app]. rewrite app_nil_r. reflexivity. Qed.
Lemma pre_ann (tr : hist) o t c : announced (pre tr o t) c -> announced tr c.
Proof. intro K. destruct K as (l & K). unfold pre in K. apply in_app_or in K as [K|K]; [exists l; exact K|]. destruct K as [K|K]; [discriminate|]. apply in_map_iff in K as (a & K & _). discriminate. Qed.
Lemma pre_closed (tr : hist) o t c : closed (pre tr o t) c -> closed tr c.
Proof. unfold closed. intro K. unfold pre in K. apply in_app_or in K as [K|K]; [exact K|]. destruct K as [K|K]; [discriminate|]. apply in_map_iff in K as (a & K & _). discriminate. Qed.
Lemma pre_asked (r : rtc) tr o t c : (forall c', o <> OClose c') -> asked (pre tr o t) c -> asked tr c.
Proof. intros N K. rewrite (pre_items tr o t r) in K. apply asked_app in K as [K|[K _]]; [exact K|]. exfalso. eapply N; eauto. Qed.

(** a channel that is closed is not known *)
Lemma not_closed r (tr : hist) c s : inv r tr -> on (r_h r) c s -> ~ closed tr c.
Proof. intros I O K. apply (i_closed _ _ I) in K as [K _]. apply K. eapply on_known; eauto. Qed.

Lemma asked_ann (tr : hist) c : asked tr c -> announced tr c.
Proof. intros (p1 & p2 & -> & l & K). exists l. apply in_or_app. auto. Qed.

Lemma step_poll r tr fuel blocked x : inv r tr -> step P r (OPoll fuel blocked) = Ok x -> stepped r tr (OPoll fuel blocked) x.
Proof.
  intros I H. cbn [step] in H. pose proof I as [I1 I2 I3 I4 I5 I6 I7 I8 I9 I10 I11].
  destruct (do_poll P fuel (r_s r)) as [[[ev s'] t]| |] eqn:DP; try discriminate. cbn [bind] in H.
  destruct (do_poll_spec P (r_h r) (r_confs r) (announced tr) fuel (r_s r) ev s' t I2 I3 DP) as (PO & [F1 F2 F3 F4] & DL).
  set (o := OPoll fuel blocked) in *.
  assert (forall c, o <> OClose c) as NO by (intros c; discriminate).
  assert (s_st s' = Established -> s_assoc s' = true) as EST by (intro E; rewrite F3; destruct F4 as [F4|(F4 & X & _)]; [apply I5; congruence|exact X]).
  assert (s_st (r_s r) = Established -> s_st s' = Established) as ES2 by (intro E; destruct F4 as [F4|(F4 & _)]; congruence).
  assert (s_st s' = Uninited -> s_entries s' = []) as UN.
  { intro E. destruct F4 as [F4|(F4 & _ & X)]; [|congruence]. rewrite E in F4. symmetry in F4. destruct fuel as [|f]; [discriminate|]. cbn [do_poll] in DP. rewrite F4 in DP. injection DP as <- <- <-. auto. }
  assert (forall es, evolves (s_entries (r_s r)) es -> (forall e, In e es -> e_state e = AwaitOpen -> entry_by_id es (e_id e) = Some e) ->
    s_now s' = r_now r \/ (forall e, In e es -> e_state e <> AwaitOpen)) as CK.
  { intros es EV LK. destruct I4 as [I4|I4]; [left; congruence|right]. intros e IE W. destruct (ev_bwd _ _ EV _ _ (LK e IE W) W) as (e0 & L0 & M0).
    apply look_in in L0 as [L0 _]. destruct (m_wait _ _ M0 W) as [X _]. exact (I4 e0 L0 X). }
  assert (forall es, base (r_h r) (r_confs r) (announced tr) es -> forall e, In e es -> e_state e = AwaitOpen -> entry_by_id es (e_id e) = Some e) as LKB
    by (intros es [S _] e IE _; apply look_of; auto).
  (* steps that only move entries on *)
  assert (forall h evs b s2, evolves (s_entries (r_s r)) (s_entries s') -> base (r_h r) (r_confs r) (announced tr) (s_entries s') ->
    ChanProps.good h -> ChanModel.allocs h = ChanModel.allocs (r_h r) -> ChanModel.next_id h = ChanModel.next_id (r_h r) ->
    s_entries s2 = s_entries s' -> s_now s2 = s_now s' -> s_st s2 = s_st s' -> s_assoc s2 = s_assoc s' ->
    (forall u, In u evs -> allowed (pre tr o t) u /\ match u with UOpen _ _ | UClosed _ => False | _ => True end) ->
    (evs = [] \/ exists u, evs = [u]) ->
    (b = true -> (forall c, asked tr c -> closed tr c) /\ (s_st s' = Established -> forall e, In e (s_entries s') -> e_state e = AwaitOpen ->
            exists d, e_deadline e = Some d /\ r_now r < d)) ->
    stepped r tr o (mkS (mkRtc h (r_confs r) s2 (r_now r)) evs t b)) as MOVE.
  { intros h evs b s2 EV B G HA HN E1 E2 E3 E4 AL ONE IDL.
    assert (forall c s, on (r_h r) c s <-> on h c s) as ONE' by (intros c s; unfold on; rewrite HA; tauto).
    apply gen_step; rx; rewrite ?HA, ?HN, ?E1, ?E2, ?E3, ?E4; auto; try lia.
    - intros c s K. apply ONE', K.
    - intros c K. left. unfold known in *. rewrite HA in K. exact K.
    - apply (base_mono (r_h r) h (r_confs r) (r_confs r) (announced tr)); auto.
      + intros c s K. apply ONE', K.
      + intros e IE W c K. apply ONE' in K. pose proof (proj2 B e IE) as X. unfold eok in X. rewrite W in X. apply cbs_on in K; [|exact I1]. congruence.
    - intros c0 sid e _ L N. unfold look in *. rx. rewrite E1. destruct (ev_fwd _ _ EV sid e L N) as (e1 & L1 & M1). eauto.
    - intros c E. exfalso. eapply NO; eauto. }
  assert (forall c s, on (r_h r) c s -> ~ closed (pre tr o t) c) as NC by (intros c s O K; apply pre_closed in K; eapply not_closed; eauto).
  destruct PO as [E EV B TQ IDL|sv E SV EV B TQ|id b d e p buf t1 E EV B L CL ET TQ DA EB ED|id pend es1 e e' E EV B L NCL ID W ES TQ|id label es1 e e' t1 t2 E EV B L ID W CF KC HO ES ET TQ1 TQ2 SE SA].
  - (* nothing *)
    subst ev. injection H as <-. apply (MOVE (r_h r) [] true s'); auto; [intros u []|].
    intros _. split.
    + intros c K. destruct (I11 c K) as [X|(s & e & O & L & W & Q)]; [exact X|exfalso].
      destruct (I10 c (asked_ann _ _ K)) as [X|(SE & _)]; [eapply not_closed; eauto|].
      destruct (IDL (ES2 SE) (I5 SE)) as [X _]. unfold look in L. apply look_in in L as [L _]. rewrite (X e L W) in Q. discriminate.
    + intros SE e IE W. assert (s_assoc (r_s r) = true) as AS by (rewrite <- F3; auto). destruct (IDL SE AS) as [_ X]. destruct (X e IE W) as (d & D1 & D2).
      exists d. split; [exact D1|]. destruct I4 as [I4|I4]; [congruence|exfalso]. destruct (ev_bwd _ _ EV _ _ (LKB _ B e IE W) W) as (e0 & L0 & M0).
      apply look_in in L0 as [L0 _]. destruct (m_wait _ _ M0 W) as [Y _]. exact (I4 e0 L0 Y).
  - (* transmit, reset complete, low, lost *)
    subst ev. destruct sv; cbn [translate bind] in H; try contradiction.
    + unfold push_back in H. rx. destruct (if blocked then packets else tl packets); cbn [bind] in H.
      * injection H as <-. apply (MOVE (r_h r) [] false s'); auto; try discriminate. intros u [].
      * rewrite SV in H. cbn [bind] in H. injection H as <-. apply (MOVE (r_h r) [] false (s_set_pushed s' _)); auto; try discriminate. intros u [].
    + injection H as <-. rx. apply (MOVE (ChanModel.stream_reset_complete (r_h r) id) [] false s'); auto using good_of_reset; try discriminate. intros u [].
    + rx. destruct (ChanModel.channel_by_stream (r_h r) id) as [c|] eqn:CB; cbn [bind] in H; injection H as <-.
      * apply (MOVE (r_h r) [ULow c] false s'); eauto; try discriminate. intros u [<-|[]]. split; [|exact Logic.I]. apply cbs_on in CB; [|exact I1]. cbn [allowed]. eapply NC; eauto.
      * apply (MOVE (r_h r) [] false s'); auto; try discriminate. intros u [].
    + injection H as <-. rx. apply (MOVE (ChanModel.association_lost (r_h r)) [ULost] false s'); eauto using good_of_lost; try discriminate. intros u [<-|[]]. split; exact Logic.I.
  - (* data *)
    subst ev. cbn [translate bind] in H. rx. destruct (ChanModel.channel_by_stream (r_h r) id) as [c|] eqn:CB; cbn [bind] in H; injection H as <-.
    + apply (MOVE (r_h r) [UData c b d] false s'); eauto; try discriminate. intros u [<-|[]]. split; [|exact Logic.I]. apply cbs_on in CB; [|exact I1]. cbn [allowed]. split; [eapply NC; eauto|].
      intro K. apply (pre_asked r) in K; [|exact NO]. destruct (I11 c K) as [X|(s & e0 & O & L0 & W & Q)]; [eapply not_closed; eauto|].
      rewrite (on_fun _ _ _ _ I1 O CB) in *. destruct (ev_fwd _ _ EV id e0 L0) as (e1 & L1 & M1); [congruence|]. assert (e1 = e) as -> by congruence. pose proof (m_close _ _ M1 Q). congruence.
    + apply (MOVE (r_h r) [] false s'); auto; try discriminate. intros u [].
  - (* close *)
    subst ev. cbn [translate bind] in H. rx. destruct (upd_set es1 id e e' (proj1 B) L ID) as (S1 & X1 & L1). rewrite <- ES in *.
    assert (s_now s' = r_now r \/ (forall e0, In e0 (s_entries s') -> e_state e0 <> AwaitOpen)) as CK'.
    { destruct (CK es1 EV (LKB _ B)) as [X|X]; [auto|right]. intros y IX. destruct (X1 y IX) as [->|[IX' _]]; [congruence|auto]. }
    destruct (ChanModel.channel_by_stream (r_h r) id) as [c|] eqn:CB; cbn [bind] in H; injection H as <-.
    + assert (on (r_h r) c id) as O by (apply cbs_on; auto). destruct (remove_on (r_h r) c pend I1 (ex_intro _ id O)) as (R1 & R2 & R3 & R4 & R5).
      set (h' := ChanModel.remove_channel (r_h r) c pend) in *.
      assert (cfwd r (mkRtc h' (r_confs r) s' (r_now r)) [UClosed c]) as FW.
      { intros c0 s0 e0 O0 L0. destruct (Z.eq_dec c0 c) as [->|NE]; [left; left; reflexivity|right]. rx. split; [apply R3; auto|]. unfold look in *. rx.
        rewrite L1. destruct (Z.eqb_spec s0 id) as [->|NE2]; [exfalso; apply NE; exact (on_inj _ _ _ _ I1 O0 O)|].
        apply (ev_fwd _ _ EV s0 e0 L0). eapply (live_of r tr); eauto. }
      split; rx; auto; try lia; try discriminate.
      * apply (inv_next r tr o (mkS (mkRtc h' (r_confs r) s' (r_now r)) [UClosed c] t false) I); rx; auto; try lia.
        -- apply base_ann; [exact R1|]. split; [exact S1|]. intros y IY. destruct (X1 y IY) as [->|[IY' NE]].
           ++ unfold eok. rewrite W, ID. apply cbs_none; [exact R1|]. intros c0 K. apply R3 in K as [K1 K2]. apply K2. exact (on_inj _ _ _ _ I1 K1 O).
           ++ eapply eok_mono with (h := r_h r) (confs := r_confs r); [| | | |apply (proj2 B y IY')]; auto.
              ** intros c0 K. apply cbs_on; [exact R1|]. apply cbs_on in K; [|exact I1]. apply R3. split; [exact K|]. intros ->. apply NE. exact (on_fun _ _ _ _ I1 K O).
              ** intro WY. apply cbs_none; [exact R1|]. intros c0 K. apply R3 in K as [K _]. pose proof (proj2 B y IY') as Y. unfold eok in Y. rewrite WY in Y. apply cbs_on in K; [|exact I1]. congruence.
        -- intros c0 K. left. apply R4 in K. tauto.
        -- intros c0 l0 [K|[]]. discriminate.
        -- intros c0 [K|[]]. injection K as <-. split; [intro K; apply R4 in K as [_ K]; congruence|]. rewrite R2. apply (on_lt _ _ _ I1) in O. lia.
        -- intros c0 K. exfalso. eapply NO; eauto.
      * intros u [<-|[]]. cbn [allowed]. eapply NC; eauto.
      * eauto.
    + apply gen_step; rx; auto; try lia; try discriminate.
      * split; [exact S1|]. intros y IY. destruct (X1 y IY) as [->|[IY' NE]]; [|apply (proj2 B y IY')]. unfold eok. rewrite W, ID. exact CB.
      * intros c0 s0 e0 O0 L0 N0. unfold look in *. rx. rewrite L1. destruct (Z.eqb_spec s0 id) as [->|NE]; [|apply (ev_fwd _ _ EV s0 e0 L0 N0)].
        exfalso. apply cbs_on in O0; [|exact I1]. congruence.
      * intros u [].
  - (* open *)
    subst ev. cbn [translate bind] in H. rx. destruct (upd_set es1 id e e' (proj1 B) L ID) as (S1 & X1 & L1). rewrite <- ES in *.
    destruct (ensure_on (r_h r) id I1) as (N1 & N2 & N3 & N4 & N5 & _ & N7). set (h' := ChanModel.ensure_channel_id_for (r_h r) id) in *.
    destruct (ChanModel.channel_by_stream h' id) as [c|] eqn:CB; [|discriminate]. cbn [bind] in H. injection H as <-. rx.
    assert (on h' c id) as O by (apply cbs_on; auto).
    assert (e_state e <> EOpen /\ e_state e <> EClosed) as [EW1 EW2] by (destruct HO; split; congruence).
    assert (s_now s' = r_now r \/ (forall e0, In e0 (s_entries s') -> e_state e0 <> AwaitOpen)) as CK'.
    { destruct (CK es1 EV (LKB _ B)) as [X|X]; [auto|right]. intros y IX. destruct (X1 y IX) as [->|[IX' _]]; [congruence|auto]. }
    assert (cfwd r (mkRtc h' (r_confs r) s' (r_now r)) [UOpen c label]) as FW.
    { intros c0 s0 e0 O0 L0. right. rx. split; [auto|]. unfold look in *. rx. rewrite L1.
      pose proof (live_of r tr c0 s0 e0 I O0 L0) as LV. destruct (ev_fwd _ _ EV s0 e0 L0 LV) as (e1 & LE & M). destruct (Z.eqb_spec s0 id) as [->|NE]; [|eauto].
      assert (e1 = e) as -> by congruence. exists e'. split; [reflexivity|]. split; try congruence.
      - rewrite ID. apply look_in in L0. symmetry. tauto.
      - intro X. apply KC, (m_close _ _ M X). }
    assert (~ announced tr c /\ ~ closed tr c) as [NA NCL].
    { assert (~ closed tr c) as X.
      { intro K. apply I9 in K as [K1 K2]. destruct (N4 c id O) as [X|(X & _)]; [apply K1; eapply on_known; eauto|lia]. }
      split; [|exact X]. intro K. destruct (I10 c K) as [Y|(_ & s & e0 & O0 & L0 & W0)]; [contradiction|].
      rewrite (on_fun _ _ _ _ N1 (N3 _ _ O0) O) in *. destruct (ev_fwd _ _ EV id e0 L0) as (e1 & LE & M); [congruence|]. assert (e1 = e) as -> by congruence.
      apply EW1, (m_open _ _ M W0). }
    split; rx; auto; try lia; try discriminate.
    + apply (inv_next r tr o (mkS (mkRtc h' (r_confs r) s' (r_now r)) [UOpen c label] t false) I); rx; auto; try lia.
      * split; [exact S1|]. intros y IY. destruct (X1 y IY) as [->|[IY' NE]].
        -- unfold eok. rewrite W, ID. split; [exact CF|]. exists c. split; [exact CB|]. left. apply ann_app. right. exists label. left. reflexivity.
        -- eapply eok_mono with (h := r_h r) (confs := r_confs r); [| | | |apply (proj2 B y IY')]; auto.
           ++ intros c0 K. apply cbs_on; [exact N1|]. apply cbs_on in K; auto.
           ++ intro WY. apply cbs_none; [exact N1|]. intros c0 K. apply N4 in K as [K|(_ & K & _)]; [|contradiction]. pose proof (proj2 B y IY') as Y. unfold eok in Y. rewrite WY in Y. apply cbs_on in K; [|exact I1]. congruence.
           ++ intros c0 K. apply ann_app. auto.
      * intros c0 K. apply N5 in K as [K| ->]; [auto|lia].
      * intros c0 l0 [K|[]]. injection K as <- <-. split; [exact SE|]. exists id, e'. split; [exact O|]. split; [|exact W]. unfold look. rx. rewrite L1, Z.eqb_refl. reflexivity.
      * intros c0 [K|[]]. discriminate.
      * intros c0 K. exfalso. eapply NO; eauto.
    + intros u [<-|[]]. cbn [allowed]. split; intro K; [apply NA; eapply pre_ann; eauto|apply NCL; eapply pre_closed; eauto].
    + eauto.
Qed.

Theorem step_spec r tr o x : inv r tr -> step P r o = Ok x -> stepped r tr o x.
Proof.
  destruct o; [apply step_new|apply step_confirm|apply step_close|apply step_init|apply step_input|apply step_timeout|apply step_poll|apply step_write|apply step_thr].
Qed.

Lemma inv0 (w : A) now p : inv (rtc0 w now p) [].
Proof.
  split; cbn [rtc0 r_h r_confs r_s r_now s_entries s_now s_st s_assoc]; auto; try discriminate.
  - exact ChanProps.good_init.
  - split; [constructor|intros ? []].
  - intros ? [].
  - intros a [].
  - intros c (l & []).
  - intros c (p1 & p2 & E & _). destruct p1; discriminate.
Qed.
End P.

(** The invariant of the data channel API and its preservation (C48). *)
From Verif Require Import Base BaseFacts DcepModel SctpModel SctpSpec SctpProofs SctpProofs2 SctpProofs3 SctpProofs4.
From Verif Require ChanModel ChanProps.

Section P.
Context {A : Type} (P : proto A).
Notation rtc := (@rtc A).
Notation hist := (@history A).
Notation handler := ChanModel.handler.

Definition look (r : rtc) (s : Z) : option entry := entry_by_id (s_entries (r_s r)) s.

Record inv (r : rtc) (tr : hist) : Prop := {
  i_good : ChanProps.good (r_h r);
  i_base : base (r_h r) (r_confs r) (announced tr) (s_entries (r_s r));
  i_dl : dls (s_now (r_s r)) (s_entries (r_s r));
  i_clock : s_now (r_s r) = r_now r \/ (forall e, In e (s_entries (r_s r)) -> e_state e <> AwaitOpen);
  i_est : s_st (r_s r) = Established -> s_assoc (r_s r) = true;
  i_un : s_st (r_s r) = Uninited -> s_entries (r_s r) = [];
  i_conf : forall c cf, conf_of (r_confs r) c = Some cf -> 0 <= c < ChanModel.next_id (r_h r);
  i_confd : forall a, In a (ChanModel.allocs (r_h r)) -> ChanModel.a_conf a = true -> conf_of (r_confs r) (ChanModel.a_id a) <> None;
  i_closed : forall c, closed tr c -> ~ known (r_h r) c /\ c < ChanModel.next_id (r_h r);
  i_ann : forall c, announced tr c -> closed tr c \/
    (s_st (r_s r) = Established /\ exists s e, on (r_h r) c s /\ look r s = Some e /\ e_state e = EOpen);
  i_ask : forall c, asked tr c -> closed tr c \/
    (exists s e, on (r_h r) c s /\ look r s = Some e /\ e_state e = EOpen /\ e_close e = true)
}.

(** ** Histories *)
Lemma split_app {X} (a : list X) x b tr l : a ++ x :: b = tr ++ l ->
  (exists b', tr = a ++ x :: b') \/ (exists a', a = tr ++ a' /\ l = a' ++ x :: b).
Proof.
  revert tr. induction a as [|y a IH]; intros tr H.
  - destruct tr as [|z tr]; [right; exists []; auto|]. cbn in H. injection H as <- H. left. exists tr. reflexivity.
  - destruct tr as [|z tr]; [right; exists (y :: a); auto|]. cbn in H. injection H as <- H.
    destruct (IH _ H) as [(b' & ->)|(a' & -> & H2)]; [left; exists b'; reflexivity|right; exists a'; auto].
Qed.

Definition tailitems (x : @sres A) : hist := map IAct (o_acts x) ++ map IEv (o_evs x) ++ (if o_idle x then [IIdle] else []).
Lemma items_eq o (x : @sres A) : items o x = ICall o :: tailitems x.
Proof. reflexivity. Qed.
Lemma tail_in (x : @sres A) i : In i (tailitems x) -> (exists a, i = IAct a) \/ (exists u, i = IEv u /\ In u (o_evs x)) \/ i = IIdle.
Proof.
  unfold tailitems. rewrite !in_app_iff, !in_map_iff. intros [(a & <- & _)|[(u & <- & I)|I]]; eauto.
  destruct (o_idle x); [|destruct I]. destruct I as [<-|[]]. auto.
Qed.
Lemma tail_ev (x : @sres A) u : In (IEv u) (tailitems x) <-> In u (o_evs x).
Proof.
  split.
  - intro I. apply tail_in in I as [(a & E)|[(u' & E & I)|E]]; try discriminate. injection E as <-. exact I.
  - intro I. unfold tailitems. apply in_or_app. right. apply in_or_app. left. apply in_map, I.
Qed.
Lemma ev_app (tr : hist) o (x : @sres A) u : In (IEv u) (tr ++ items o x) <-> In (IEv u) tr \/ In u (o_evs x).
Proof. rewrite in_app_iff, items_eq. cbn [In]. rewrite tail_ev. intuition discriminate. Qed.
Lemma ann_app (tr : hist) o (x : @sres A) c : announced (tr ++ items o x) c <-> announced tr c \/ exists l, In (UOpen c l) (o_evs x).
Proof.
  unfold announced. split.
  - intros (l & I). apply ev_app in I as [I|I]; eauto.
  - intros [(l & I)|(l & I)]; exists l; apply ev_app; auto.
Qed.
Lemma closed_app (tr : hist) o (x : @sres A) c : closed (tr ++ items o x) c <-> closed tr c \/ In (UClosed c) (o_evs x).
Proof. apply ev_app. Qed.
Lemma asked_app (tr : hist) o (x : @sres A) c : asked (tr ++ items o x) c -> asked tr c \/ (o = OClose c /\ announced tr c).
Proof.
  intros (p1 & p2 & E & AN). symmetry in E. apply split_app in E as [(b' & ->)|(a' & -> & E)].
  - left. exists p1, b'. auto.
  - right. rewrite items_eq in E. destruct a' as [|y a'].
    + injection E as -> _. rewrite app_nil_r in AN. auto.
    + exfalso. injection E as _ E. assert (In (ICall (OClose c)) (tailitems x)) as I by (rewrite E; apply in_or_app; right; left; reflexivity).
      apply tail_in in I as [(a & I)|[(u & I & _)|I]]; discriminate.
Qed.
Lemma asked_mono (tr l : hist) c : asked tr c -> asked (tr ++ l) c.
Proof. intros (p1 & p2 & -> & AN). exists p1, (p2 ++ l). rewrite <- app_assoc. auto. Qed.

(** ** One step *)
Definition cfwd (r r' : rtc) (evs : list uevent) : Prop := forall c s e, on (r_h r) c s -> look r s = Some e ->
  In (UClosed c) evs \/ (on (r_h r') c s /\ exists e', look r' s = Some e' /\ moves e e').

Lemma inv_next r tr o (x : @sres A) : inv r tr ->
  let r' := o_r x in
  ChanProps.good (r_h r') -> base (r_h r') (r_confs r') (announced (tr ++ items o x)) (s_entries (r_s r')) ->
  dls (s_now (r_s r')) (s_entries (r_s r')) ->
  (s_now (r_s r') = r_now r' \/ (forall e, In e (s_entries (r_s r')) -> e_state e <> AwaitOpen)) ->
  (s_st (r_s r') = Established -> s_assoc (r_s r') = true) ->
  (s_st (r_s r') = Uninited -> s_entries (r_s r') = []) ->
  (forall c cf, conf_of (r_confs r') c = Some cf -> 0 <= c < ChanModel.next_id (r_h r')) ->
  (forall a, In a (ChanModel.allocs (r_h r')) -> ChanModel.a_conf a = true -> conf_of (r_confs r') (ChanModel.a_id a) <> None) ->
  cfwd r r' (o_evs x) ->
  (forall c, known (r_h r') c -> known (r_h r) c \/ ChanModel.next_id (r_h r) <= c) ->
  ChanModel.next_id (r_h r) <= ChanModel.next_id (r_h r') ->
  (s_st (r_s r) = Established -> s_st (r_s r') = Established) ->
  (forall c l, In (UOpen c l) (o_evs x) -> s_st (r_s r') = Established /\ exists s e, on (r_h r') c s /\ look r' s = Some e /\ e_state e = EOpen) ->
  (forall c, In (UClosed c) (o_evs x) -> ~ known (r_h r') c /\ c < ChanModel.next_id (r_h r')) ->
  (forall c, o = OClose c -> announced tr c -> closed tr c \/ exists s e, on (r_h r') c s /\ look r' s = Some e /\ e_state e = EOpen /\ e_close e = true) ->
  inv r' (tr ++ items o x).
Proof.
  intros I r' G B D C E UN CF CD FW KN NX ES OP CL AK. split; auto.
  - intros c K. apply closed_app in K as [K|K]; [|auto]. destruct (i_closed _ _ I c K) as [K1 K2]. split; [|lia]. intro K3. destruct (KN c K3); [contradiction|lia].
  - intros c K. apply ann_app in K as [K|(l & K)]; [|right; destruct (OP c l K); auto]. destruct (i_ann _ _ I c K) as [X|(X & s & e & O & L & W)]; [left; apply closed_app; auto|].
    destruct (FW c s e O L) as [X2|(O' & e' & L' & M)]; [left; apply closed_app; auto|right]. split; [auto|]. exists s, e'. split; [exact O'|]. split; [exact L'|]. apply (m_open _ _ M W).
  - intros c K. apply asked_app in K as [K|[K1 K2]].
    + destruct (i_ask _ _ I c K) as [X|(s & e & O & L & W & Q)]; [left; apply closed_app; auto|].
      destruct (FW c s e O L) as [X2|(O' & e' & L' & M)]; [left; apply closed_app; auto|right]. exists s, e'. split; [exact O'|]. split; [exact L'|].
      split; [apply (m_open _ _ M W)|apply (m_close _ _ M Q)].
    + destruct (AK c K1 K2) as [X|X]; [left; apply closed_app; auto|right; exact X].
Qed.

(** entries stay fine when handler, configurations and announcements grow *)
Lemma eok_mono h h' confs confs' (op op' : Z -> Prop) e :
  (forall c, ChanModel.channel_by_stream h (e_id e) = Some c -> ChanModel.channel_by_stream h' (e_id e) = Some c) ->
  (e_state e = EClosed -> ChanModel.channel_by_stream h' (e_id e) = None) ->
  (forall c cf, ChanModel.channel_by_stream h (e_id e) = Some c -> conf_of confs c = Some cf -> conf_of confs' c = Some cf) ->
  (forall c, op c -> op' c) -> eok h confs op e -> eok h' confs' op' e.
Proof.
  intros H1 H2 H3 H4. unfold eok, owned. destruct (e_state e); auto.
  - intros (cf & c & E1 & E2 & E3). exists cf, c. eauto.
  - intros (cf & (c & E1 & E2 & E3) & E4). exists cf. split; [|exact E4]. exists c. eauto.
  - intros (E1 & c & E2 & E3). split; [exact E1|]. exists c. split; [auto|]. destruct E3 as [E3|(cf & E3 & E4)]; [left; auto|right; eauto].
Qed.
Lemma base_mono h h' confs confs' (op op' : Z -> Prop) es : ChanProps.good h -> ChanProps.good h' ->
  (forall c s, on h c s -> on h' c s) ->
  (forall e, In e es -> e_state e = EClosed -> forall c, ~ on h' c (e_id e)) ->
  (forall c s cf, on h c s -> conf_of confs c = Some cf -> conf_of confs' c = Some cf) ->
  (forall c, op c -> op' c) -> base h confs op es -> base h' confs' op' es.
Proof.
  intros G G' H1 H2 H3 H4 [S O]. split; [exact S|]. intros e I. eapply eok_mono; [| | | |apply O, I]; auto.
  - intros c E. apply cbs_on in E; auto. apply cbs_on; auto.
  - intro W. apply cbs_none; auto.
  - intros c cf E. apply cbs_on in E; auto. eauto.
Qed.

(** an entry of a channel is not a closed one *)
Lemma live_of r tr c s e : inv r tr -> on (r_h r) c s -> look r s = Some e -> e_state e <> EClosed.
Proof.
  intros I O L W. apply look_in in L as [L E]. pose proof (proj2 (i_base _ _ I) e L) as K. unfold eok in K. rewrite W, E in K.
  apply cbs_on in O; [|apply (i_good _ _ I)]. congruence.
Qed.

Lemma base_ann h confs (tr : hist) o (x : @sres A) es : ChanProps.good h -> base h confs (announced tr) es -> base h confs (announced (tr ++ items o x)) es.
Proof.
  intros G B. apply (base_mono h h confs confs (announced tr)); auto.
  - intros e I W c O. pose proof (proj2 B e I) as K. unfold eok in K. rewrite W in K. apply cbs_on in O; [|exact G]. congruence.
  - intros c K. apply ann_app. auto.
Qed.

(** *** open_stream *)
Definition fwd (es es' : list entry) : Prop := forall id e, entry_by_id es id = Some e -> exists e', entry_by_id es' id = Some e' /\ moves e e'.
Lemma fwd_refl es : fwd es es.
Proof. intros id e L. exists e. auto using moves_refl. Qed.
Lemma fwd_trans a b c : fwd a b -> fwd b c -> fwd a c.
Proof. intros H1 H2 id e L. destruct (H1 _ _ L) as (e1 & L1 & M1). destruct (H2 _ _ L1) as (e2 & L2 & M2). exists e2. split; [exact L2|]. eapply moves_trans; eauto. Qed.

Ltac sx := cbn [s_st s_world s_assoc s_entries s_rpend s_rcomp s_pushed s_now s_client s_set_st s_set_world s_set_entries s_set_resets s_set_pushed s_set_now] in *.
Ltac ex := cbn [e_id e_conf e_state e_close e_deadline e_thr e_set_state e_set_close e_set_conf e_set_deadline e_set_thr] in *.

Record opened_s (h : handler) (confs : list (Z * config)) (op : Z -> Prop) (s s' : sctp A) (t : list act) : Prop := {
  os_base : base h confs op (s_entries s'); os_nodead : nodead (s_entries s'); os_fwd : fwd (s_entries s) (s_entries s');
  os_dl : dls (s_now s) (s_entries s) -> dls (s_now s') (s_entries s');
  os_now : s_now s' = s_now s; os_st : s_st s' = s_st s; os_assoc : s_assoc s' = s_assoc s; os_client : s_client s' = s_client s;
  os_acts : forall a, In a t -> exists id u ty p, a = ARel id u ty p
}.

Lemma upd_const es id e0 e' : entry_by_id es id = Some e0 -> e_id e' = id -> sorted es ->
  upd_entry es id (fun _ => e') = upd_entry es id (fun y => if e_id y =? id then e' else y).
Proof.
  intros _ _ _. induction es as [|y r IH]; [reflexivity|]. cbn [upd_entry]. destruct (e_id y =? id) eqn:E; [reflexivity|]. rewrite IH. reflexivity.
Qed.

Lemma put_spec h confs op (s s' : sctp A) es id e0 e' : base h confs op (s_entries s) -> nodead (s_entries s) ->
  es = stream_entry (s_entries s) id AwaitOpen -> entry_by_id es id = Some e0 -> e_id e' = id -> eok h confs op e' -> e_state e' <> EClosed ->
  (entry_by_id (s_entries s) id = Some e0 -> moves e0 e') -> (e_state e' = AwaitOpen -> e_state e0 = AwaitOpen /\ e_deadline e' = e_deadline e0) ->
  s_entries s' = upd_entry es id (fun _ => e') -> s_now s' = s_now s ->
  base h confs op (s_entries s') /\ nodead (s_entries s') /\ fwd (s_entries s) (s_entries s') /\ (dls (s_now s) (s_entries s) -> dls (s_now s') (s_entries s')).
Proof.
  intros [S O] N ES L ID OK NC MV DL E NW.
  assert (sorted es) as SE by (rewrite ES; apply stream_entry_sorted, S).
  rewrite (upd_const _ _ _ _ L ID SE) in E. set (f := fun y => if e_id y =? id then e' else y) in *.
  assert (forall y, e_id (f y) = e_id y) as F by (intro y; unfold f; destruct (Z.eqb_spec (e_id y) id); congruence).
  assert (forall e, In e es -> In e (s_entries s) \/ (e = mkEntry id None AwaitOpen false None Unconfigured /\ entry_by_id (s_entries s) id = None)) as EI.
  { intros e I. rewrite ES in I. unfold stream_entry in I. destruct (entry_by_id (s_entries s) id); [auto|]. apply ins_in in I as [->|I]; auto. }
  assert (forall e, In e es -> e_id e = id -> e = e0) as UQ.
  { intros e I EI'. pose proof (look_of es e SE I) as X. rewrite EI', L in X. congruence. }
  assert (forall x, In x (s_entries s') -> x = e' \/ (In x (s_entries s) /\ e_id x <> id)) as XS.
  { intros x I. rewrite E in I. destruct (Z.eq_dec (e_id x) id) as [K|K].
    - left. assert (In x (upd_entry es id f)) as I' by exact I. pose proof (look_of _ x (upd_sorted es id f F SE) I') as X. rewrite look_upd in X by exact F. rewrite K, Z.eqb_refl, L in X.
      cbn in X. injection X as <-. unfold f. apply look_in in L as [_ L]. rewrite L, Z.eqb_refl. reflexivity.
    - right. split; [|exact K]. apply in_upd in I as [I|(y & I & Ey & ->)]; [|rewrite F in K; congruence]. destruct (EI x I) as [X|[-> _]]; [exact X|cbn in K; congruence]. }
  split; [|split; [|split]].
  - split; [rewrite E; apply upd_sorted; auto|]. intros x I. destruct (XS x I) as [->|[X _]]; auto.
  - intros x I. destruct (XS x I) as [->|[X _]]; auto.
  - intros id' e LE. rewrite E, look_upd by exact F. destruct (Z.eqb_spec id' id) as [->|NE].
    + rewrite L. cbn. exists (f e0). split; [reflexivity|]. assert (e = e0) as ->.
      { apply UQ; [|apply look_in in LE; tauto]. rewrite ES. pose proof (stream_entry_look (s_entries s) id AwaitOpen id S) as X. rewrite LE in X. apply look_in in X. tauto. }
      unfold f. apply look_in in L as [_ L]. rewrite L, Z.eqb_refl. auto.
    + exists e. split; [|apply moves_refl]. rewrite ES, stream_entry_look by exact S. rewrite LE. reflexivity.
  - intros D x I W d Ed. rewrite NW. destruct (XS x I) as [->|[X _]]; [|eapply D; eauto].
    destruct (DL W) as [DL1 DL2]. rewrite DL2 in Ed. apply look_in in L as [L _]. destruct (EI e0 L) as [X|[-> _]]; [eapply D; eauto|discriminate].
Qed.

Lemma open_stream_spec h confs op s id c cf s' t : ChanProps.good h -> base h confs op (s_entries s) -> nodead (s_entries s) ->
  on h c id -> conf_of confs c = Some cf -> open_stream P s id cf = Ok (s', t) -> opened_s h confs op s s' t.
Proof.
  intros G B N O CF H. unfold open_stream in H. set (es := stream_entry (s_entries s) id AwaitOpen) in *.
  destruct (entry_by_id es id) as [e0|] eqn:L; [|discriminate].
  assert (e_id e0 = id) as ID by (apply look_in in L; tauto).
  assert ((entry_by_id (s_entries s) id = Some e0 /\ In e0 (s_entries s)) \/ (entry_by_id (s_entries s) id = None /\ e0 = mkEntry id None AwaitOpen false None Unconfigured)) as CASES.
  { unfold es in L. rewrite stream_entry_look in L by apply B. destruct (entry_by_id (s_entries s) id) as [e1|] eqn:L1.
    - injection L as ->. left. split; [reflexivity|]. apply look_in in L1. tauto.
    - rewrite Z.eqb_refl in L. injection L as <-. auto. }
  assert (forall e' w t', e_id e' = id -> eok h confs op e' -> e_state e' <> EClosed ->
    (entry_by_id (s_entries s) id = Some e0 -> moves e0 e') -> (e_state e' = AwaitOpen -> e_state e0 = AwaitOpen /\ e_deadline e' = e_deadline e0) ->
    (forall a, In a t' -> exists id u ty p, a = ARel id u ty p) ->
    opened_s h confs op s (s_set_world (s_set_entries s (upd_entry es id (fun _ => e'))) w) t') as PUT.
  { intros e' w t' I1 I2 I3 I4 I5 I6. destruct (put_spec h confs op s (s_set_world (s_set_entries s (upd_entry es id (fun _ => e'))) w) es id e0 e') as (Q1 & Q2 & Q3 & Q4); auto.
    split; auto. }
  destruct CASES as [[L1 I1]|[L1 ->]].
  - pose proof (proj2 B e0 I1) as OK0. pose proof (N e0 I1) as N0.
    destruct (e_conf e0) as [cf0|] eqn:C0.
    + injection H as <- <-. apply PUT; ex; auto using moves_close; [apply eok_close, OK0|intros ? []].
    + (* AwaitConfig *)
      assert (e_state e0 = AwaitConfig) as W.
      { unfold eok, owned in OK0. destruct (e_state e0); auto.
        - destruct OK0 as (? & ? & _ & _ & X). congruence.
        - destruct OK0 as (? & (? & _ & _ & X) & _). congruence.
        - destruct OK0 as (X & _). congruence.
        - contradiction. }
      ex. rewrite W in H. cbn [estate_eqb] in H.
      assert (eok h confs op (e_set_close (e_set_conf e0 cf))) as OKC by (unfold eok; ex; rewrite W; auto).
      assert (moves e0 (e_set_close (e_set_conf e0 cf))) as MC by (split; ex; auto; congruence).
      destruct (in_band cf) eqn:IB.
      { injection H as <- <-. apply PUT; ex; auto; try congruence. intros ? []. }
      destruct (s_assoc s); cbn [negb] in H.
      2:{ injection H as <- <-. apply PUT; ex; auto; try congruence. intros ? []. }
      destruct (p_stream P (s_world s) id); cbn [negb] in H.
      2:{ injection H as <- <-. apply PUT; ex; auto; try congruence. intros ? []. }
      destruct (configure P (s_world s) (e_set_conf e0 cf)) as [[[[ok w] e2] t2]| |] eqn:C; try discriminate. cbn [bind] in H. injection H as <- <-.
      apply configure_spec in C as (cf' & C1 & C2 & C3). ex. injection C1 as <-. subst e2 t2.
      assert (forall a, In a [rel_act (e_id e0) cf] -> exists id u ty p, a = ARel id u ty p) as AA by (intros a [<-|[]]; unfold rel_act; eauto).
      destruct ok.
      * apply PUT; ex; auto; try discriminate.
        -- unfold eok. ex. split; [congruence|]. exists c. split; [apply cbs_on; [exact G|congruence]|]. right. eauto.
        -- intros _. split; ex; auto; congruence.
      * apply PUT; ex; auto; congruence.
  - ex. injection H as <- <-. apply PUT; ex; auto; try discriminate.
    + unfold eok, owned. ex. exists cf, c. split; [apply cbs_on; [exact G|exact O]|auto].
    + congruence.
    + intros ? [].
Qed.

Lemma open_all_spec h confs op : ChanProps.good h -> forall l s s' t, base h confs op (s_entries s) -> nodead (s_entries s) ->
  (forall c id, In (c, id) l -> on h c id) -> open_all P s confs l = Ok (s', t) -> opened_s h confs op s s' t.
Proof.
  intros G. induction l as [|[c id] l IH]; intros s s' t B N O H; cbn [open_all] in H.
  - injection H as <- <-. split; auto using fwd_refl. intros ? [].
  - destruct (conf_of confs c) as [cf|] eqn:CF; [|discriminate].
    destruct (open_stream P s id cf) as [[s1 t1]| |] eqn:OS; try discriminate. cbn [bind] in H.
    destruct (open_all P s1 confs l) as [[s2 t2]| |] eqn:OA; try discriminate. cbn [bind] in H. injection H as <- <-.
    destruct (open_stream_spec h confs op s id c cf s1 t1 G B N (O c id (or_introl eq_refl)) CF OS) as [A1 A2 A3 A4 A5 A6 A7 A8 A9].
    destruct (IH s1 s2 t2 A1 A2 (fun c' id' I => O c' id' (or_intror I)) OA) as [B1 B2 B3 B4 B5 B6 B7 B8 B9].
    split; auto; try congruence.
    + eapply fwd_trans; eauto.
    + intros a I. apply in_app_or in I as [I|I]; auto.
Qed.
End P.

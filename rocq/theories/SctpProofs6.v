(** Preservation of the invariant by every step, and what a step emits (C48). *)
From Verif Require Import Base BaseFacts DcepModel SctpModel SctpSpec SctpProofs SctpProofs2 SctpProofs3 SctpProofs4 SctpProofs5.
From Verif Require ChanModel ChanProps.

Section P.
Context {A : Type} (P : proto A).
Notation rtc := (@rtc A).
Notation hist := (@history A).
Notation handler := ChanModel.handler.

Ltac sx := cbn [s_st s_world s_assoc s_entries s_rpend s_rcomp s_pushed s_now s_client s_set_st s_set_world s_set_entries s_set_resets s_set_pushed s_set_now] in *.
Ltac ex := cbn [e_id e_conf e_state e_close e_deadline e_thr e_set_state e_set_close e_set_conf e_set_deadline e_set_thr] in *.
Ltac rx := cbn [r_h r_confs r_s r_now o_r o_evs o_acts o_idle with_s with_h quiet] in *.

Record stepped (r : rtc) (tr : hist) (o : op) (x : @sres A) : Prop := {
  sp_inv : inv (o_r x) (tr ++ items o x);
  sp_ev : forall u, In u (o_evs x) -> allowed (tr ++ ICall o :: map IAct (o_acts x)) u;
  sp_one : o_evs x = [] \/ exists u, o_evs x = [u];
  sp_idle : o_idle x = true -> forall c, asked tr c -> closed tr c;
  sp_fwd : cfwd r (o_r x) (o_evs x);
  sp_now : r_now r <= r_now (o_r x);
  sp_est : s_st (r_s r) = Established -> s_st (r_s (o_r x)) = Established;
  sp_wait : o_idle x = true -> s_st (r_s (o_r x)) = Established -> forall e, In e (s_entries (r_s (o_r x))) -> e_state e = AwaitOpen ->
            exists d, e_deadline e = Some d /\ r_now (o_r x) < d
}.

(** Steps that only move entries on. *)
Lemma gen_step r tr o (x : @sres A) : let r' := o_r x in inv r tr ->
  ChanProps.good (r_h r') -> (forall c s, on (r_h r) c s -> on (r_h r') c s) ->
  (forall c, known (r_h r') c -> known (r_h r) c \/ ChanModel.next_id (r_h r) <= c) ->
  ChanModel.next_id (r_h r) <= ChanModel.next_id (r_h r') ->
  base (r_h r') (r_confs r') (announced tr) (s_entries (r_s r')) ->
  dls (s_now (r_s r')) (s_entries (r_s r')) ->
  (s_now (r_s r') = r_now r' \/ (forall e, In e (s_entries (r_s r')) -> e_state e <> AwaitOpen)) ->
  (s_st (r_s r') = Established -> s_assoc (r_s r') = true) ->
  (s_st (r_s r') = Uninited -> s_entries (r_s r') = []) ->
  (forall c cf, conf_of (r_confs r') c = Some cf -> 0 <= c < ChanModel.next_id (r_h r')) ->
  (forall a, In a (ChanModel.allocs (r_h r')) -> ChanModel.a_conf a = true -> conf_of (r_confs r') (ChanModel.a_id a) <> None) ->
  (forall c s e, on (r_h r) c s -> look r s = Some e -> e_state e <> EClosed -> exists e', look r' s = Some e' /\ moves e e') ->
  (s_st (r_s r) = Established -> s_st (r_s r') = Established) -> r_now r <= r_now r' ->
  (forall c, o = OClose c -> announced tr c -> closed tr c \/ exists s e, on (r_h r') c s /\ look r' s = Some e /\ e_state e = EOpen /\ e_close e = true) ->
  (forall u, In u (o_evs x) -> allowed (tr ++ ICall o :: map IAct (o_acts x)) u /\ match u with UOpen _ _ | UClosed _ => False | _ => True end) ->
  (o_evs x = [] \/ exists u, o_evs x = [u]) ->
  (o_idle x = true -> (forall c, asked tr c -> closed tr c) /\ (s_st (r_s r') = Established -> forall e, In e (s_entries (r_s r')) -> e_state e = AwaitOpen ->
            exists d, e_deadline e = Some d /\ r_now r' < d)) ->
  stepped r tr o x.
Proof.
  intros r' I G ON KN NX B D C E UN CF CD FW ES NW AK EV ONE IDL.
  assert (cfwd r r' (o_evs x)) as FW' by (intros c s e O L; right; split; [auto|]; apply (FW c s e O L); eapply live_of; eauto).
  split; auto; try (intro W; destruct (IDL W); auto; fail).
  - apply (inv_next r tr o x I); auto.
    + apply base_ann; auto.
    + intros c l K. destruct (EV _ K) as [_ []].
    + intros c K. destruct (EV _ K) as [_ []].
  - intros u K. apply (EV u K).
Qed.

Lemma quiet_step r tr o r' t : inv r tr ->
  ChanProps.good (r_h r') -> (forall c s, on (r_h r) c s -> on (r_h r') c s) ->
  (forall c, known (r_h r') c -> known (r_h r) c \/ ChanModel.next_id (r_h r) <= c) ->
  ChanModel.next_id (r_h r) <= ChanModel.next_id (r_h r') ->
  base (r_h r') (r_confs r') (announced tr) (s_entries (r_s r')) ->
  dls (s_now (r_s r')) (s_entries (r_s r')) ->
  (s_now (r_s r') = r_now r' \/ (forall e, In e (s_entries (r_s r')) -> e_state e <> AwaitOpen)) ->
  (s_st (r_s r') = Established -> s_assoc (r_s r') = true) ->
  (s_st (r_s r') = Uninited -> s_entries (r_s r') = []) ->
  (forall c cf, conf_of (r_confs r') c = Some cf -> 0 <= c < ChanModel.next_id (r_h r')) ->
  (forall a, In a (ChanModel.allocs (r_h r')) -> ChanModel.a_conf a = true -> conf_of (r_confs r') (ChanModel.a_id a) <> None) ->
  (forall s e, look r s = Some e -> e_state e <> EClosed -> exists e', look r' s = Some e' /\ moves e e') ->
  (s_st (r_s r) = Established -> s_st (r_s r') = Established) -> r_now r <= r_now r' ->
  (forall c, o = OClose c -> announced tr c -> closed tr c \/ exists s e, on (r_h r') c s /\ look r' s = Some e /\ e_state e = EOpen /\ e_close e = true) ->
  stepped r tr o (quiet r' t).
Proof.
  intros. apply gen_step; rx; eauto; try discriminate. intros u [].
Qed.

Lemma good_of_lost h : ChanProps.good h -> ChanProps.good (ChanModel.association_lost h).
Proof. intro G. apply (ChanProps.good_step true h ChanModel.ELost); [exact G|reflexivity]. Qed.
Lemma good_of_reset h s : ChanProps.good h -> ChanProps.good (ChanModel.stream_reset_complete h s).
Proof. intro G. apply (ChanProps.good_step true h (ChanModel.EResetComplete s)); [exact G|reflexivity]. Qed.

Lemma conf_cons id c l c' : conf_of ((id, c) :: l) c' = if id =? c' then Some c else conf_of l c'.
Proof. unfold conf_of. cbn [find fst snd]. destruct (id =? c'); reflexivity. Qed.

Lemma same_look (r : rtc) : forall s e, look r s = Some e -> e_state e <> EClosed -> exists e', look r s = Some e' /\ moves e e'.
Proof. intros s e L _. exists e. auto using moves_refl. Qed.

(** Nothing but the world, the handler's held streams etc. changed. *)
Lemma still_step r tr o r' t : inv r tr -> r_h r' = r_h r -> r_confs r' = r_confs r -> s_entries (r_s r') = s_entries (r_s r) ->
  s_now (r_s r') = s_now (r_s r) -> r_now r' = r_now r -> (s_st (r_s r') = Established -> s_assoc (r_s r') = true) ->
  (s_st (r_s r') = Uninited -> s_st (r_s r) = Uninited) -> (s_st (r_s r) = Established -> s_st (r_s r') = Established) ->
  (forall c, o <> OClose c) -> stepped r tr o (quiet r' t).
Proof.
  intros I H1 H2 H3 H4 H5 H6 H7 H8 H9. pose proof I as [I1 I2 I3 I4 I5 I6 I7 I8 I9 I10 I11].
  apply quiet_step; auto; rewrite ?H1, ?H2, ?H3, ?H4, ?H5; auto; try lia.
  - unfold look. rewrite H3. exact (same_look r).
  - intros c E. exfalso. eapply H9; eauto.
Qed.

Lemma step_new r tr c x : inv r tr -> step P r (ONew c) = Ok x -> stepped r tr (ONew c) x.
Proof.
  intros I H. cbn [step] in H. destruct (ChanModel.new_channel (r_h r) (c_negotiated c)) as [[h id]| |] eqn:N; try discriminate. cbn [bind] in H. injection H as <-.
  pose proof I as [I1 I2 I3 I4 I5 I6 I7 I8 I9 I10 I11]. destruct (new_on _ _ _ _ I1 N) as (N1 & N2 & N3 & N4 & N5 & N6).
  apply quiet_step; rx; auto; try lia.
  - intros c' s. apply N4.
  - intros c' K. apply N5 in K as [K| ->]; [auto|lia].
  - apply (base_mono (r_h r) h (r_confs r) ((id, c) :: r_confs r) (announced tr)); auto.
    + intros c' s. apply N4.
    + intros e IE W c' O. pose proof (proj2 I2 e IE) as K. unfold eok in K. rewrite W in K. apply N4 in O. apply cbs_on in O; [|exact I1]. congruence.
    + intros c' s cf O CF. rewrite conf_cons. apply on_lt in O; [|exact I1]. destruct (Z.eqb_spec id c'); [lia|exact CF].
  - intros c' cf. rewrite conf_cons. destruct (Z.eqb_spec id c') as [->|NE]; [intros _; pose proof (ChanProps.g_next _ N1); pose proof (ChanProps.g_next _ I1); lia|].
    intro K. apply I7 in K. lia.
  - intros a IA CA. rewrite conf_cons. destruct (id =? ChanModel.a_id a); [discriminate|]. auto.
  - exact (same_look r).
  - intros c' E. discriminate.
Qed.

Lemma step_confirm r tr id x : inv r tr -> step P r (OConfirm id) = Ok x -> stepped r tr (OConfirm id) x.
Proof.
  intros I H. cbn [step] in H. destruct (conf_of (r_confs r) id) as [cf|] eqn:CF; [|discriminate].
  destruct (ChanModel.confirm (r_h r) id) as [h| |] eqn:N; try discriminate. cbn [bind] in H. injection H as <-.
  pose proof I as [I1 I2 I3 I4 I5 I6 I7 I8 I9 I10 I11]. destruct (confirm_on _ _ _ I1 N) as (N1 & N2 & N3 & N4 & N5).
  apply quiet_step; rx; auto; try lia.
  - intros c' s. apply N3.
  - intros c' K. apply N4 in K. auto.
  - apply (base_mono (r_h r) h (r_confs r) (r_confs r) (announced tr)); auto.
    + intros c' s. apply N3.
    + intros e IE W c' O. pose proof (proj2 I2 e IE) as K. unfold eok in K. rewrite W in K. apply N3 in O. apply cbs_on in O; [|exact I1]. congruence.
  - intros a IA CA. apply N5 in IA as [->|IA]; [congruence|auto|exact CA].
  - exact (same_look r).
  - intros c' E. discriminate.
Qed.

Lemma upd_close_spec h confs op es id : base h confs op es ->
  base h confs op (upd_entry es id e_set_close) /\ (forall s e, entry_by_id es s = Some e -> exists e', entry_by_id (upd_entry es id e_set_close) s = Some e' /\ moves e e') /\
  (forall now, dls now es -> dls now (upd_entry es id e_set_close)) /\
  (forall e, In e (upd_entry es id e_set_close) -> e_state e = AwaitOpen -> exists e0, In e0 es /\ e_state e0 = AwaitOpen).
Proof.
  intro B. split; [|split; [|split]].
  - apply base_upd; [reflexivity|apply eok_close|exact B].
  - intros s e L. rewrite look_upd by reflexivity. destruct (Z.eqb_spec s id) as [->|NE]; [rewrite L; exists (e_set_close e); split; [reflexivity|apply moves_close]|exists e; auto using moves_refl].
  - intros now D. apply dls_upd; auto.
  - intros e I W. apply in_upd in I as [I|(y & I & _ & ->)]; eauto.
Qed.

Lemma step_close r tr c x : inv r tr -> step P r (OClose c) = Ok x -> stepped r tr (OClose c) x.
Proof.
  intros I H. cbn [step] in H. pose proof I as [I1 I2 I3 I4 I5 I6 I7 I8 I9 I10 I11].
  destruct (ChanModel.stream_by_channel (r_h r) c) as [sid|] eqn:SB.
  2:{ injection H as <-. apply quiet_step; rx; auto; try lia.
    - exact (same_look r).
    - intros c' E AN. injection E as <-. destruct (I10 c AN) as [X|(_ & s & e & O & _)]; [auto|]. apply sbc_on in O; [|exact I1]. congruence. }
  destruct (close_stream P (r_s r) sid) as [s t] eqn:CS. injection H as <-.
  assert (exists w rp es, s = s_set_resets (s_set_world (s_set_entries (r_s r) es) w) rp (s_rcomp (r_s r)) /\
    ((es = s_entries (r_s r) /\ entry_by_id (s_entries (r_s r)) sid = None) \/ es = upd_entry (s_entries (r_s r)) sid e_set_close)) as (w & rp & es & -> & ES).
  { unfold close_stream in CS. destruct (entry_by_id (s_entries (r_s r)) sid) eqn:L.
    - destruct (propagate_close P _ _ _ sid) as [[[b w] rp] t']. injection CS as <- <-. exists w, rp. eexists. split; [reflexivity|auto].
    - injection CS as <- <-. exists (s_world (r_s r)), (s_rpend (r_s r)), (s_entries (r_s r)). split; [destruct (r_s r); reflexivity|auto]. }
  destruct (upd_close_spec _ _ _ _ sid I2) as (U1 & U2 & U3 & U4).
  apply quiet_step; rx; sx; auto; try lia.
  - destruct ES as [[-> _]| ->]; auto.
  - destruct ES as [[-> _]| ->]; auto.
  - destruct ES as [[-> _]| ->]; auto. destruct I4 as [I4|I4]; [auto|right]. intros e IE W. destruct (U4 e IE W) as (e0 & X & Y). eapply I4; eauto.
  - intro UN. apply I6 in UN. destruct ES as [[-> _]| ->]; [exact UN|rewrite UN; reflexivity].
  - unfold look. rx. sx. destruct ES as [[-> _]| ->]; [intros; eauto using moves_refl|]. intros s e L _. apply U2, L.
  - intros c' E AN. injection E as <-. destruct (I10 c AN) as [X|(_ & s & e & O & L & W)]; [auto|]. right. apply sbc_on in SB; [|exact I1]. rewrite (on_fun _ _ _ _ I1 O SB) in *.
    exists sid, (e_set_close e). split; [exact SB|]. unfold look in *. rx. sx. destruct ES as [[-> X]| ->]; [congruence|]. rewrite look_upd by reflexivity. rewrite Z.eqb_refl, L. auto.
Qed.

Lemma step_init r tr client snap w x : inv r tr -> step P r (OInit client snap w) = Ok x -> stepped r tr (OInit client snap w) x.
Proof.
  intros I H. cbn [step] in H. pose proof I as [I1 I2 I3 I4 I5 I6 I7 I8 I9 I10 I11].
  destruct (s_st (r_s r)) eqn:ST.
  2-4: injection H as <-; apply still_step; auto; rewrite ?ST; auto; discriminate.
  unfold init in H. rewrite ST in H. cbn [bind] in H. injection H as <-. specialize (I6 eq_refl).
  set (s' := if snap then _ else _).
  assert (s_entries s' = [] /\ s_now s' = r_now r /\ (s_st s' = Established -> s_assoc s' = true)) as (E1 & E2 & E3).
  { unfold s'. rewrite I6. destruct snap, client; sx; repeat split; auto; discriminate. }
  apply quiet_step; rx; rewrite ?E1, ?E2; auto; try lia.
  - split; [constructor|intros ? []].
  - intros ? [].
  - intros s e L. unfold look in L. rewrite I6 in L. discriminate.
  - rewrite ST. discriminate.
  - discriminate.
Qed.

Lemma step_input r tr new w x : inv r tr -> step P r (OInput new w) = Ok x -> stepped r tr (OInput new w) x.
Proof.
  intros I H. cbn [step] in H. pose proof I as [I1 I2 I3 I4 I5 I6 I7 I8 I9 I10 I11]. injection H as <-.
  unfold handle_input. destruct new; cbn [andb]; [destruct (s_assoc (r_s r)) eqn:AS|]; cbn [negb].
  - apply still_step; auto; rx; sx; auto; discriminate.
  - apply still_step; auto; rx; sx; auto; try discriminate. intro E. apply I5 in E. congruence.
  - apply still_step; auto; rx; sx; auto; discriminate.
Qed.

Lemma step_write r tr id b buf x : inv r tr -> step P r (OWrite id b buf) = Ok x -> stepped r tr (OWrite id b buf) x.
Proof.
  intros I H. cbn [step] in H. pose proof I as [I1 I2 I3 I4 I5 I6 I7 I8 I9 I10 I11].
  assert (stepped r tr (OWrite id b buf) (quiet r [])) as ST by (apply still_step; auto; discriminate).
  destruct (usable r id); cbn [negb] in H; [|injection H as <-; exact ST].
  destruct (ChanModel.stream_by_channel (r_h r) id); [|discriminate].
  destruct (_ <? _); [injection H as <-; exact ST|].
  destruct (write P (r_s r) z b buf) as [[s t]| |] eqn:W; [|injection H as <-; exact ST|discriminate]. injection H as <-.
  unfold write in W. destruct (s_st (r_s r)) eqn:SS; try discriminate. destruct (_ || _); [discriminate|]. destruct (entry_by_id _ _); [|discriminate].
  destruct (negb _); [discriminate|]. destruct (negb _); [discriminate|]. destruct (p_write P _ _ _ _) as [ok w]. destruct ok; [|discriminate]. injection W as <- <-.
  apply still_step; auto; rx; sx; auto; rewrite ?SS; auto; discriminate.
Qed.

Lemma step_thr r tr id v x : inv r tr -> step P r (OThreshold id v) = Ok x -> stepped r tr (OThreshold id v) x.
Proof.
  intros I H. cbn [step] in H. pose proof I as [I1 I2 I3 I4 I5 I6 I7 I8 I9 I10 I11].
  assert (stepped r tr (OThreshold id v) (quiet r [])) as ST by (apply still_step; auto; discriminate).
  destruct (usable r id); cbn [negb] in H; [|injection H as <-; exact ST].
  destruct (ChanModel.stream_by_channel (r_h r) id); [|discriminate].
  unfold set_threshold in H. destruct (entry_by_id _ _); [|discriminate]. cbn [bind] in H. injection H as <-.
  set (f := fun e => e_set_thr e (thr_set (e_thr e) v)).
  apply quiet_step; rx; sx; auto; try lia.
  - apply base_upd; auto.
  - apply dls_upd; auto.
  - destruct I4 as [I4|I4]; [auto|right]. intros e' IE. apply in_upd in IE as [IE|(y & IE & _ & ->)]; [auto|]. apply (I4 y IE).
  - intro UN. rewrite (I6 UN). reflexivity.
  - intros s e' L _. unfold look in *. rx. sx. rewrite look_upd by reflexivity. destruct (Z.eqb_spec s z) as [->|NE].
    + rewrite L. exists (f e'). split; [reflexivity|]. split; auto.
    + exists e'. auto using moves_refl.
  - discriminate.
Qed.
End P.

(** Whole runs (C48-C50). *)
From Verif Require Import Base BaseFacts DcepModel SctpModel SctpSpec SctpProofs SctpProofs2 SctpProofs3 SctpProofs4 SctpProofs5 SctpProofs6 SctpProofs7.
From Verif Require ChanModel ChanProps.

Section P.
Context {A : Type} (P : proto A).
Notation rtc := (@rtc A).
Notation hist := (@history A).
Ltac sx := cbn [s_st s_world s_assoc s_entries s_rpend s_rcomp s_pushed s_now s_client s_set_st s_set_world s_set_entries s_set_resets s_set_pushed s_set_now] in *.
Ltac rx := cbn [r_h r_confs r_s r_now o_r o_evs o_acts o_idle with_s with_h quiet] in *.

Lemma idle_poll r o x : step P r o = Ok x -> o_idle x = true -> o_evs x = [] /\ exists f b, o = OPoll f b.
Proof.
  intros H ID. destruct o; cbn [step] in H.
  - destruct (ChanModel.new_channel _ _) as [[h id]| |]; try discriminate. cbn [bind] in H. injection H as <-. discriminate.
  - destruct (conf_of _ _); [|discriminate]. destruct (ChanModel.confirm _ _); try discriminate. cbn [bind] in H. injection H as <-. discriminate.
  - destruct (ChanModel.stream_by_channel _ _); [destruct (close_stream _ _ _)|]; injection H as <-; discriminate.
  - destruct (s_st (r_s r)); [destruct (init _ _ _ _ _); try discriminate; cbn [bind] in H|..]; injection H as <-; discriminate.
  - injection H as <-. discriminate.
  - destruct (now <? r_now r); [injection H as <-; discriminate|]. destruct (ChanModel.handle_timeout _ _ _) as [h l]. destruct (open_all P _ _ _) as [[s1 t]| |]; try discriminate. cbn [bind] in H. injection H as <-. discriminate.
  - destruct (do_poll P fuel (r_s r)) as [[[ev s] t]| |]; try discriminate. cbn [bind] in H. destruct ev as [ev|].
    + destruct (translate _ _ _) as [[r' us]| |]; try discriminate. cbn [bind] in H. injection H as <-. discriminate.
    + injection H as <-. split; [reflexivity|eauto].
  - destruct (negb _); [injection H as <-; discriminate|]. destruct (ChanModel.stream_by_channel _ _); [|discriminate]. destruct (_ <? _); [injection H as <-; discriminate|].
    destruct (write _ _ _ _ _) as [[s t]| |]; try discriminate; injection H as <-; discriminate.
  - destruct (negb _); [injection H as <-; discriminate|]. destruct (ChanModel.stream_by_channel _ _); [|discriminate]. destruct (set_threshold _ _ _); try discriminate. cbn [bind] in H. injection H as <-. discriminate.
Qed.

Lemma evs_poll r o x : step P r o = Ok x -> o_evs x <> [] -> exists f b, o = OPoll f b.
Proof.
  intros H ID. destruct o; cbn [step] in H.
  - destruct (ChanModel.new_channel _ _) as [[h id]| |]; try discriminate. cbn [bind] in H. injection H as <-. contradiction.
  - destruct (conf_of _ _); [|discriminate]. destruct (ChanModel.confirm _ _); try discriminate. cbn [bind] in H. injection H as <-. contradiction.
  - destruct (ChanModel.stream_by_channel _ _); [destruct (close_stream _ _ _)|]; injection H as <-; contradiction.
  - destruct (s_st (r_s r)); [destruct (init _ _ _ _ _); try discriminate; cbn [bind] in H|..]; injection H as <-; contradiction.
  - injection H as <-. contradiction.
  - destruct (now <? r_now r); [injection H as <-; contradiction|]. destruct (ChanModel.handle_timeout _ _ _) as [h l]. destruct (open_all P _ _ _) as [[s1 t]| |]; try discriminate. cbn [bind] in H. injection H as <-. contradiction.
  - destruct (do_poll P fuel (r_s r)) as [[[ev s] t]| |]; try discriminate. cbn [bind] in H. destruct ev as [ev|].
    + eauto.
    + eauto.
  - destruct (negb _); [injection H as <-; contradiction|]. destruct (ChanModel.stream_by_channel _ _); [|discriminate]. destruct (_ <? _); [injection H as <-; contradiction|].
    destruct (write _ _ _ _ _) as [[s t]| |]; try discriminate; injection H as <-; contradiction.
  - destruct (negb _); [injection H as <-; contradiction|]. destruct (ChanModel.stream_by_channel _ _); [|discriminate]. destruct (set_threshold _ _ _); try discriminate. cbn [bind] in H. injection H as <-. contradiction.
Qed.

Lemma map_split {X Y} (f : X -> Y) l p y q : map f l = p ++ y :: q -> exists x, In x l /\ y = f x.
Proof. intro E. assert (In y (map f l)) as I by (rewrite E; apply in_or_app; right; left; reflexivity). apply in_map_iff in I as (x & <- & I). eauto. Qed.

(** where an event can be in a step's items *)
Lemma items_ev o (x : @sres A) p u q : o_evs x = [] \/ (exists u, o_evs x = [u]) -> items o x = p ++ IEv u :: q ->
  In u (o_evs x) /\ p = ICall o :: map IAct (o_acts x).
Proof.
  intros ONE E. unfold items in E. destruct p as [|i p]; [discriminate|]. injection E as <- E. symmetry in E. apply split_app in E as [(b & E)|(a & E1 & E2)].
  - apply map_split in E as (y & _ & Y). discriminate.
  - destruct ONE as [Z|(u0 & Z)]; rewrite Z in E2; cbn [map app] in E2.
    + destruct (o_idle x); destruct a as [|? [|? ?]]; discriminate.
    + destruct a as [|i a]; [|exfalso; injection E2 as _ E2; destruct (o_idle x); destruct a as [|? [|? ?]]; discriminate].
      injection E2 as <- _. rewrite Z, app_nil_r in *. split; [left; reflexivity|congruence].
Qed.
Lemma items_idle o (x : @sres A) p q : items o x = p ++ IIdle :: q -> o_idle x = true /\ exists l, p = ICall o :: map IAct (o_acts x) ++ map IEv (o_evs x) ++ l /\ l = [].
Proof.
  intro E. unfold items in E. destruct p as [|i p]; [discriminate|]. injection E as <- E. symmetry in E. apply split_app in E as [(b & E)|(a & E1 & E2)].
  - apply map_split in E as (y & _ & Y). discriminate.
  - symmetry in E2. apply split_app in E2 as [(b & E)|(a' & E3 & E4)]; [apply map_split in E as (y & _ & Y); discriminate|].
    destruct (o_idle x); [|destruct a'; discriminate]. split; [reflexivity|]. destruct a' as [|i a']; [|injection E4 as _ E4; destruct a'; discriminate].
    exists []. subst. rewrite app_assoc. auto.
Qed.

Record ran (r : rtc) (tr : hist) (r' : rtc) (is : hist) : Prop := {
  ru_inv : inv r' (tr ++ is);
  ru_ev : forall p u q, is = p ++ IEv u :: q -> allowed (tr ++ p) u;
  ru_idle : forall p q, is = p ++ IIdle :: q -> forall c, asked (tr ++ p) c -> closed (tr ++ p) c;
  ru_fwd : forall c s e, on (r_h r) c s -> look r s = Some e -> closed is c \/ (on (r_h r') c s /\ exists e', look r' s = Some e' /\ moves e e');
  ru_now : r_now r <= r_now r';
  ru_est : s_st (r_s r) = Established -> s_st (r_s r') = Established
}.

Lemma run_spec : forall os r tr r' is, inv r tr -> run P r os = Ok (r', is) -> ran r tr r' is.
Proof.
  induction os as [|o os IH]; intros r tr r' is I H; cbn [run] in H.
  - injection H as <- <-. split.
    + rewrite app_nil_r. exact I.
    + intros p u q E. destruct p; discriminate.
    + intros p q E. destruct p; discriminate.
    + intros c s e O L. right. eauto using moves_refl.
    + lia.
    + auto.
  - destruct (step P r o) as [x| |] eqn:S; try discriminate. cbn [bind] in H. destruct (run P (o_r x) os) as [[r2 is2]| |] eqn:R; try discriminate. cbn [bind] in H. assert (r' = r2 /\ is = items o x ++ is2) as [-> ->] by (split; congruence). clear H.
    pose proof (step_spec P r tr o x I S) as [S1 S2 S3 S4 S5 S6 S7 S8]. destruct (IH _ _ _ _ S1 R) as [R1 R2 R3 R4 R5 R6].
    split.
    + rewrite (app_assoc tr). exact R1.
    + intros p u q E. symmetry in E. apply split_app in E as [(b & E)|(a & E1 & E2)].
      * apply items_ev in E as [E1 E2]; [|exact S3]. rewrite E2. auto.
      * rewrite E1, (app_assoc tr). eapply R2; eauto.
    + intros p q E. symmetry in E. apply split_app in E as [(b & E)|(a & E1 & E2)].
      * apply items_idle in E as (E1 & l & E2 & ->). rewrite app_nil_r in E2. destruct (idle_poll _ _ _ S E1) as (E3 & f & bl & ->).
        rewrite E3 in E2. cbn [map] in E2. rewrite app_nil_r in E2. subst p. intros c K. assert (asked tr c) as K' by (apply (pre_asked r) in K; [exact K|discriminate]).
        pose proof (S4 E1 c K'). unfold closed in *. apply in_or_app. auto.
      * rewrite E1, (app_assoc tr). eapply R3; eauto.
    + intros c s e O L. destruct (S5 c s e O L) as [X|(O1 & e1 & L1 & M1)].
      * left. unfold closed. apply in_or_app. left. unfold items. right. apply in_or_app. right. apply in_or_app. left. apply in_map. exact X.
      * destruct (R4 c s e1 O1 L1) as [X|(O2 & e2 & L2 & M2)]; [left; unfold closed; apply in_or_app; auto|right]. split; [exact O2|]. exists e2. split; [exact L2|]. eapply moves_trans; eauto.
    + lia.
    + auto.
Qed.

Lemma run_app os1 : forall os2 (r : rtc), run P r (os1 ++ os2) = do (r1, i1) <- run P r os1 ; do (r2, i2) <- run P r1 os2 ; Ok (r2, i1 ++ i2).
Proof.
  induction os1 as [|o os1 IH]; intros os2 r; cbn [run app bind].
  - destruct (run P r os2) as [[r2 i2]| |]; reflexivity.
  - destruct (step P r o) as [x| |]; cbn [bind]; [|reflexivity..]. rewrite IH. destruct (run P (o_r x) os1) as [[r1 i1]| |]; cbn [bind]; [|reflexivity..].
    destruct (run P r1 os2) as [[r2 i2]| |]; cbn [bind]; [|reflexivity..]. rewrite app_assoc. reflexivity.
Qed.

Lemma usable_on (r : rtc) tr c : inv r tr -> (usable r c = true <-> s_st (r_s r) = Established /\ exists s e, on (r_h r) c s /\ look r s = Some e /\ e_state e = EOpen).
Proof.
  intro I. unfold usable, is_open, look. split.
  - destruct (ChanModel.stream_by_channel (r_h r) c) as [s|] eqn:SB; [|discriminate]. destruct (s_st (r_s r)); try discriminate.
    destruct (entry_by_id _ s) as [e|] eqn:L; [|discriminate]. intro W. apply estate_eqb_eq in W. split; [reflexivity|]. exists s, e. split; [|auto]. apply sbc_on; [apply (i_good _ _ I)|exact SB].
  - intros (E & s & e & O & L & W). apply sbc_on in O; [|apply (i_good _ _ I)]. rewrite O, E, L, W. reflexivity.
Qed.

(** configurations come from calls *)
Lemma step_confs r o x c cf : step P r o = Ok x -> conf_of (r_confs (o_r x)) c = Some cf -> conf_of (r_confs r) c = Some cf \/ o = ONew cf.
Proof.
  intros H K. destruct o; cbn [step] in H.
  - destruct (ChanModel.new_channel _ _) as [[h id]| |]; try discriminate. cbn [bind] in H. injection H as <-. rx. rewrite conf_cons in K. destruct (id =? c); [injection K as <-; auto|auto].
  - destruct (conf_of _ _); [|discriminate]. destruct (ChanModel.confirm _ _); try discriminate. cbn [bind] in H. injection H as <-. auto.
  - destruct (ChanModel.stream_by_channel _ _); [destruct (close_stream _ _ _)|]; injection H as <-; auto.
  - destruct (s_st (r_s r)); [destruct (init _ _ _ _ _); try discriminate; cbn [bind] in H|..]; injection H as <-; auto.
  - injection H as <-. auto.
  - destruct (now <? r_now r); [injection H as <-; auto|]. destruct (ChanModel.handle_timeout _ _ _) as [h l]. destruct (open_all P _ _ _) as [[s1 t]| |]; try discriminate. cbn [bind] in H. injection H as <-. auto.
  - destruct (do_poll P fuel (r_s r)) as [[[ev s] t]| |]; try discriminate. cbn [bind] in H. destruct ev as [ev|].
    + destruct (translate _ _ _) as [[r' us]| |] eqn:T; try discriminate. cbn [bind] in H. injection H as <-. rx. left. rewrite <- K.
      f_equal. destruct ev; cbn [translate] in T; rx.
      * destruct (push_back s blocked packets); try discriminate. cbn [bind] in T. injection T as <- <-. reflexivity.
      * destruct (ChanModel.channel_by_stream _ _); [|discriminate]. injection T as <- <-. reflexivity.
      * destruct (ChanModel.channel_by_stream _ _); injection T as <- <-; reflexivity.
      * injection T as <- <-; reflexivity.
      * destruct (ChanModel.channel_by_stream _ _); injection T as <- <-; reflexivity.
      * destruct (ChanModel.channel_by_stream _ _); injection T as <- <-; reflexivity.
      * injection T as <- <-; reflexivity.
    + injection H as <-. auto.
  - destruct (negb _); [injection H as <-; auto|]. destruct (ChanModel.stream_by_channel _ _); [|discriminate]. destruct (_ <? _); [injection H as <-; auto|].
    destruct (write _ _ _ _ _) as [[s t]| |]; try discriminate; injection H as <-; auto.
  - destruct (negb _); [injection H as <-; auto|]. destruct (ChanModel.stream_by_channel _ _); [|discriminate]. destruct (set_threshold _ _ _); try discriminate. cbn [bind] in H. injection H as <-. auto.
Qed.
Lemma run_confs : forall os r r' is c cf, run P r os = Ok (r', is) -> conf_of (r_confs r') c = Some cf -> conf_of (r_confs r) c = Some cf \/ In (ICall (ONew cf)) is.
Proof.
  induction os as [|o os IH]; intros r r' is c cf H K; cbn [run] in H; [injection H as <- <-; auto|].
  destruct (step P r o) as [x| |] eqn:S; try discriminate. cbn [bind] in H. destruct (run P (o_r x) os) as [[r2 is2]| |] eqn:R; try discriminate. cbn [bind] in H. assert (r' = r2 /\ is = items o x ++ is2) as [-> ->] by (split; congruence). clear H.
  destruct (IH _ _ _ _ _ R K) as [X|X]; [|right; apply in_or_app; auto]. apply (step_confs _ _ _ _ _ S) in X as [X| ->]; [auto|right; left; reflexivity].
Qed.
End P.

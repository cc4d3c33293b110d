(** One call, and histories. *)
From Verif Require Import Base BaseFacts RtcModel RtcSpec RtcProofs.

Section Calls.
Context {W : Type} (C : comps W) (NEVER PAST : Z).
Notation rtcW := (rtc W).

(** ** The timeout *)
Definition fold_soonest (l : list (option Z * Z)) : option Z * Z := fold_left soonest l (None, R_NOT).
Lemma fold_soonest_spec : forall l a, 
  match fst (fold_left soonest l a) with
  | Some t => (forall u k, In (Some u, k) (a :: l) -> t <= u) /\ In (Some t, snd (fold_left soonest l a)) (a :: l)
  | None => (forall u k, ~ In (Some u, k) (a :: l)) /\ (snd (fold_left soonest l a) = R_NOT \/ l = [])
  end.
Proof.
  induction l as [|b l IH]; intro a; cbn [fold_left].
  - destruct a as [[t|] k]; cbn [fst snd]. { split; [intros u j [E|[]]; injection E; lia|left; reflexivity]. } { split; [intros u j [E|[]]; discriminate|auto]. }
  - specialize (IH (soonest a b)). destruct (fst (fold_left soonest l (soonest a b))) as [t|].
    + destruct IH as [I1 I2]. split.
      * intros u k I. destruct I as [->|[->|I]]; [| |apply (I1 u k); right; exact I].
        -- unfold soonest in I1. destruct b as [[v|] j]; [|apply (I1 u k); left; reflexivity]. destruct (Z.ltb_spec u v); [apply (I1 u k); left; reflexivity|]. specialize (I1 v j (or_introl eq_refl)). lia.
        -- unfold soonest in I1. destruct a as [[v|] j]; [|apply (I1 u k); left; reflexivity]. destruct (Z.ltb_spec v u); [specialize (I1 v j (or_introl eq_refl)); lia|]. apply (I1 u k); left; reflexivity.
      * destruct I2 as [I2|I2]; [|right; right; exact I2]. unfold soonest in I2 at 1. destruct a as [[v|] j], b as [[u|] k]; try discriminate; try (left; exact I2); try (right; left; exact I2).
        destruct (v <? u); [left|right; left]; exact I2.
    + destruct IH as [I1 I2]. split.
      * intros u k I. destruct I as [->|[->|I]]; [| |apply (I1 u k); right; exact I].
        -- unfold soonest in I1. destruct b as [[v|] j]; [|apply (I1 u k); left; reflexivity]. destruct (u <? v); [apply (I1 u k)|apply (I1 v j)]; left; reflexivity.
        -- unfold soonest in I1. destruct a as [[v|] j]; [|apply (I1 u k); left; reflexivity]. destruct (v <? u); [apply (I1 v j)|apply (I1 u k)]; left; reflexivity.
      * destruct I2 as [I2| ->]; [auto|]. left. cbn [fold_left]. destruct a as [[v|] j], b as [[u|] k]; cbn [soonest snd]; try reflexivity;
          [destruct (v <? u) eqn:VU; exfalso; eapply I1; left; cbn [soonest]; rewrite VU; reflexivity|exfalso; eapply I1; left; reflexivity|exfalso; eapply I1; left; reflexivity].
Qed.

Lemma timeouts_spec (r : rtcW) r' y : timeouts C NEVER r = (r', y) ->
  (r' = set_st r Closed /\ r_st r = Closing /\ drain_complete C r = true /\ y = YTimeout NEVER R_NOT) \/
  (r' = r /\ (r_st r = Closing -> drain_complete C r = false) /\ exists t k, y = YTimeout t k /\ wake_up (r_now r) NEVER (wanted C r) t k).
Proof.
  unfold timeouts. match goal with |- context [fst ?x] => assert (x = fold_left soonest (wanted C r) (None, R_NOT)) as -> by reflexivity end.
  pose proof (fold_soonest_spec (wanted C r) (None, R_NOT)) as F.
  assert (wake_up (r_now r) NEVER (wanted C r) (if (match fst (fold_left soonest (wanted C r) (None, R_NOT)) with Some t => t | None => NEVER end) <? r_now r then r_now r
     else match fst (fold_left soonest (wanted C r) (None, R_NOT)) with Some t => t | None => NEVER end) (snd (fold_left soonest (wanted C r) (None, R_NOT)))) as WU.
  { destruct (fst (fold_left soonest (wanted C r) (None, R_NOT))) as [t|].
    - destruct F as [F1 F2]. assert ((if t <? r_now r then r_now r else t) = Z.max (r_now r) t) as -> by (destruct (Z.ltb_spec t (r_now r)); lia).
      split; [lia|]. split.
      + intros u k I. specialize (F1 u k (or_intror I)). lia.
      + left. exists t. split; [|reflexivity]. destruct F2 as [F2|F2]; [discriminate|exact F2].
    - destruct F as [F1 F2]. assert ((if NEVER <? r_now r then r_now r else NEVER) = Z.max (r_now r) NEVER) as -> by (destruct (Z.ltb_spec NEVER (r_now r)); lia).
      split; [lia|]. split.
      + intros u k I. exfalso. exact (F1 u k (or_intror I)).
      + right. split; [intros u k I; exact (F1 u k (or_intror I))|]. split; [|reflexivity]. destruct F2 as [F2|F2]; [exact F2|discriminate]. }
  destruct (r_st r) eqn:ST.
  - intro H. injection H as <- <-. right. split; [reflexivity|]. split; [discriminate|]. eauto.
  - destruct (drain_complete C r) eqn:DC; intro H; injection H as <- <-; [left; auto|right]. split; [reflexivity|]. split; [auto|]. eauto.
  - intro H. injection H as <- <-. right. split; [reflexivity|]. split; [discriminate|]. eauto.
Qed.

(** ** poll_output *)
Definition poll_ok (r r' : rtcW) (y : output) (t : list act) : Prop :=
  stage r r' t (y = YErr) /\
  match y with
  | YEvent EConnected => ups t = 1%nat /\ r_st r' <> Closed
  | YEvent EClosed => r_st r' = Closing /\ r_cstart r' = true
  | YSend a p => r_send r' = Some a /\ (In (ASendDtls p) t \/ In (ASendSes p) t) /\ r_st r' <> Closed
  | YTimeout n k => (r_st r' = Closed /\ n = NEVER /\ k = R_NOT /\ r_cstart r' = true /\ r_pend r' = [] /\ c_dtls_closed C (r_w r') = true /\ c_ses_closed C (r_w r') = true /\ r_st r = Closing) \/
      (r_st r' <> Closed /\ (r_st r' = Closing -> drain_complete C r' = false) /\ (r_send r' = None \/ r_pend r' = []) /\ wake_up (r_now r) NEVER (wanted C r') n k)
  | YErr => True
  | _ => r_st r' <> Closed
  end.

Lemma poll_spec : forall fuel (r : rtcW) r' y t, poll_output C NEVER PAST fuel r = Ok (r', y, t) -> r_st r <> Closed -> poll_ok r r' y t.
Proof.
  induction fuel as [|f IH]; intros r r' y t H NC; cbn [poll_output] in H; [discriminate|].
  assert (exists x, H = x) as _ by eauto.
  destruct (r_st r) eqn:ST; [| |congruence].
  all: destruct (ice_loop C f r) as [[[r1 o1] t1]| |] eqn:L1; try discriminate; cbn [bind] in H;
    apply ice_loop_stage in L1 as (S1 & E1 & _ & P1 & O1).
  all: assert (r_st r1 <> Closed) as NC1 by congruence.
  all: destruct O1 as [->|(s & ->)]; [|injection H as <- <- <-; split; [apply (stage_weaken _ _ _ _ False); [intros []|exact S1]|exact NC1]].
  all: destruct (dtls_tick C r1) as [[r2 o2] t2] eqn:L2; apply dtls_tick_stage in L2 as (S2 & P2 & O2); [|exact NC1].
  all: assert (stage r r2 (t1 ++ t2) False) as S12 by exact (stage_trans _ _ _ _ t1 t2 _ S1 S2).
  all: destruct O2 as [(-> & E2)|(-> & E2)]; [|injection H as <- <- <-; split; [apply (stage_weaken _ _ _ _ False); [intros []|exact S12]|exact I]].
  all: assert (r_st r2 <> Closed) as NC2 by congruence.
  all: destruct (dtls_loop C PAST f r2 false) as [[[r3 o3] t3]| |] eqn:L3; try discriminate; cbn [bind] in H.
  all: apply dtls_loop_stage in L3 as (S3 & O3); [|exact NC2|discriminate].
  all: assert (stage r r3 (t1 ++ t2 ++ t3) (bad_ret o3)) as S13 by (rewrite app_assoc; exact (stage_trans _ _ _ _ (t1 ++ t2) t3 _ S12 S3)).
  all: destruct O3 as [(-> & E3 & _ & U3)|[(-> & E3 & [J|U3])|[(-> & E3 & CS3)| ->]]]; [|discriminate| | |];
    [|injection H as <- <- <-; split; [apply (stage_weaken _ _ _ _ (bad_ret (Return (YEvent EConnected)))); [intro K; discriminate|exact S13]|split; [|congruence]]
     |injection H as <- <- <-; split; [apply (stage_weaken _ _ _ _ (bad_ret (Return (YEvent EClosed)))); [intro K; discriminate|exact S13]|auto]
     |injection H as <- <- <-; split; [apply (stage_weaken _ _ _ _ (bad_ret (Return YErr))); [auto|exact S13]|exact I]].
  2,4: pose proof (g_ups _ _ _ _ S13) as G; rewrite !ups_app in *; lia.
  all: assert (stage r r3 (t1 ++ t2 ++ t3) False) as S13' by (apply (stage_weaken _ _ _ _ (bad_ret Go)); [intro K; discriminate|exact S13]).
  all: assert (r_st r3 <> Closed) as NC3 by congruence.
  all: destruct (sctp_loop C f r3) as [[[r4 o4] t4]| |] eqn:L4; try discriminate; cbn [bind] in H.
  all: apply sctp_loop_stage in L4 as (S4 & U4 & O4); [|exact NC3].
  all: assert (stage r r4 (t1 ++ t2 ++ t3 ++ t4) False) as S14 by (replace (t1 ++ t2 ++ t3 ++ t4) with ((t1 ++ t2 ++ t3) ++ t4) by (rewrite <- !app_assoc; reflexivity); exact (stage_trans _ _ _ _ (t1 ++ t2 ++ t3) t4 _ S13' S4)).
  all: destruct O4 as [(-> & E4)|[(-> & E4)|[(-> & E4 & CS4)|[(e & -> & E4)|(-> & E4)]]]];
    [| |injection H as <- <- <-; split; [apply (stage_weaken _ _ _ _ False); [intros []|exact S14]|auto]
     |injection H as <- <- <-; split; [apply (stage_weaken _ _ _ _ False); [intros []|exact S14]|cbn; congruence]
     |injection H as <- <- <-; split; [apply (stage_weaken _ _ _ _ False); [intros []|exact S14]|exact I]].
  all: assert (r_st r4 <> Closed) as NC4 by congruence.
  2,4: destruct (poll_output C NEVER PAST f r4) as [[[r5 y5] t5]| |] eqn:L5; try discriminate; cbn [bind] in H; injection H as <- <- <-;
    apply IH in L5 as (S5 & O5); [|exact NC4].
  2,3: assert (stage r r5 (t1 ++ t2 ++ t3 ++ t4 ++ t5) (y5 = YErr)) as S15 by (replace (t1 ++ t2 ++ t3 ++ t4 ++ t5) with ((t1 ++ t2 ++ t3 ++ t4) ++ t5) by (rewrite <- !app_assoc; reflexivity); exact (stage_trans _ _ _ _ _ t5 _ S14 S5)).
  2,3: split; [exact S15|]; destruct y5 as [[| | | | | ]| | | |]; auto;
    [destruct O5 as [O5 O6]; split; [|exact O6]; pose proof (g_ups _ _ _ _ S15) as G; rewrite !ups_app in *; lia
     |destruct O5 as (Q1 & Q2 & Q3); split; [exact Q1|]; split; [|exact Q3]; destruct Q2; [left|right]; repeat (apply in_or_app; right); assumption
     |].
  2,3: assert (r_now r4 = r_now r) as NW by apply (g_now _ _ _ _ S14); rewrite NW in O5; destruct O5 as [O5|O5]; [left; intuition congruence|right; exact O5].
  all: destruct (events C r4) as [r5 o5] eqn:L5; apply events_stage in L5 as (S5 & E5 & _ & O5).
  all: assert (stage r r5 (t1 ++ t2 ++ t3 ++ t4) False) as S15 by (rewrite <- (app_nil_r (t1 ++ t2 ++ t3 ++ t4)); exact (stage_trans _ _ _ _ _ [] _ S14 S5)).
  all: assert (r_st r5 <> Closed) as NC5 by congruence.
  all: destruct O5 as [->|[->|[(e & ->)|(e & ->)]]]; [|injection H as <- <- <-; split; [apply (stage_weaken _ _ _ _ False); [intros []|exact S15]|cbn; auto]..].
  all: destruct (transmit C r5) as [[r6 o6] t6] eqn:L6; apply transmit_stage in L6 as (S6 & E6 & _ & U6 & O6).
  all: assert (stage r r6 (t1 ++ t2 ++ t3 ++ t4 ++ t6) False) as S16 by (replace (t1 ++ t2 ++ t3 ++ t4 ++ t6) with ((t1 ++ t2 ++ t3 ++ t4) ++ t6) by (rewrite <- !app_assoc; reflexivity); exact (stage_trans _ _ _ _ _ t6 _ S15 S6)).
  all: assert (r_st r6 <> Closed) as NC6 by congruence.
  all: destruct O6 as [(-> & -> & O6)|[(p & -> & ->)|(a & p & -> & SA & T6)]];
    [|injection H as <- <- <-; split; [apply (stage_weaken _ _ _ _ False); [intros []|exact S16]|exact NC6]
     |injection H as <- <- <-; split; [apply (stage_weaken _ _ _ _ False); [intros []|exact S16]|]; split; [exact SA|]; split; [|exact NC6]; destruct T6 as [-> | ->]; [left|right]; repeat (apply in_or_app; right); left; reflexivity].
  all: destruct (timeouts C NEVER r6) as [r7 y7] eqn:L7; injection H as <- <- <-; apply timeouts_spec in L7.
  all: pose proof (g_now _ _ _ _ S16) as NW.
  all: destruct L7 as [(-> & E7 & DC & ->)|(-> & DC & n & k & -> & WU)].
  all: try (split; [apply (stage_weaken _ _ _ _ False); [intros []|exact S16]|]; right; rewrite <- NW; auto).
  all: split; [rewrite <- (app_nil_r (t1 ++ t2 ++ t3 ++ t4 ++ [])); refine (stage_trans _ _ _ _ _ [] _ S16 _); apply stage_quiet; simp; auto; pose proof (rank_le (r_st r6)); lia|].
  all: left; simp; unfold drain_complete in DC; apply andb_prop in DC as [DC D3]; apply andb_prop in DC as [D1 D2]; apply andb_prop in D2 as [D2 D4].
  all: repeat (split; [auto|]); destruct (r_pend r6); try discriminate; repeat (split; [auto|]); congruence.
Qed.

(** ** Other calls *)
Record called (r r' : rtcW) (t : list act) : Prop := mkCall {
  k_ver : r_verify r' = r_verify r; k_st : rank (r_st r) <= rank (r_st r'); k_cs : r_cstart r = true -> r_cstart r' = true; k_conn : r_conn r' = r_conn r;
  k_send : r_send r' = r_send r; k_pend : r_pend r' = r_pend r;
  k_plain : forall a, In a t -> match a with ACert _ _ | AUp | APacket _ | ANominated _ | ASendDtls _ | AKeys _ _ | AData _ _ => False | _ => True end
}.

Lemma timeout_called (r : rtcW) now ok r' t : do_handle_timeout C r now = (ok, r', t) -> called r r' t /\ r_st r' = r_st r /\ r_fp r' = r_fp r /\ r_active r' = r_active r /\
  (now < r_now r /\ r' = r /\ t = [] \/ r_now r <= now /\ r_now r' = now /\ (forall u, In u (ticks t) <-> u = now) /\ ascending (ticks t) /\ forall p, ~ In (ADtlsRecv p) t).
Proof.
  unfold do_handle_timeout. destruct (Z.ltb_spec now (r_now r)).
  - intro H0. injection H0 as <- <- <-. split; [split; auto; [lia|intros a []]|]. repeat (split; [reflexivity|]). left. auto.
  - destruct (c_tick C ToSession _ now) as [k w]. destruct k; intro H0; injection H0 as <- <- <-; simp.
    all: split; [split; simp; auto; [lia|intros a K; cbn in K; repeat (destruct K as [<-|K]; [exact I|]); destruct K]|].
    all: repeat (split; [reflexivity|]); right; split; [exact H|]; split; [reflexivity|]; cbn; repeat split; try lia; try (intros p K; repeat (destruct K as [K|K]; [discriminate|]); destruct K); try (intros; intuition lia).
Qed.
Lemma receive_called (r : rtcW) now g ok r' t : do_handle_receive C r now g = (ok, r', t) -> called r r' t /\ r_st r' = r_st r /\ r_fp r' = r_fp r /\ r_active r' = r_active r /\ r_now r' = r_now r /\ ticks t = [] /\
  (forall p, In (ADtlsRecv p) t -> r_active r <> None).
Proof.
  unfold do_handle_receive. destruct g as [m|p|p|p].
  2: destruct (r_active r) eqn:AC; [destruct (c_dtls_recv C (r_w r) p) as [k w]|].
  all: intro H; injection H as <- <- <-; simp; (split; [split; simp; auto; [lia|intros a K; cbn in K; repeat (destruct K as [<-|K]; [exact I|]); destruct K]|]);
    repeat (split; [auto|]); intros q K; cbn in K; repeat (destruct K as [K|K]; [try discriminate; try congruence|]); destruct K.
Qed.
Lemma init_called (r : rtcW) a ok r' t : init_dtls C r a = (ok, r', t) -> called r r' t /\ r_st r' = r_st r /\ r_fp r' = r_fp r /\ r_now r' = r_now r /\ ticks t = [] /\ (forall x, In x t -> is_start x = true) /\
  (r_active r' <> None) /\ (forall b, r_active r = Some b -> r_active r' = Some b /\ t = []).
Proof.
  unfold init_dtls. destruct (r_active r) as [b|] eqn:AC.
  - intro H. injection H as <- <- <-. split; [split; auto; [lia|intros x []]|]. repeat (split; [reflexivity|]). split; [intros x []|]. split; [congruence|]. intros c E. split; [congruence|reflexivity].
  - simp. destruct (c_dtls_timeout C _ (r_now r)) as [k w]. destruct k; [destruct a; [destruct (c_dtls_recv C w []) as [k2 w2]|]|].
    all: intro H; injection H as <- <- <-; simp; (split; [split; simp; auto; [lia|intros x K; cbn in K; repeat (destruct K as [<-|K]; [exact I|]); destruct K]|]);
      repeat (split; [reflexivity|]); (split; [intros x K; cbn in K; repeat (destruct K as [<-|K]; [reflexivity|]); destruct K|]); split; [discriminate|intros; discriminate].
Qed.
End Calls.

(** No panics, and polls return (C50). *)
From Coq Require Import Arith.
From Verif Require Import Base BaseFacts DcepModel SctpModel SctpSpec SctpProofs SctpProofs2 SctpProofs3 SctpProofs4 SctpProofs5 SctpProofs6 SctpProofs7 SctpProofs8.
From Verif Require ChanModel ChanProps DcepProps.

Section P.
Context {A : Type} (P : proto A).
Notation rtc := (@rtc A).
Notation hist := (@history A).
Ltac sx := cbn [s_st s_world s_assoc s_entries s_rpend s_rcomp s_pushed s_now s_client s_set_st s_set_world s_set_entries s_set_resets s_set_pushed s_set_now] in *.
Ltac ex := cbn [e_id e_conf e_state e_close e_deadline e_thr e_set_state e_set_close e_set_conf e_set_deadline e_set_thr] in *.
Ltac rx := cbn [r_h r_confs r_s r_now o_r o_evs o_acts o_idle with_s with_h quiet] in *.

(** an SCTP implementation that gives out bytes, and has the stream it says exists *)
Record sane : Prop := {
  sn_exists : forall w id w', p_open P w id = (RExists, w') -> p_stream P w' id = true;
  sn_bytes : forall w id p buf w', p_read P w id = (RdMsg p buf, w') -> bytes_ok buf
}.

Section Inv.
Context (h : ChanModel.handler) (confs : list (Z * config)) (op : Z -> Prop) (SN : sane)
  (SHORT : forall c cf, conf_of confs c = Some cf -> in_band cf = true -> zlen (c_label cf) + zlen (c_proto cf) <= 1488).

Lemma send_open_ok cf : zlen (c_label cf) + zlen (c_proto cf) <= 1488 -> send_open cf <> Panic.
Proof.
  intros H. unfold send_open, open_write, dcep_of_config. cbn [d_label d_proto]. destruct (Z.ltb_spec 1500 12); [lia|].
  assert (0 <= zlen (c_label cf) /\ 0 <= zlen (c_proto cf)) by (unfold zlen; lia).
  destruct (Z.ltb_spec (1500 - 12) (zlen (c_label cf))); [lia|]. destruct (Z.ltb_spec (1500 - 12 - zlen (c_label cf)) (zlen (c_proto cf))); [lia|]. discriminate.
Qed.

Lemma open_read_ok buf : bytes_ok buf -> open_read buf <> Panic.
Proof.
  intros B E. destruct (DcepProps.C29_open_refused_otherwise buf B) as [(m & tail & V & ->)|R].
  - pose proof (DcepProps.C29_open_read m tail V) as X. unfold recv_open in X. rewrite E in X. discriminate.
  - unfold recv_open in R. rewrite E in R. discriminate.
Qed.

Lemma configure_ok w e cf : e_conf e = Some cf -> configure P w e <> Panic /\ configure P w e <> Err.
Proof. intro H. unfold configure. rewrite H. destruct (p_rel P _ _ _ _ _). split; discriminate. Qed.

Lemma send_open_noerr cf : send_open cf <> Err.
Proof.
  unfold send_open, open_write. destruct (_ <? _); [discriminate|]. destruct (_ <? _); [discriminate|]. destruct (_ <? _); discriminate.
Qed.

Lemma visit_ok now w rp e : e_state e <> EClosed -> eok h confs op e -> exists v, visit P now w rp e = Ok v.
Proof.
  intros NC OK. unfold visit. destruct (estate_eqb (e_state e) AwaitOpen) eqn:W.
  { apply estate_eqb_eq in W. unfold eok in OK. rewrite W in OK. destruct OK as (cf & c & O1 & O2 & O3). unfold visit_open.
    destruct (p_open P w (e_id e)) as [r w0] eqn:PO.
    assert (forall (w1 : A) e1 t, e_conf e1 = Some cf -> in_band cf = false -> exists v, opened_out_of_band w1 rp e1 t = Ok v) as OB
      by (intros w1 e1 t E B; unfold opened_out_of_band; rewrite E, B; eauto).
    assert (forall (w1 : A) e1 t, exists v, Ok (shut P w1 rp e1 t) = Ok v) as SH by eauto.
    destruct r.
    - destruct (configure_ok w0 (e_set_deadline e None) cf O3) as [C1 C2]. destruct (configure P w0 (e_set_deadline e None)) as [[[[ok w1] e1] t]| |] eqn:C; try contradiction. cbn [bind].
      apply configure_spec in C as (cf' & C3 & C4 & C5). ex. destruct ok; cbn [negb]; [|eauto]. subst e1. ex. rewrite O3. destruct (in_band cf) eqn:IB; [|apply OB; auto].
      pose proof (send_open_ok cf (SHORT _ _ O2 IB)). pose proof (send_open_noerr cf). destruct (send_open cf) as [buf| |]; try contradiction. cbn [bind].
      destruct (p_write P w1 (e_id e) PDcep buf) as [wok w2]. destruct wok; eauto.
    - rewrite O3. pose proof (sn_exists SN _ _ _ PO) as X. rewrite X. cbn [negb andb orb].
      destruct (in_band cf) eqn:IB; cbn [orb]; [destruct (_ <? _); eauto|]. destruct (p_live P w0 (e_id e)); cbn [negb orb]; [|destruct (_ <? _); eauto].
      destruct (configure_ok w0 e cf O3) as [C1 C2]. destruct (configure P w0 e) as [[[[ok w1] e1] t]| |] eqn:C; try contradiction. cbn [bind].
      apply configure_spec in C as (cf' & C3 & C4 & C5). destruct ok; cbn [negb]; [|eauto]. subst e1. apply OB; auto.
    - rewrite O3. rewrite Bool.orb_true_r. destruct (_ <? _); eauto.
    - eauto. }
  destruct (e_close e && _); [eauto|]. destruct (negb (p_stream P w (e_id e))); [eauto|].
  assert (forall w1 e1, e_state e1 = e_state e -> e_conf e1 = e_conf e -> exists v, visit_read P w1 rp e1 = Ok v) as RD.
  { intros w1 e1 E1 E2. unfold visit_read. destruct (p_read P w1 (e_id e1)) as [rr w2] eqn:PR. destruct rr as [| |p buf]; [eauto..|].
    pose proof (sn_bytes SN _ _ _ _ _ PR) as BB. destruct p; try (eauto; fail).
    unfold visit_dcep. rewrite E1. destruct (e_state e) eqn:ST; try (eauto; fail).
    - pose proof (open_read_ok buf BB). destruct (open_read buf) as [d| |]; [|eauto|contradiction].
      set (e2 := match e_conf e1 with None => _ | Some _ => _ end). assert (exists cf, e_conf e2 = Some cf) as (cf & CF) by (unfold e2; destruct (e_conf e1) eqn:X; [eauto|ex; eauto]).
      destruct (configure_ok w2 e2 cf CF) as [C1 C2]. destruct (configure P w2 e2) as [[[[ok w3] e3] t]| |] eqn:C; try contradiction. cbn [bind]. destruct ok; cbn [negb]; [|eauto].
      change (ack_write 1) with (@Ok (list Z) [2]); cbn [bind]. destruct (p_write P w3 (e_id e1) PDcep [2]) as [wok w4]. destruct wok; eauto.
    - destruct (DcepProps.C29_ack buf) as (_ & X & _). destruct (ack_read buf) as [[]| |]; [|eauto|contradiction].
      unfold eok in OK. rewrite ST in OK. destruct OK as (cf & (c & _ & _ & O3) & _). rewrite E2, O3. eauto. }
  destruct (e_thr e); try (apply RD; reflexivity). destruct (p_thr P w (e_id e) v) as [ok w1]. destruct ok; [apply RD; reflexivity|eauto].
Qed.

Lemma scan_ok now : forall es w rp, base h confs op es -> nodead es -> exists l, scan P now w rp es = Ok l.
Proof.
  induction es as [|e r IH]; intros w rp B N; cbn [scan]; [eauto|].
  destruct (visit_ok now w rp e (N e (or_introl eq_refl)) (proj2 B e (or_introl eq_refl))) as (v & ->). cbn [bind].
  destruct (v_out v); eauto. destruct (IH (v_w v) (v_rp v)) as (l & ->); cbn [bind]; eauto.
  - destruct B as [S O]. apply sorted_cons in S as [S _]. split; [exact S|]. intros x I. apply O. right. exact I.
  - intros x I. apply N. right. exact I.
Qed.

Lemma drain_noPanic : forall fuel s, drain P fuel s <> Panic.
Proof.
  clear SN SHORT. induction fuel as [|f IH]; intro s; cbn [drain]; [discriminate|]. destruct (p_poll P (s_world s)) as [[ev w]|]; [|discriminate]. destruct ev; try discriminate; apply IH.
Qed.

Lemma do_poll_noPanic : forall fuel s, base h confs op (s_entries s) -> do_poll P fuel s <> Panic.
Proof.
  induction fuel as [|f IH]; intros s B; cbn [do_poll]; [discriminate|].
  destruct (base_live _ _ _ _ B) as [B1 B2].
  destruct (s_st s) eqn:ST; [discriminate|..];
  (destruct (s_pushed (retain s)); [discriminate|]; destruct (p_transmit P (s_world (retain s)) (s_now (retain s))) as [tx w]; destruct tx; [discriminate|];
   destruct (match s_st (s_set_world (retain s) w) with AwaitEstablished | Established => false | _ => true end); [discriminate|];
   destruct (negb (s_assoc (s_set_world (retain s) w))); [discriminate|];
   pose proof (drain_noPanic f (s_set_world (retain s) w)) as DN; destruct (drain P f (s_set_world (retain s) w)) as [[s3 o]| |] eqn:D; try contradiction; try discriminate; cbn [bind];
   destruct (drain_spec P h confs op f (s_set_world (retain s) w) _ _ B1 B2 D) as [D1 D2 D3 D4 D5 D6 D7 D8 D9]; destruct o; [|apply IH, D2|discriminate];
   destruct (s_st s3); try discriminate;
   destruct (scan_ok (s_now s3) (s_entries s3) (s_world s3) (s_rpend s3) D2 D3) as (l & SC); rewrite SC; cbn [bind];
   pose proof (scan_spec P h confs op (s_now s3) (s_entries s3) _ _ l D2 D3 SC) as SS;
   destruct (l_out l) eqn:LO; [sx; destruct (s_rcomp s3); discriminate| |discriminate];
   set (s4 := s_set_resets (s_set_world (s_set_entries s3 (l_es l)) (l_w l)) (l_rp l) (s_rcomp s3));
   assert (base h confs op (s_entries s4)) as B4 by (destruct SS; try congruence; assumption);
   pose proof (IH s4 B4) as X; destruct (do_poll P f s4) as [[[ev s5] t]| |]; try contradiction; discriminate).
Qed.
End Inv.

(** ** Polls return *)
Definition wcount (es : list entry) : nat := length (filter (fun e => estate_eqb (e_state e) AwaitOpen) es).
Context (m : A -> nat).
Record finite : Prop := {
  fi_poll : forall w ev w', p_poll P w = Some (ev, w') -> (m w' < m w)%nat;
  fi_transmit : forall w now w', p_transmit P w now = (None, w') -> (m w' <= m w)%nat
}.
Context (FI : finite).

Lemma wcount_cons e r : wcount (e :: r) = ((if estate_eqb (e_state e) AwaitOpen then 1 else 0) + wcount r)%nat.
Proof. unfold wcount. cbn [filter]. destruct (estate_eqb _ _); reflexivity. Qed.
Lemma wcount_ins es n : e_state n <> AwaitOpen -> wcount (insert_entry es n) = wcount es.
Proof.
  intro N. assert (estate_eqb (e_state n) AwaitOpen = false) as E by (destruct (estate_eqb _ _) eqn:E; [apply estate_eqb_eq in E; contradiction|reflexivity]).
  induction es as [|e r IH]; cbn [insert_entry]; rewrite ?wcount_cons, ?E; [reflexivity|]. destruct (_ <? _); rewrite ?wcount_cons, ?E, ?IH; reflexivity.
Qed.
Lemma wcount_upd es id f : (forall e, e_state (f e) = e_state e) -> wcount (upd_entry es id f) = wcount es.
Proof. intro F. induction es as [|e r IH]; cbn [upd_entry]; [reflexivity|]. destruct (e_id e =? id); rewrite !wcount_cons, ?F, ?IH; reflexivity. Qed.
Lemma wcount_live es : wcount (live es) = wcount es.
Proof.
  unfold live. induction es as [|e r IH]; [reflexivity|]. cbn [filter]. destruct (e_state e) eqn:W; cbn [estate_eqb negb]; rewrite ?wcount_cons, ?W, ?IH; reflexivity.
Qed.

Lemma drain_total : forall fuel s, (m (s_world s) < fuel)%nat -> exists s' o, drain P fuel s = Ok (s', o) /\ (wcount (s_entries s') = wcount (s_entries s))%nat /\
  (m (s_world s') <= m (s_world s))%nat /\ (o = Restart -> (m (s_world s') < m (s_world s))%nat).
Proof.
  induction fuel as [|f IH]; intros s L; [lia|]. cbn [drain]. destruct (p_poll P (s_world s)) as [[ev w]|] eqn:PP.
  2:{ exists s, Cont. repeat split; auto; discriminate. }
  pose proof (fi_poll FI _ _ _ PP) as LT. destruct ev as [| |id|id|id|id|].
  - eexists _, _. split; [reflexivity|]. sx. repeat split; auto; lia.
  - eexists _, _. split; [reflexivity|]. sx. repeat split; auto; try lia; try discriminate.
  - destruct (IH (s_set_entries (s_set_world s w) (stream_entry (s_entries (s_set_world s w)) id AwaitConfig))) as (s' & o & D & W & M & R); [sx; lia|].
    exists s', o. split; [exact D|]. sx. split; [|split; [lia|intro X; specialize (R X); lia]]. rewrite W. unfold stream_entry. destruct (entry_by_id _ _); [reflexivity|]. apply wcount_ins. discriminate.
  - sx. match goal with |- context [drain P f ?s1] => destruct (IH s1) as (s' & o & D & W & M & R); [sx; lia|] end.
    exists s', o. split; [exact D|]. sx. split; [|split; [lia|intro X; specialize (R X); lia]]. rewrite W. apply wcount_upd. intro e. destruct (_ && _); reflexivity.
  - sx. match goal with |- context [drain P f ?s1] => destruct (IH s1) as (s' & o & D & W & M & R); [sx; lia|] end.
    exists s', o. split; [exact D|]. sx. split; [exact W|split; [lia|intro X; specialize (R X); lia]].
  - eexists _, _. split; [reflexivity|]. sx. repeat split; auto; try lia; try discriminate.
  - sx. match goal with |- context [drain P f ?s1] => destruct (IH s1) as (s' & o & D & W & M & R); [sx; lia|] end.
    exists s', o. split; [exact D|]. sx. split; [exact W|split; [lia|intro X; specialize (R X); lia]].
Qed.
Lemma drain_mono : forall f f' s r, (f <= f')%nat -> drain P f s = Ok r -> drain P f' s = Ok r.
Proof.
  clear FI. induction f as [|f IH]; intros f' s r L H; [discriminate|]. destruct f' as [|f']; [lia|]. cbn [drain] in *. destruct (p_poll P (s_world s)) as [[ev w]|]; [|exact H].
  destruct ev; try exact H; apply IH; auto; lia.
Qed.

Section Inv2.
Context (h : ChanModel.handler) (confs : list (Z * config)) (op : Z -> Prop).

Lemma scan_restart now : forall es w rp l, base h confs op es -> nodead es -> scan P now w rp es = Ok l -> l_out l = Restart -> (wcount (l_es l) < wcount es)%nat.
Proof.
  clear FI m. induction es as [|e r IH]; intros w rp l B N H R; cbn [scan] in H.
  { injection H as <-. discriminate. }
  destruct (visit P now w rp e) as [v| |] eqn:V; try discriminate. cbn [bind] in H.
  pose proof (visit_spec P h confs op now w rp e v (N e (or_introl eq_refl)) (proj2 B e (or_introl eq_refl)) V) as VS. unfold visited in VS.
  assert (base h confs op r /\ nodead r) as [BR NR].
  { destruct B as [S O]. apply sorted_cons in S as [S _]. split; [split; [exact S|intros x I; apply O; right; exact I]|intros x I; apply N; right; exact I]. }
  destruct (v_out v) as [| |ev] eqn:VO.
  - destruct (scan P now (v_w v) (v_rp v) r) as [l'| |] eqn:SC; try discriminate. cbn [bind] in H. injection H as <-. cbn [l_out l_es] in *.
    specialize (IH _ _ _ BR NR SC R). rewrite !wcount_cons. destruct VS as (M & _).
    destruct (estate_eqb (e_state (v_e v)) AwaitOpen) eqn:E1; [|destruct (estate_eqb (e_state e) AwaitOpen); lia].
    apply estate_eqb_eq in E1. destruct (m_wait _ _ M E1) as [E2 _]. rewrite E2. cbn [estate_eqb]. lia.
  - injection H as <-. cbn [l_out l_es] in *. rewrite !wcount_cons. destruct VS as (_ & _ & _ & E1 & E2). rewrite E1, E2. cbn [estate_eqb]. lia.
  - injection H as <-. cbn [l_out] in R. discriminate.
Qed.

Lemma do_poll_total : forall k n s, (wcount (s_entries s) <= k)%nat -> (m (s_world s) <= n)%nat -> base h confs op (s_entries s) ->
  exists F, forall f, (F <= f)%nat -> do_poll P f s <> Err.
Proof.
  induction k as [k IHk] using (well_founded_induction lt_wf). induction n as [n IHn] using (well_founded_induction lt_wf). intros s WK MN B.
  destruct (base_live _ _ _ _ B) as [B1 B2].
  destruct (p_transmit P (s_world (retain s)) (s_now (retain s))) as [tx w] eqn:TX.
  destruct tx as [pk|].
  { exists 1%nat. intros f L. destruct f as [|f]; [lia|]. cbn [do_poll]. destruct (s_st s); [discriminate|..]; destruct (s_pushed (retain s)); try discriminate; rewrite TX; discriminate. }
  pose proof (fi_transmit FI _ _ _ TX) as LM. cbn [retain s_world s_set_entries] in LM.
  set (s2 := s_set_world (retain s) w) in *.
  destruct (drain_total (S (m w)) s2) as (s3 & o & D & W3 & M3 & R3); [unfold s2; sx; lia|].
  assert (s_entries s2 = live (s_entries s)) as E2 by reflexivity. assert (s_world s2 = w) as E2w by reflexivity.
  rewrite E2, wcount_live in W3. rewrite E2w in *.
  destruct (drain_spec P h confs op _ s2 _ _ B1 B2 D) as [D1 D2 D3 D4 D5 D6 D7 D8 D9].
  assert (exists F2, forall f, (F2 <= f)%nat -> match o with
    | Emit ev => Ok (Some ev, s3, [])
    | Restart => do_poll P f s3
    | Cont => match s_st s3 with
       | Established =>
           do l <- scan P (s_now s3) (s_world s3) (s_rpend s3) (s_entries s3) ;
           let s4 := s_set_resets (s_set_world (s_set_entries s3 (l_es l)) (l_w l)) (l_rp l) (s_rcomp s3) in
           match l_out l with
           | Emit ev => Ok (Some ev, s4, l_acts l)
           | Restart => do (ev, s5, t) <- do_poll P f s4 ; Ok (ev, s5, l_acts l ++ t)
           | Cont => match s_rcomp s4 with
               | id :: r => Ok (Some (SResetComplete id), s_set_resets s4 (s_rpend s4) r, l_acts l)
               | [] => Ok (None, s4, l_acts l)
               end
           end
       | _ => Ok (None, s3, [])
       end
    end <> Err) as (F2 & HF2).
  { destruct o as [| |ev].
    - destruct (s_st s3); try (exists 0%nat; intros; discriminate).
      destruct (scan P (s_now s3) (s_world s3) (s_rpend s3) (s_entries s3)) as [l| |] eqn:SC; cbn [bind].
      + destruct (l_out l) eqn:LO.
        * exists 0%nat. intros. sx. destruct (s_rcomp s3); discriminate.
        * pose proof (scan_restart (s_now s3) _ _ _ _ D2 D3 SC LO) as LT.
          pose proof (scan_spec P h confs op (s_now s3) (s_entries s3) _ _ l D2 D3 SC) as SS.
          set (s4 := s_set_resets (s_set_world (s_set_entries s3 (l_es l)) (l_w l)) (l_rp l) (s_rcomp s3)).
          assert (base h confs op (s_entries s4)) as B4 by (destruct SS; try congruence; assumption).
          destruct (IHk (wcount (l_es l)) ltac:(lia) (m (s_world s4)) s4) as (F & HF); auto.
          exists F. intros f L. specialize (HF f L). destruct (do_poll P f s4) as [[[ev s5] t]| |]; try discriminate. contradiction.
        * exists 0%nat. intros. discriminate.
      + exists 0%nat. intros f _. exfalso. clear - SC. revert SC. generalize (s_world s3) (s_rpend s3). induction (s_entries s3) as [|e r IH]; intros w0 rp0 SC; cbn [scan] in SC; [discriminate|].
        destruct (visit P (s_now s3) w0 rp0 e) as [v| |] eqn:V; try discriminate.
        * cbn [bind] in SC. destruct (v_out v); try discriminate. destruct (scan P (s_now s3) (v_w v) (v_rp v) r) eqn:S2; try discriminate. eapply IH; eauto.
        * clear - V. revert V. unfold visit. destruct (estate_eqb _ _).
          -- unfold visit_open. destruct (p_open P w0 (e_id e)) as [r0 w1]. 
             assert (forall w e, configure P w e <> Err) as CE by (intros; unfold configure; destruct (e_conf _); [destruct (p_rel _ _ _ _ _ _)|]; discriminate).
             assert (forall (w : A) e t, opened_out_of_band w rp0 e t <> Err) as OE by (intros; unfold opened_out_of_band; destruct (e_conf _); [destruct (in_band _)|]; discriminate).
             destruct r0.
             ++ pose proof (CE w1 (e_set_deadline e None)). destruct (configure P w1 _) as [[[[ok w2] e1] t]| |]; cbn [bind]; try discriminate; [|contradiction].
                destruct (negb ok); [discriminate|]. destruct (e_conf e1); [|discriminate]. destruct (in_band c); [|apply OE].
                pose proof (send_open_noerr c). destruct (send_open c); cbn [bind]; try discriminate; [|contradiction]. destruct (p_write P _ _ _ _) as [[] ?]; discriminate.
             ++ destruct (e_conf e); [|discriminate]. destruct (_ || _); [destruct (_ <? _); discriminate|]. destruct (negb _); [discriminate|].
                pose proof (CE w1 e). destruct (configure P w1 e) as [[[[ok w2] e1] t]| |]; cbn [bind]; try discriminate; [|contradiction]. destruct (negb ok); [discriminate|apply OE].
             ++ destruct (e_conf e); [|discriminate]. destruct (_ || _); [destruct (_ <? _); discriminate|]. destruct (negb _); [discriminate|].
                pose proof (CE w1 e). destruct (configure P w1 e) as [[[[ok w2] e1] t]| |]; cbn [bind]; try discriminate; [|contradiction]. destruct (negb ok); [discriminate|apply OE].
             ++ discriminate.
          -- destruct (_ && _); [discriminate|]. destruct (negb _); [discriminate|].
             assert (forall w e, visit_read P w rp0 e <> Err) as RE.
             { intros w2 e2. unfold visit_read. destruct (p_read P w2 (e_id e2)) as [[| |p buf] w3]; try discriminate. destruct p; try discriminate.
               unfold visit_dcep. destruct (e_state e2); try discriminate.
               - destruct (open_read buf); try discriminate. 
                 match goal with |- context [configure P w3 ?e3] => assert (configure P w3 e3 <> Err) as CE by (unfold configure; destruct (e_conf e3); [destruct (p_rel _ _ _ _ _ _)|]; discriminate); destruct (configure P w3 e3) as [[[[ok w4] e4] t]| |] end; cbn [bind]; try discriminate; [|contradiction].
                 destruct (negb ok); [discriminate|]. change (ack_write 1) with (@Ok (list Z) [2]); cbn [bind]. destruct (p_write P _ _ _ _) as [[] ?]; discriminate.
               - destruct (ack_read buf); try discriminate. destruct (e_conf e2); discriminate. }
             destruct (e_thr e); try apply RE. destruct (p_thr P _ _ _) as [[] ?]; [apply RE|discriminate].
      + exists 0%nat. intros. discriminate.
    - destruct (IHn (m (s_world s3)) ltac:(specialize (R3 eq_refl); lia) s3) as (F & HF); auto; [lia|]. eauto.
    - exists 0%nat. intros. discriminate. }
  exists (S (Nat.max (S (m w)) F2)). intros f L. destruct f as [|f]; [lia|].
  assert (drain P f s2 = Ok (s3, o)) as DF by (eapply drain_mono; [|exact D]; lia). specialize (HF2 f ltac:(lia)).
  cbn [do_poll]. destruct (s_st s); [discriminate|..]; (destruct (s_pushed (retain s)); [discriminate|]; rewrite TX; fold s2;
    destruct (match s_st s2 with AwaitEstablished | Established => false | _ => true end); [discriminate|]; destruct (negb (s_assoc s2)); [discriminate|]; rewrite DF; cbn [bind]; exact HF2).
Qed.
End Inv2.
End P.

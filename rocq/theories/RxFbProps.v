(** C46: feedback of the receiver.  C47: pause events. *)
From Verif Require Import Base BaseFacts SeqModel NackModel RegisterModel MtimeModel ExtModel HeaderModel TxModel RxModel RxSpec RxReg RxProofs RxProofs2 RxProofs3 RxProofs4 RxProofs6 RxProps RxFbSpec RxFbProofs RxFbProofs2 RxFbProofs3.

(** C46. A receive stream is declared, and then anything happens that leaves it in place: packets of any sender,
    other streams and media, polls, hash map orders.  Then every timeout sends exactly the requests that were made
    since the last one for this stream: a key frame request as the PLI or FIR asked for, FIRs numbered 0, 1, 2, ...
    modulo 256, a REMB with the last bitrate asked for, never for what was not asked and never twice; and every
    report about it repeats the time of the last sender report and the delay since. *)
Theorem C46_requests_served : forall mode pre x l0 k rtx m r supp ops y outs,
  ops_fine (sess0 mode) pre -> rxrun (sess0 mode) pre = Ok (x, l0) -> aget k (streams x) = None ->
  ops_fine x (RExpect k rtx m r supp :: ops) -> Forall (keeps k m) ops ->
  rxrun x (RExpect k rtx m r supp :: ops) = Ok (y, outs) -> all_served k m want0 ops (tl outs).
Proof.
  intros mode pre x l0 k rtx m r supp ops y outs F0 R0 N F K R. destruct (wf_run pre _ (wf0 mode) F0) as (x' & l' & R' & W). rewrite R0 in R'. injection R' as <- <-.
  cbn [ops_fine] in F. destruct F as [F1 F2]. destruct (wf_step x _ W F1) as (x1 & a & E & W1). rewrite E in F2. cbn [rxrun] in R. rewrite E in R. cbn [bind] in R.
  destruct (rxrun x1 ops) as [[z l]| |] eqn:R1; cbn [bind] in R; try discriminate. injection R as <- <-. cbn [tl].
  cbn [rxstep] in E. destruct (find_media (medias x) m); [|discriminate]. injection E as <- <-.
  set (s := match rtx with Some q => maybe_reset_rtx (srx_new k m r supp) q | None => srx_new k m r supp end).
  assert (aget k (streams (expect_rx x k rtx m r supp)) = Some s) as G by (unfold expect_rx; cbn [streams set_nack set_streams]; rewrite N, aset_get, Z.eqb_refl; reflexivity).
  assert (s_mid s = m /\ wants s = want0) as [M WS] by (unfold s; destruct rtx; [unfold maybe_reset_rtx; cbn|]; auto).
  rewrite <- WS. eapply served_run; eauto.
Qed.
Print Assumptions C46_requests_served.

(** C46. A timeout at or after the instant [last report + interval] of a stream (5 seconds for audio, 1 second for
    video by default; here any intervals) reports on it, if a packet of it was ever taken. *)
Theorem C46_report_due : forall mode ops x l k s now sender iva ivv, ops_fine (sess0 mode) ops -> rxrun (sess0 mode) ops = Ok (x, l) ->
  k <> 0 -> aget k (streams x) = Some s -> s_rr s + (if s_rtx s then ivv else iva) <= now ->
  exists y fb s', rxstep x (RTimeout now sender iva ivv) = Ok (y, OFeedback fb) /\ aget k (streams y) = Some s' /\ s_rr s' = now /\
    (forall g, s_reg s = Some g -> first g <> None -> exists rep lsr dlsr, In (FbRr sender (Some (k, rep, lsr, dlsr))) fb).
Proof.
  intros mode ops x l k s now sender iva ivv F R K G D. destruct (wf_run ops _ (wf0 mode) F) as (x' & l' & R' & W). rewrite R in R'. injection R' as <- <-.
  destruct (wf_timeout x now sender iva ivv W) as (y & fb & T & _). destruct (timeout_stream _ _ _ _ _ _ _ _ _ W T G) as (s' & dn & b & G' & FB & _ & Q).
  pose proof (wf_str _ W _ _ (aget_some_in _ _ _ G)) as SI.
  assert (need_rr s now iva ivv = true) as ND by (unfold need_rr; rewrite (sri_key _ _ SI); replace (k =? 0) with false by lia; unfold report_at; destruct (s_rtx s); lia).
  rewrite (due_in x now iva ivv k s G ND) in FB. destruct (feedback_stream _ _ _ _ _ _ _ FB) as (_ & _ & RR & _ & _ & _ & RP).
  exists y, fb, s'. split; [cbn [rxstep]; rewrite T; reflexivity|]. split; [exact G'|]. split; [exact RR|].
  intros g E1 E2. assert (RxReg.RR g) as RG by (pose proof (sri_reg _ _ SI) as SR; rewrite E1 in SR; apply SR). destruct (report_given g RG E2) as (rep & E3).
  destruct (RP eq_refl g rep E1 E3) as (lsr & dlsr & HI). rewrite (sri_key _ _ SI) in HI. exists rep, lsr, dlsr. apply Q. exact HI.
Qed.
Print Assumptions C46_report_due.

(** C46 (partial: there is no probe stream, SSRC 0; see below). After a timeout the instant of the next report is in
    the future: the timeout loop does not spin. *)
Theorem C46_next_report_later_partial : forall mode ops x l now sender iva ivv y fb t, ops_fine (sess0 mode) ops -> rxrun (sess0 mode) ops = Ok (x, l) ->
  aget 0 (streams x) = None -> 0 < iva -> 0 < ivv -> rxstep x (RTimeout now sender iva ivv) = Ok (y, OFeedback fb) -> feedback_at y iva ivv = Some t -> now < t.
Proof.
  intros mode ops x l now sender iva ivv y fb t F R Z IA IV E FA. destruct (wf_run ops _ (wf0 mode) F) as (x' & l' & R' & W). rewrite R in R'. injection R' as <- <-.
  destruct (wf_timeout x now sender iva ivv W) as (y' & fb' & T & WY & _). cbn [rxstep] in E. rewrite T in E. cbn [bind] in E. injection E as <- <-.
  destruct (feedback_min _ _ _ _ FA) as (k & s' & HI & ->). pose proof HI as G'. apply (aget_in _ _ _ (wf_nodup _ WY)) in G'.
  assert (keys (streams y') = keys (streams x)) as KS.
  { clear - T W. unfold sess_timeout, nack_at in T. cbn [fst snd] in T. unfold rx_timeout in T. cbn [streams lookups set_nack cleanup] in T.
    match type of T with context [all_feedback ?a ?b ?c ?d ?e] => destruct (all_feedback_ok a b c d e (wf_str _ W)) as (l1 & f1 & E1 & F1); rewrite E1 in T end.
    cbn [bind] in T. injection T as <- _. rewrite <- (ip_keys _ _ F1). destruct (cleanup x + CLEANUP <? now); reflexivity. }
  assert (exists s, aget k (streams x) = Some s) as (s & G). { destruct (aget k (streams x)) eqn:Q; [eauto|]. exfalso. apply aget_none in Q. apply Q. rewrite <- KS. apply (in_map fst) in HI. exact HI. }
  destruct (timeout_stream _ _ _ _ _ _ _ _ _ W T G) as (s2 & dn & b & G2 & FB & _). rewrite G' in G2. injection G2 as <-. pose proof (wf_str _ W _ _ (aget_some_in _ _ _ G)) as SI.
  assert (k <> 0) as KN by (intros ->; congruence).
  destruct (srx_feedback_ok k s now sender dn (existsb (leqb (s_mid s)) (due_mids x now iva ivv)) SI) as (s3 & b3 & FB3 & _ & (_ & _ & _ & SX & _) & _). rewrite FB in FB3. injection FB3 as <- <-.
  destruct (feedback_stream _ _ _ _ _ _ _ FB) as (_ & _ & RR & _). unfold report_at. rewrite RR, SX. destruct (need_rr s now iva ivv) eqn:ND.
  - rewrite (due_in x now iva ivv k s G ND). destruct (s_rtx s); lia.
  - unfold need_rr in ND. rewrite (sri_key _ _ SI) in ND. replace (k =? 0) with false in ND by lia. unfold report_at in ND. destruct (existsb _ _); destruct (s_rtx s); lia.
Qed.
Print Assumptions C46_next_report_later_partial.

(** C46 refuted: one datagram with SSRC 0, from anyone and with no valid SRTP tag, makes the probe stream, which never
    reports but whose report is always due: whatever timeouts follow, the instant asked for stays where it was, in the
    past, and the loop spins (receive.rs:565-571 against 247-249, session.rs:470-487). *)
Definition C46_probe_hdr : header := mkH 2 false false 0 false 96 1 0 0 [] ev0 12.
Lemma C46_probe_stays iva ivv times : forall x s, streams x = [(0, s)] -> s_ssrc s = 0 -> s_rtx s = None -> s_rr s = 0 -> WF x ->
  exists y l, rxrun x (map (fun now => RTimeout now 9 iva ivv) times) = Ok (y, l) /\ feedback_at y iva ivv = Some iva.
Proof.
  induction times as [|now times IH]; intros x s E K X RR W; cbn [map rxrun].
  - exists x, []. split; [reflexivity|]. unfold feedback_at. rewrite E. cbn. unfold report_at. rewrite X, RR. reflexivity.
  - destruct (wf_timeout x now 9 iva ivv W) as (y & fb & T & WY & _). cbn [rxstep]. rewrite T. cbn [bind].
    assert (aget 0 (streams x) = Some s) as G by (rewrite E; reflexivity).
    destruct (timeout_stream _ _ _ _ _ _ _ _ _ W T G) as (s2 & dn & b & G2 & FB & _).
    assert (due_mids x now iva ivv = []) as DM by (unfold due_mids; rewrite E; cbn [filter snd]; unfold need_rr; rewrite K; reflexivity). rewrite DM in FB. cbn [existsb] in FB.
    pose proof (wf_str _ W _ _ (aget_some_in _ _ _ G)) as SI.
    destruct (srx_feedback_ok 0 s now 9 dn false SI) as (s3 & b3 & FB3 & _ & (S1 & _ & _ & S4 & _) & _). rewrite FB in FB3. injection FB3 as <- <-.
    destruct (feedback_stream _ _ _ _ _ _ _ FB) as (_ & _ & R2 & _).
    assert (streams y = [(0, s2)]) as EY.
    { clear - T W E G2. unfold sess_timeout, nack_at in T. cbn [fst snd] in T. unfold rx_timeout in T. cbn [streams lookups set_nack cleanup] in T.
      match type of T with context [all_feedback ?a ?b ?c ?d ?e] => destruct (all_feedback_ok a b c d e (wf_str _ W)) as (l1 & f1 & E1 & F1); rewrite E1 in T end.
      cbn [bind] in T. rewrite E in F1. inversion F1 as [|? [k2 s4] ? ? H1 H2]; subst. inversion H2; subst. destruct H1 as [H1 _]. cbn in H1. subst k2.
      assert (streams y = [(0, s4)]) as EY by (injection T as <- _; destruct (cleanup x + CLEANUP <? now); reflexivity). rewrite EY in *. cbn in G2. congruence. }
    destruct (IH y s2 EY) as (z & l & -> & FA); [congruence|congruence|congruence|exact WY|]. cbn [bind]. eauto.
Qed.
Theorem C46_probe_stream_spins_refuted : exists h, op_fine (sess0 true) (RRtp 0 h (fun _ => None)) /\ forall iva ivv times,
  exists x l, rxrun (sess0 true) (RRtp 0 h (fun _ => None) :: map (fun now => RTimeout now 9 iva ivv) times) = Ok (x, l) /\ feedback_at x iva ivv = Some iva.
Proof.
  exists C46_probe_hdr. assert (op_fine (sess0 true) (RRtp 0 C46_probe_hdr (fun _ => None))) as O by (split; [cbn; unfold U16; lia|discriminate]).
  split; [exact O|]. intros iva ivv times. cbn [rxrun]. destruct (wf_step _ _ (wf0 true) O) as (x & a & E & W). rewrite E. cbn [bind].
  vm_compute in E. injection E as <- <-. match goal with |- exists x0 l, bind (rxrun ?x _) _ = _ /\ _ => set (x1 := x) in * end.
  destruct (C46_probe_stays iva ivv times x1 (srx_new 0 MID_PROBE None true) eq_refl eq_refl eq_refl eq_refl W) as (y & l & -> & FA). cbn [bind]. eauto.
Qed.
Print Assumptions C46_probe_stream_spins_refuted.

(** C46 refuted: turning NACKs on for a stream through [stream_rx] is not noticed: the cached answer that nobody wants
    NACKs stays, and a lost packet is never asked for (streams/mod.rs:702-707 against direct.rs:277-279). *)
Definition C46_nack_ops (through_mid : bool) : list rop :=
  [RCodecs [mkPar 96 (Some 97) 90000]; RDeclare (mkMedia [48] RNone); RSrtp; RExpect 1 (Some 2) [48] None true; RTimeout 1 9 5000000 1000000;
   (if through_mid then RSuppressMid [48] None false else RSuppress 1 false);
   RRtp 2 (C44_h 1 96 10 1000) (C44_at 10 [5]); RPollPacket; RRtp 3 (C44_h 1 96 12 1000) (C44_at 12 [5]); RPollPacket; RTimeout 400000 9 5000000 1000000].
Definition C46_nacked (l : list rout) : bool := existsb (fun a => match a with OFeedback fb => existsb (fun f => match f with FbNack _ _ _ => true | _ => false end) fb | _ => false end) l.
Theorem C46_nack_switched_on_unnoticed_refuted : ops_fine (sess0 true) (C46_nack_ops false) /\
  (exists x l, rxrun (sess0 true) (C46_nack_ops true) = Ok (x, l) /\ C46_nacked l = true) /\
  (exists x l, rxrun (sess0 true) (C46_nack_ops false) = Ok (x, l) /\ C46_nacked l = false).
Proof.
  split; [unfold C46_nack_ops; fine|]. split; (eexists; eexists; split; [vm_compute; reflexivity|reflexivity]).
Qed.
Print Assumptions C46_nack_switched_on_unnoticed_refuted.

(** a session: a FIR is asked for, a sender report arrives, two timeouts, a PLI replaced by a FIR, a REMB *)
Definition C46_pre : list rop := [RCodecs [mkPar 96 (Some 97) 90000]; RDeclare (mkMedia [48] RNone); RDeclare (mkMedia [49] RNone); RSrtp; RExpect 5 None [49] None false].
Definition C46_ops : list rop :=
  [RKeyframe 1 true; RRtp 10 (C44_h 1 96 10 1000) (C44_at 10 [5]); RSr 500000 1 (3 * 2 ^ 32 + 5 * 2 ^ 16) 77; RKeyframe 5 false; RTimeout 1000000 9 5000000 1000000;
   RTimeout 1100000 9 5000000 1000000; RKeyframe 1 false; RKeyframe 1 true; RRemb 1 64000; RStopRecv [49]; RTimeout 2000000 9 5000000 1000000; RKeyframe 1 false; RStopRecv [48]; RTimeout 2200000 9 5000000 1000000].
Example C46_case : exists x l y outs, rxrun (sess0 true) C46_pre = Ok (x, l) /\ aget 1 (streams x) = None /\ rxrun x (RExpect 1 (Some 2) [48] None false :: C46_ops) = Ok (y, outs) /\
  flat_map (fun a => match a with OFeedback fb => requests 1 fb | _ => [] end) outs = [FbFir 9 1 0; FbFir 9 1 1; FbRemb 9 64000 1].
Proof. eexists. eexists. eexists. eexists. split; [vm_compute; reflexivity|]. split; [reflexivity|]. split; [vm_compute; reflexivity|]. vm_compute. reflexivity. Qed.
Example C46_case_fine : ops_fine (sess0 true) (C46_pre ++ RExpect 1 (Some 2) [48] None false :: C46_ops) /\ Forall (keeps 1 [48]) C46_ops.
Proof. split; [unfold C46_pre, C46_ops; fine|]. unfold C46_ops. repeat (apply Forall_cons; [cbn; first [exact I|congruence|reflexivity|discriminate]|]). apply Forall_nil. Qed.
(** the report of the first timeout *)
Example C46_case_report : exists x l y fb, rxrun (sess0 true) (C46_pre ++ RExpect 1 (Some 2) [48] None false :: firstn 4 C46_ops) = Ok (x, l) /\
  rxstep x (RTimeout 1000000 9 5000000 1000000) = Ok (y, OFeedback fb) /\ In (FbRr 9 (Some (1, mkReport 0 0 10, 3 * 2 ^ 16 + 5, 32768))) fb.
Proof. eexists. eexists. eexists. eexists. split; [vm_compute; reflexivity|]. split; [vm_compute; reflexivity|]. vm_compute. tauto. Qed.

(** C47. For every SSRC and payload type either media or repair, a receive stream declared, and anything after that
    leaves it in place: pause events are true and complete.  There is a choice which packets counted for the stream
    ([heard]), which includes every packet handed on, such that: the stream is live from a packet on for the
    threshold in force (1.5 seconds unless set), and until a timeout finds that over; every event polled about the
    stream says whether it is paused then; and when there is no event to poll, the last one said how it is
    (a stream starts paused). *)
Theorem C47_pause_events : forall isrtx rtxpt mode pre x l0 k rtx m r supp ops y outs, isrtx 0 = false -> k <> 0 ->
  ops_fine (sess0 mode) pre -> Forall (op_class isrtx rtxpt) pre -> rxrun (sess0 mode) pre = Ok (x, l0) -> aget k (streams x) = None ->
  ops_fine x (RExpect k rtx m r supp :: ops) -> Forall (op_class isrtx rtxpt) (RExpect k rtx m r supp :: ops) -> Forall (keeps k m) ops ->
  rxrun x (RExpect k rtx m r supp :: ops) = Ok (y, outs) -> exists heard, all_told k false pview0 ops (tl outs) heard.
Proof.
  intros isrtx rtxpt mode pre x l0 k rtx m r supp ops y outs Z0 KN F0 C0 R0 N F C K R.
  destruct (run_inv isrtx rtxpt Z0 pre _ [] _ _ (wf0 mode) (cl0 isrtx rtxpt mode) (gh0 isrtx rtxpt mode) F0 C0 R0) as (_ & _ & _ & _ & W & CLX & D & GX).
  cbn [ops_fine] in F. destruct F as [F1 F2]. inversion C as [|? ? C1 C2]; subst. destruct (wf_step x _ W F1) as (x1 & a & E & W1). rewrite E in F2. cbn [rxrun] in R. rewrite E in R. cbn [bind] in R.
  destruct (rxrun x1 ops) as [[z l]| |] eqn:R1; cbn [bind] in R; try discriminate. injection R as <- <-. cbn [tl].
  destruct (inv_step isrtx rtxpt Z0 x _ x1 a D W CLX GX F1 C1 E) as (_ & CL1 & D1 & G1 & _).
  cbn [rxstep] in E. destruct (find_media (medias x) m); [|discriminate]. injection E as <- <-.
  set (s := match rtx with Some q => maybe_reset_rtx (srx_new k m r supp) q | None => srx_new k m r supp end).
  assert (aget k (streams (expect_rx x k rtx m r supp)) = Some s) as G by (unfold expect_rx; cbn [streams set_nack set_streams]; rewrite N, aset_get, Z.eqb_refl; reflexivity).
  assert (s_mid s = m /\ PV s pview0) as [M P] by (unfold s, PV; destruct rtx; [unfold maybe_reset_rtx; cbn|cbn]; auto 6).
  eapply told_run; eauto. discriminate.
Qed.
Print Assumptions C47_pause_events.
(** a session: a packet, live; a timeout in time; one too late; polls; the threshold is raised *)
Definition C47_ops : list rop :=
  [RPollPaused; RPollPacket; RRtp 10 (C44_h 1 96 10 1000) (C44_at 10 [5]); RPollPacket; RPollPaused; RPollPaused; RTimeout 1500000 9 5000000 1000000; RPollPaused; RTimeout 1500010 9 5000000 1000000; RPollPaused; RPollPaused;
   RThreshold 1 3000000; RPollPacket; RRtp 2000000 (C44_h 2 97 500 1000) (C44_at 500 [0; 11; 8]); RPollPacket; RTimeout 4999999 9 5000000 1000000; RPollPaused; RTimeout 5000000 9 5000000 1000000; RPollPaused].
Example C47_case : exists x l y outs, rxrun (sess0 true) C46_pre = Ok (x, l) /\ aget 1 (streams x) = None /\ rxrun x (RExpect 1 (Some 2) [48] None false :: C47_ops) = Ok (y, outs) /\
  flat_map (fun a => match a with OPaused k p => [(k, p)] | _ => [] end) outs = [(1, false); (1, true); (1, false); (1, true)] /\ length (polled outs) = 2%nat.
Proof. eexists. eexists. eexists. eexists. split; [vm_compute; reflexivity|]. split; [reflexivity|]. split; [vm_compute; reflexivity|]. split; vm_compute; reflexivity. Qed.
Example C47_case_fine : ops_fine (sess0 true) (C46_pre ++ RExpect 1 (Some 2) [48] None false :: C47_ops) /\ Forall (keeps 1 [48]) C47_ops /\
  Forall (op_class C44_isrtx C44_rtxpt) (C46_pre ++ RExpect 1 (Some 2) [48] None false :: C47_ops).
Proof.
  split; [unfold C46_pre, C47_ops; fine|]. split; [unfold C47_ops; repeat (apply Forall_cons; [cbn; first [exact I|congruence|reflexivity|discriminate]|]); apply Forall_nil|].
  unfold C46_pre, C47_ops. cbn [app]. repeat (apply Forall_cons; [first [class1|split; [reflexivity|discriminate]]|]). apply Forall_nil.
Qed.

(** C47 refuted: the instant the session wants to be woken at for pauses is that of the first live stream in hash map
    order, not the earliest (streams/mod.rs:405-407): another stream that falls silent before is noticed late. *)
Theorem C47_earliest_pause_refuted : exists ops x l s t u, ops_fine (sess0 true) ops /\ rxrun (sess0 true) ops = Ok (x, l) /\
  aget 5 (streams x) = Some s /\ s_check s = Some t /\ paused_at (streams x) = Some u /\ t + 1000000 <= u.
Proof.
  exists (C46_pre ++ [RExpect 1 (Some 2) [48] None false; RRtp 10 (C44_h 5 96 10 1000) (C44_at 10 [5]); RRtp 1000010 (C44_h 1 96 10 1000) (C44_at 10 [5]); RFront 1]).
  eexists. eexists. eexists. exists 1500010, 2500010. split; [unfold C46_pre; fine|]. split; [vm_compute; reflexivity|]. split; [reflexivity|]. split; [reflexivity|]. split; [reflexivity|lia].
Qed.
Print Assumptions C47_earliest_pause_refuted.
(** C47 refuted: an event may repeat the last one: the stream became live and paused again before the poll. *)
Theorem C47_event_is_a_change_refuted : exists ops, ops_fine (sess0 true) ops /\ exists x l, rxrun (sess0 true) ops = Ok (x, l) /\
  flat_map (fun a => match a with OPaused k p => [(k, p)] | _ => [] end) l = [(1, false); (1, true); (1, true)].
Proof.
  exists (C46_pre ++ [RExpect 1 (Some 2) [48] None false; RRtp 10 (C44_h 1 96 10 1000) (C44_at 10 [5]); RPollPaused; RTimeout 1500010 9 5000000 1000000; RPollPaused;
    RRtp 1600000 (C44_h 1 96 11 1000) (C44_at 11 [5]); RTimeout 4000000 9 5000000 1000000; RPollPaused]).
  split; [unfold C46_pre; fine|]. eexists. eexists. split; vm_compute; reflexivity.
Qed.
Print Assumptions C47_event_is_a_change_refuted.

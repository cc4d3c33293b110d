(** C51: certificates, connection and addresses; C52: shutdown; C53: time. For all components
    (arbitrary ICE, DTLS, SCTP, session and statistics) and all histories. *)
From Verif Require Import Base BaseFacts RtcModel RtcSpec RtcProofs RtcProofs2 RtcProofs3.

(** ** C51 *)

(** Every certificate the DTLS engine shows is compared with the fingerprint in force: it is the same,
    or poll_output fails, the Rtc is dead, and nothing was done after seeing it. *)
Theorem C51_certificate_checked : forall W (C : comps W) NEVER PAST w start os r h o x,
  run C NEVER PAST (rtc0 w true start) os = Ok (r, h) -> step C NEVER PAST r o = Ok x ->
  forall t1 seen e t2, o_acts x = t1 ++ ACert seen e :: t2 ->
  e = in_force None h /\ (e = Some seen \/ o_out x = Some YErr /\ is_alive (o_r x) = false /\ t2 = []).
Proof.
  intros W C NEVER PAST w start os r h o x R S t1 seen e t2 E. pose proof (run_inv0 C NEVER PAST _ _ _ _ _ _ R) as I.
  apply step_cases in S as [(fuel & y & -> & NC & OY & (S & Y) & OK)|P].
  - pose proof (i_ver _ _ _ _ I) as V. rewrite <- (i_fp _ _ _ _ I). destruct (g_cert _ _ _ _ S) as [G|(B & ST & u & sn & EU & G)].
    + assert (In (ACert seen e) (o_acts x)) as IN by (rewrite E; apply in_elt). apply G in IN as [G1 G2]. auto.
    + destruct t2 as [|a t2 _] using rev_ind.
      * rewrite EU in E. apply app_inj_tail in E as [_ E]. injection E as <- <-. split; [reflexivity|]. right. rewrite OY, B. unfold is_alive. rewrite ST. auto.
      * assert (In (ACert seen e) u) as IN.
        { rewrite E, app_comm_cons, app_assoc in EU. apply app_inj_tail in EU as [EU _]. rewrite <- EU. apply in_elt. }
        apply G in IN as [G1 G2]. auto.
  - exfalso. destruct (p_called _ _ _ _ P) as [_ _ _ _ _ _ K]. apply (K (ACert seen e)). rewrite E. apply in_elt.
Qed.
Print Assumptions C51_certificate_checked.

(** So whatever is done (keys installed, data taken from DTLS, datagrams sent or accepted, ...) is done
    with all certificates so far verified; only the DTLS engine can still be started on a dead Rtc. *)
Theorem C51_only_verified_peers : forall W (C : comps W) NEVER PAST w start os r h,
  run C NEVER PAST (rtc0 w true start) os = Ok (r, h) ->
  forall t1 a t2, acts h = t1 ++ a :: t2 -> is_start a = false -> forall b, In b t1 -> verified b.
Proof.
  intros W C NEVER PAST w start os r h R t1 a t2 E NS b IB. pose proof (run_inv0 C NEVER PAST _ _ _ _ _ _ R) as I.
  destruct (i_cert _ _ _ _ I eq_refl) as [G|(_ & u1 & seen & e & u2 & EU & G1 & G2)]; [apply G; rewrite E; apply in_or_app; auto|].
  assert (In a (u1 ++ [ACert seen e]) \/ In a u2) as _ by (rewrite EU in E; assert (In a (t1 ++ a :: t2)) as K by apply in_elt; rewrite <- E in K; apply in_app_or in K as [K|[K|K]]; [left; apply in_or_app; auto|left; apply in_or_app; right; left; exact K|auto]).
  rewrite EU in E. clear EU. revert u1 G1 E. induction t1 as [|c t1 IH]; intros u1 G1 E; [destruct IB|].
  destruct u1 as [|d u1]; cbn in E; injection E as <- E.
  - exfalso. assert (In a u2) as K by (rewrite E; apply in_elt). rewrite (G2 a K) in NS. discriminate.
  - destruct IB as [<-|IB]; [apply G1; left; reflexivity|]. apply (IH IB u1); [|exact E]. intros z Z. apply G1. right. exact Z.
Qed.
Print Assumptions C51_only_verified_peers.

(** Connected comes at most once, and only when DTLS came up. *)
Theorem C51_connected_once : forall W (C : comps W) NEVER PAST w v start os r h,
  run C NEVER PAST (rtc0 w v start) os = Ok (r, h) ->
  (connecteds (outputs h) <= ups (acts h) <= 1)%nat /\ (r_conn r = true <-> ups (acts h) = 1%nat).
Proof.
  intros W C NEVER PAST w v start os r h R. pose proof (run_inv0 C NEVER PAST _ _ _ _ _ _ R) as I.
  split; [split; [apply (i_cnt _ _ _ _ I)|apply (i_ups _ _ _ _ I)]|apply (i_up1 _ _ _ _ I)].
Qed.
Print Assumptions C51_connected_once.

(** Everything but ICE's own messages is sent to the address ICE nominated last (none before that). DTLS packets are
    sent once each, in the order the engine made them. *)
Theorem C51_sent_to_nominated : forall W (C : comps W) NEVER PAST w v start os r h,
  run C NEVER PAST (rtc0 w v start) os = Ok (r, h) ->
  made (acts h) = sent (acts h) ++ r_pend r /\
  forall h1 o x h2 a p, h = h1 ++ (o, x) :: h2 -> o_out x = Some (YSend a p) ->
    nominated None (acts (h1 ++ [(o, x)])) = Some a /\ (In (ASendDtls p) (o_acts x) \/ In (ASendSes p) (o_acts x)).
Proof.
  intros W C NEVER PAST w v start os r h R. split; [apply (i_pend _ _ _ _ (run_inv0 C NEVER PAST _ _ _ _ _ _ R))|].
  intros h1 o x h2 a p E OX. subst h. apply run_step in R as (os1 & os2 & r1 & -> & R1 & S & R2). cbn [fst snd] in *.
  pose proof (run_inv0 C NEVER PAST _ _ _ _ _ _ R1) as I. pose proof (inv_step C NEVER PAST _ _ _ _ _ _ I S) as I'. rewrite <- (i_send _ _ _ _ I').
  apply step_cases in S as [(fuel & y & -> & NC & OY & (S & Y) & OK)|P].
  - rewrite OX in OY. injection OY as <-. destruct Y as (Y1 & Y2 & _). auto.
  - destruct (p_out _ _ _ _ P) as [Q|(_ & Q)]; congruence.
Qed.
Print Assumptions C51_sent_to_nominated.

(** A panic is possible only if the DTLS engine gives out keys without ever having been given a
    datagram. *)
Theorem C51_no_panic : forall W (C : comps W) NEVER PAST w v start os r h o,
  run C NEVER PAST (rtc0 w v start) os = Ok (r, h) -> step C NEVER PAST r o = Panic -> forall p, ~ In (ADtlsRecv p) (acts h).
Proof.
  intros W C NEVER PAST w v start os r h o R S. pose proof (run_inv0 C NEVER PAST _ _ _ _ _ _ R) as I. apply (i_recv _ _ _ _ I).
  clear I R. destruct o; cbn [step] in S; try discriminate;
    try (match type of S with match ?x with _ => _ end = _ => destruct x as [[? ?] ?]; discriminate end).
  assert (forall f r just, dtls_loop C PAST f r just = Panic -> r_active r = None) as DP.
  { clear. induction f as [|f IH]; intros r just H; cbn [dtls_loop] in H; [discriminate|].
    destruct (dtls_poll C PAST r) as [[o r0] t] eqn:P. apply dtls_poll_stage in P as (_ & _ & _ & _ & AC & PP). rewrite <- AC.
    destruct o as [p| |km|der|d|d| |].
    - destruct PP as [(? & q & _ & E & _)|(? & _ & _ & _ & E)]; [discriminate|exfalso; exact (E p eq_refl)].
    - destruct (r_conn r0); [eapply IH; exact H|]. destruct (dtls_loop C PAST f (set_conn r0) true) as [[[? ?] ?]| |] eqn:L; cbn [bind] in H; try discriminate. apply IH in L. exact L.
    - destruct (r_active r0) eqn:A0; [|reflexivity]. destruct (dtls_loop C PAST f _ just) as [[[? ?] ?]| |] eqn:L; cbn [bind] in H; try discriminate. apply IH in L. simp. congruence.
    - destruct (r_fp r0); [|discriminate]. destruct (_ && _); [discriminate|]. destruct (dtls_loop C PAST f r0 just) as [[[? ?] ?]| |] eqn:L; cbn [bind] in H; try discriminate. eapply IH; exact L.
    - destruct (dtls_loop C PAST f _ just) as [[[? ?] ?]| |] eqn:L; cbn [bind] in H; try discriminate. apply IH in L. simp. exact L.
    - discriminate.
    - destruct (start_close C r0) as [[? ?] ?]. discriminate.
    - discriminate. }
  assert (forall f r, ice_loop C f r <> Panic) as IP.
  { clear. induction f as [|f IH]; intros r H; cbn [ice_loop] in H; [discriminate|]. destruct (c_ice_event C (r_w r)) as [[[| | |]|] w]; try discriminate; try (exact (IH _ H)).
    destruct (ice_loop C f _) as [[[? ?] ?]| |] eqn:L; cbn [bind] in H; try discriminate. exact (IH _ L). }
  assert (forall f r, sctp_loop C f r <> Panic) as SP.
  { clear. induction f as [|f IH]; intros r H; cbn [sctp_loop] in H; [discriminate|]. destruct (c_sctp_poll C (r_w r)) as [[[[|p rest]| | |]|] w]; try discriminate; try (exact (IH _ H)).
    - simp. destruct (c_dtls_send C w p) as [[| |] w1]; try discriminate. destruct (r_st r); discriminate.
    - destruct (start_close C _) as [[? ?] ?]. discriminate. }
  assert (forall f r, poll_output C NEVER PAST f r = Panic -> r_active r = None) as PP.
  { induction f as [|f IH]; intros r0 H; cbn [poll_output] in H; [discriminate|]. destruct (r_st r0) eqn:ST0; [| |discriminate].
    all: destruct (ice_loop C f r0) as [[[r1 o1] t1]| |] eqn:L1; cbn [bind] in H; try discriminate; [|exfalso; exact (IP _ _ L1)];
      apply ice_loop_stage in L1 as (S1 & E1 & _ & _ & O1); rewrite <- (g_act _ _ _ _ S1); destruct O1 as [-> |(s & ->)]; [|discriminate];
      assert (r_st r1 <> Closed) as NC1 by congruence;
      destruct (dtls_tick C r1) as [[r2 o2] t2] eqn:L2; apply dtls_tick_stage in L2 as (S2 & _ & O2); [|exact NC1]; rewrite <- (g_act _ _ _ _ S2);
      destruct O2 as [(-> & E2)|(-> & _)]; [|discriminate]; assert (r_st r2 <> Closed) as NC2 by congruence;
      destruct (dtls_loop C PAST f r2 false) as [[[r3 o3] t3]| |] eqn:L3; cbn [bind] in H; try discriminate; [|exact (DP _ _ _ L3)];
      apply dtls_loop_stage in L3 as (S3 & O3); [|exact NC2|discriminate]; rewrite <- (g_act _ _ _ _ S3);
      destruct O3 as [(-> & E3 & _)|[(-> & _)|[(-> & _)| ->]]]; try discriminate; assert (r_st r3 <> Closed) as NC3 by congruence;
      destruct (sctp_loop C f r3) as [[[r4 o4] t4]| |] eqn:L4; cbn [bind] in H; try discriminate; [|exfalso; exact (SP _ _ L4)];
      apply sctp_loop_stage in L4 as (S4 & _ & O4); [|exact NC3]; rewrite <- (g_act _ _ _ _ S4);
      destruct o4 as [|y4|]; [|discriminate|];
      [destruct (events C r4) as [r5 o5]; destruct o5; try discriminate; destruct (transmit C r5) as [[r6 o6] t6]; destruct o6; try discriminate; destruct (timeouts C NEVER r6); discriminate
       |destruct (poll_output C NEVER PAST f r4) as [[[r5 y5] t5]| |] eqn:L5; cbn [bind] in H; try discriminate; exact (IH _ L5)]. }
  destruct (poll_output C NEVER PAST fuel r) as [[[r' y] t]| |] eqn:PO; cbn [bind] in S; try discriminate. exact (PP _ _ PO).
Qed.
Print Assumptions C51_no_panic.

(** ** C52 *)

(** A dead Rtc stays dead and inert: polls give a timeout in the distant future, and no component is
    called. *)
Theorem C52_dead_is_final : forall W (C : comps W) NEVER PAST w v start os r h os' r' h',
  run C NEVER PAST (rtc0 w v start) os = Ok (r, h) -> is_alive r = false -> run C NEVER PAST r os' = Ok (r', h') ->
  is_alive r' = false /\ Forall (fun p => (o_out (snd p) = None \/ o_out (snd p) = Some (YTimeout NEVER R_NOT)) /\
    (o_acts (snd p) = [] \/ exists b, fst p = QInit b)) h'.
Proof.
  intros W C NEVER PAST w v start os r h os' r' h' _ D R. assert (r_st r = Closed) as ST by (unfold is_alive in D; destruct (r_st r); congruence). clear D.
  revert r r' h' ST R. induction os' as [|o os' IH]; intros r r' h' ST R; cbn [run] in R.
  - injection R as <- <-. unfold is_alive. rewrite ST. auto.
  - destruct (step C NEVER PAST r o) as [x| |] eqn:S; try discriminate. cbn [bind] in R. destruct (run C NEVER PAST (o_r x) os') as [[r1 h1]| |] eqn:R1; try discriminate. cbn [bind] in R. injection R as <- <-.
    apply step_cases in S as [(fuel & y & -> & NC & _)|P]; [congruence|]. destruct (p_closed _ _ _ _ P ST) as (C1 & C2 & _).
    destruct (IH _ _ _ C1 R1) as [A F]. split; [exact A|]. constructor; [|exact F]. cbn [fst snd]. split.
    + destruct (p_out _ _ _ _ P) as [-> |(_ & ->)]; auto.
    + destruct (o_acts x) as [|a t] eqn:T; [auto|]. right. destruct (C2 a (or_introl eq_refl)) as [_ X]. exact X.
Qed.
Print Assumptions C52_dead_is_final.

(** From a successful close(), or the Closed event, on: the application's handles are gone for good, and each timeout
    from poll_output means: dead exactly if the DTLS engine is closed, the RTP session has said goodbye and
    no DTLS packet is left to send; the last is so if ICE has nominated an address. *)
Theorem C52_close : forall W (C : comps W) NEVER PAST w v start os r h,
  run C NEVER PAST (rtc0 w v start) os = Ok (r, h) -> (exists p, In p h /\ close_seen p) ->
  usable r = false /\
  forall o x t k, step C NEVER PAST r o = Ok x -> o_out x = Some (YTimeout t k) -> is_alive r = true ->
    (r_send (o_r x) <> None -> r_pend (o_r x) = []) /\
    (is_alive (o_r x) = false <-> c_dtls_closed C (r_w (o_r x)) = true /\ c_ses_closed C (r_w (o_r x)) = true /\ r_pend (o_r x) = []) /\
    (is_alive (o_r x) = false -> t = NEVER).
Proof.
  intros W C NEVER PAST w v start os r h R CS. pose proof (run_inv0 C NEVER PAST _ _ _ _ _ _ R) as I. destruct (i_close _ _ _ _ I CS) as [NA CC].
  split; [unfold usable; destruct (r_st r); congruence|]. intros o x t k S OX AL. assert (r_st r <> Closed) as NC by (unfold is_alive in AL; destruct (r_st r); congruence).
  pose proof (inv_step C NEVER PAST _ _ _ _ _ _ I S) as I'.
  assert (exists p, In p (h ++ [(o, x)]) /\ close_seen p) as CS' by (destruct CS as (p & IP & Q); exists p; split; [apply in_or_app; auto|exact Q]).
  destruct (i_close _ _ _ _ I' CS') as [NA' CC'].
  apply step_cases in S as [(fuel & y & -> & _ & OY & (S & Y) & OK)|P]; [|destruct (p_out _ _ _ _ P) as [Q|(Q & _)]; congruence].
  rewrite OX in OY. injection OY as <-. destruct Y as [(Y1 & -> & -> & Y4 & Y5 & Y6 & Y7 & _)|(Y1 & Y2 & Y3 & Y4)].
  - rewrite Y5. unfold is_alive. rewrite Y1. repeat split; auto.
  - assert (r_st (o_r x) = Closing) as ST by (destruct (r_st (o_r x)); congruence). specialize (Y2 ST). split; [intro K; destruct Y3; congruence|].
    unfold is_alive. rewrite ST. split; [|discriminate]. split; [discriminate|]. intros (K1 & K2 & K3). exfalso. destruct CC' as [CC'|CC']; [congruence|].
    unfold drain_complete in Y2. rewrite CC', K1, K2, K3 in Y2. discriminate.
Qed.
Print Assumptions C52_close.

(** The Rtc dies only so: disconnect(), an error from poll_output (bad certificate, DTLS timer), or the
    end of the shutdown above. *)
Theorem C52_death : forall W (C : comps W) NEVER PAST w v start os r h o x,
  run C NEVER PAST (rtc0 w v start) os = Ok (r, h) -> step C NEVER PAST r o = Ok x -> is_alive r = true -> is_alive (o_r x) = false ->
  o = QDisconnect \/ o_out x = Some YErr \/
  (usable r = false /\ o_out x = Some (YTimeout NEVER R_NOT) /\ r_pend (o_r x) = [] /\ c_dtls_closed C (r_w (o_r x)) = true /\ c_ses_closed C (r_w (o_r x)) = true).
Proof.
  intros W C NEVER PAST w v start os r h o x R S AL D. assert (r_st (o_r x) = Closed) as ST by (unfold is_alive in D; destruct (r_st (o_r x)); congruence).
  assert (r_st r <> Closed) as NC by (unfold is_alive in AL; destruct (r_st r); congruence).
  apply step_cases in S as [(fuel & y & -> & _ & OY & (S & Y) & OK)|P].
  - rewrite OY. destruct y as [[| | | | |]| | |t k|]; try congruence; auto.
    + exfalso. destruct Y. congruence.
    + exfalso. destruct Y. congruence.
    + exfalso. destruct Y as (_ & _ & Y). congruence.
    + destruct Y as [(_ & -> & -> & _ & Y5 & Y6 & Y7 & Y8)|(Y & _)]; [|congruence]. right. right. unfold usable. rewrite Y8. auto.
  - destruct (p_to_closed _ _ _ _ P ST); [congruence|auto].
Qed.
Print Assumptions C52_death.

(** ** C53 *)

(** The components' clocks never go back, and poll_output never asks to be called before the present:
    the present being the latest time handed in (while alive). *)
Theorem C53_time_goes_forward : forall W (C : comps W) NEVER PAST w v start os r h,
  run C NEVER PAST (rtc0 w v start) os = Ok (r, h) -> ascending (start :: ticks (acts h)) /\
  forall o x t k, step C NEVER PAST r o = Ok x -> o_out x = Some (YTimeout t k) -> is_alive (o_r x) = true -> forall n, In n (start :: ticks (acts h)) -> n <= t.
Proof.
  intros W C NEVER PAST w v start os r h R. pose proof (run_inv0 C NEVER PAST _ _ _ _ _ _ R) as I.
  assert (forall n, In n (ticks (acts h)) -> start <= n) as LO.
  { clear - R. assert (forall os r h r' h', run C NEVER PAST r os = Ok (r', h') -> inv v start r h -> forall n, In n (ticks (acts h')) -> r_now r <= n) as G.
    { clear. induction os as [|o os IH]; intros r h r' h' R I n K; cbn [run] in R; [injection R as <- <-; destruct K|].
      destruct (step C NEVER PAST r o) as [x| |] eqn:S; try discriminate. cbn [bind] in R. destruct (run C NEVER PAST (o_r x) os) as [[r1 h1]| |] eqn:R1; try discriminate. cbn [bind] in R. injection R as <- <-.
      cbn in K. unfold acts in K. cbn in K. fold (acts h1) in K. rewrite ticks_app in K. pose proof (inv_step C NEVER PAST _ _ _ _ _ _ I S) as I'.
      apply step_cases in S as [(fuel & y & -> & _ & OY & (S & Y) & OK)|P].
      - apply in_app_or in K as [K|K]; [rewrite (g_tick _ _ _ _ S) in K; destruct K|]. specialize (IH _ _ _ _ R1 I' n K). rewrite (g_now _ _ _ _ S) in IH. exact IH.
      - apply in_app_or in K as [K|K].
        + destruct (p_now _ _ _ _ P) as [(_ & E)|(_ & L & T & _)]; [rewrite E in K; destruct K|]. apply T in K. lia.
        + specialize (IH _ _ _ _ R1 I' n K). destruct (p_now _ _ _ _ P) as [(E & _)|(_ & L & _)]; lia. }
    intros n K. exact (G _ _ _ _ _ R (inv0 w v start) n K). }
  split; [split; [exact LO|apply (i_asc _ _ _ _ I)]|]. intros o x t k S OX AL n K.
  assert (n <= r_now r) as NR by (destruct K as [<-|K]; [apply (i_now _ _ _ _ I)|exact (i_tick _ _ _ _ I n K)]).
  apply step_cases in S as [(fuel & y & -> & _ & OY & (S & Y) & OK)|P].
  - rewrite OX in OY. injection OY as <-. destruct Y as [(Y & _)|(_ & _ & _ & (WU & _))]; [unfold is_alive in AL; rewrite Y in AL; discriminate|]. lia.
  - destruct (p_out _ _ _ _ P) as [Q|(Q & _)]; [congruence|]. destruct (p_closed _ _ _ _ P Q) as (C1 & _). unfold is_alive in AL. rewrite C1 in AL. discriminate.
Qed.
Print Assumptions C53_time_goes_forward.

(** The timeout is the first instant any component wants to be called at (the present, if that is over),
    and the reason names that component. *)
Theorem C53_soonest : forall W (C : comps W) NEVER PAST w v start os r h o x t k,
  run C NEVER PAST (rtc0 w v start) os = Ok (r, h) -> step C NEVER PAST r o = Ok x -> o_out x = Some (YTimeout t k) -> is_alive (o_r x) = true ->
  wake_up (last (ticks (acts h)) start) NEVER (wanted C (o_r x)) t k.
Proof.
  intros W C NEVER PAST w v start os r h o x t k R S OX AL. pose proof (run_inv0 C NEVER PAST _ _ _ _ _ _ R) as I.
  assert (r_now r = last (ticks (acts h)) start) as <-.
  { destruct I as [_ _ _ _ _ _ _ I8 I9 I10 I11 _ _ _]. destruct (ticks (acts h)) as [|z l] eqn:T using rev_ind; [destruct I11 as [->|[]]; reflexivity|]. clear IHl. rewrite last_last.
    assert (forall a l, ascending (l ++ [a]) -> forall u, In u l -> u <= a) as ASC by (clear; intros a l; induction l as [|b l IH]; intros A u K; [destruct K|]; cbn in A; destruct A as [A1 A2]; destruct K as [<-|K]; [apply A1; apply in_or_app; right; left; reflexivity|exact (IH A2 u K)]).
    assert (z <= r_now r) as L1 by (apply I9; apply in_or_app; right; left; reflexivity).
    destruct I11 as [E|K]; [|apply in_app_or in K as [K|[K|[]]]; [specialize (ASC _ _ I10 _ K); lia|congruence]].
    destruct (C53_time_goes_forward W C NEVER PAST w v start os r h R) as [[LO _] _]. specialize (LO z). rewrite T in LO. assert (start <= z) by (apply LO; apply in_or_app; right; left; reflexivity). lia. }
  apply step_cases in S as [(fuel & y & -> & _ & OY & (S & Y) & OK)|P].
  - rewrite OX in OY. injection OY as <-. destruct Y as [(Y & _)|(_ & _ & _ & WU)]; [unfold is_alive in AL; rewrite Y in AL; discriminate|]. exact WU.
  - destruct (p_out _ _ _ _ P) as [Q|(Q & _)]; [congruence|]. destruct (p_closed _ _ _ _ P Q) as (C1 & _). unfold is_alive in AL. rewrite C1 in AL. discriminate.
Qed.
Print Assumptions C53_soonest.

(** The promise of close() ("Once the drain is complete, is_alive() returns false") needs ICE: while the
    DTLS engine has put out a packet that is not sent and no address was ever nominated, no run of polls and inputs ends
    the shutdown, however long. Only disconnect(), an error from poll_output or a nomination do. *)
Theorem C52_close_waits_for_ice : forall W (C : comps W) NEVER PAST w v start os r h os' r' h',
  run C NEVER PAST (rtc0 w v start) os = Ok (r, h) -> is_alive r = true -> made (acts h) <> sent (acts h) ->
  run C NEVER PAST r os' = Ok (r', h') ->
  nominated None (acts (h ++ h')) = None -> ~ In QDisconnect os' -> ~ In YErr (outputs h') ->
  is_alive r' = true /\ sent (acts (h ++ h')) = [].
Proof.
  intros W C NEVER PAST w v start os r h os' r' h' R AL MS R' NM ND NE.
  pose proof (run_inv0 C NEVER PAST _ _ _ _ _ _ R) as I.
  assert (r_pend r <> []) as RP by (intro K; apply MS; rewrite (i_pend _ _ _ _ I), K; apply app_nil_r).
  pose proof (run_inv C NEVER PAST v start _ _ _ _ _ I R') as I2. assert (r_send r' = None) as SN by (rewrite (i_send _ _ _ _ I2); exact NM).
  assert (forall os r h, run C NEVER PAST (rtc0 w v start) os = Ok (r, h) -> r_send r = None -> sent (acts h) = []) as SE.
  { clear. intros os r h R. remember (rtc0 w v start) as r0. assert (forall os ra ha r h, inv v start ra ha -> run C NEVER PAST ra os = Ok (r, h) -> r_send r = None -> sent (acts h) = []) as G.
    { clear. induction os as [|o os IH]; intros ra ha r h I R N; cbn [run] in R; [injection R as <- <-; reflexivity|].
      destruct (step C NEVER PAST ra o) as [x| |] eqn:S; try discriminate. cbn [bind] in R. destruct (run C NEVER PAST (o_r x) os) as [[r1 h1]| |] eqn:R1; try discriminate. cbn [bind] in R. injection R as <- <-.
      pose proof (inv_step C NEVER PAST _ _ _ _ _ _ I S) as I'. pose proof (run_inv C NEVER PAST v start _ _ _ _ _ I' R1) as I2.
      assert (r_send (o_r x) = None) as NX by (rewrite (i_send _ _ _ _ I2), acts_app, nominated_app in N; apply nominated_none in N; rewrite (i_send _ _ _ _ I'); exact N).
      change (acts ((o, x) :: h1)) with (o_acts x ++ acts h1). rewrite sent_app, (IH _ _ _ _ I' R1 N), app_nil_r.
      apply step_cases in S as [(fuel & y & -> & _ & OY & (S & Y) & OK)|P]; [exact (g_sent _ _ _ _ S NX)|]. destruct (called_facts _ _ _ (p_called _ _ _ _ P)) as (_ & _ & Q & _). exact Q. }
    subst r0. exact (G _ _ _ _ _ (inv0 w v start) R). }
  split.
  - clear SE I2 MS NM. revert r h I AL RP r' h' R' ND NE SN R. revert os. induction os' as [|o os' IH]; intros os r h I AL RP r' h' R' ND NE SN R; cbn [run] in R'; [injection R' as <- <-; exact AL|].
    destruct (step C NEVER PAST r o) as [x| |] eqn:S; try discriminate. cbn [bind] in R'. destruct (run C NEVER PAST (o_r x) os') as [[r1 h1]| |] eqn:R1; try discriminate. cbn [bind] in R'. injection R' as <- <-.
    pose proof (inv_step C NEVER PAST _ _ _ _ _ _ I S) as I'. pose proof (run_inv C NEVER PAST v start _ _ _ _ _ I' R1) as I2.
    assert (r_send (o_r x) = None) as NX by (pose proof SN as N; rewrite (i_send _ _ _ _ I2), acts_app, nominated_app in N; apply nominated_none in N; rewrite (i_send _ _ _ _ I'); exact N).
    assert (r_pend (o_r x) <> []) as PX.
    { pose proof S as S0. apply step_cases in S0 as [(fuel & y & -> & _ & OY & (S0 & Y) & OK)|P]; [|rewrite (k_pend _ _ _ (p_called _ _ _ _ P)); exact RP].
      pose proof (g_pend _ _ _ _ S0) as GP. rewrite (g_sent _ _ _ _ S0 NX) in GP. cbn in GP. rewrite <- GP. destruct (r_pend r); [congruence|discriminate]. }
    assert (run C NEVER PAST (rtc0 w v start) (os ++ [o]) = Ok (o_r x, h ++ [(o, x)])) as RX.
    { clear - R S. revert R. generalize (rtc0 w v start) as ra. revert h. induction os as [|b os IH]; intros h ra R; cbn [run app] in *; [injection R as <- <-; rewrite S; reflexivity|].
      destruct (step C NEVER PAST ra b) as [y| |]; try discriminate. cbn [bind] in *. destruct (run C NEVER PAST (o_r y) os) as [[r1 h1]| |] eqn:R1; try discriminate. cbn [bind] in R. injection R as -> <-. rewrite (IH _ _ R1). reflexivity. }
    eapply (IH _ _ _ I'); eauto; try (intro K; first [apply ND; right; exact K|apply NE; unfold outputs; cbn; apply in_or_app; right; exact K]).
    destruct (is_alive (o_r x)) eqn:AX; [reflexivity|]. exfalso. destruct (C52_death _ _ _ _ _ _ _ _ _ _ _ _ R S AL AX) as [-> |[Q|(_ & _ & Q & _)]]; [apply ND; left; reflexivity| |exact (PX Q)].
    apply NE. unfold outputs. cbn. rewrite Q. left. reflexivity.
  - assert (exists osa, run C NEVER PAST (rtc0 w v start) osa = Ok (r', h ++ h')) as (osa & RA).
    { exists (os ++ os'). clear - R R'. revert R. generalize (rtc0 w v start) as ra. revert h. induction os as [|b os IH]; intros h ra R; cbn [run app] in *; [injection R as <- <-; exact R'|].
      destruct (step C NEVER PAST ra b) as [y| |]; try discriminate. cbn [bind] in *. destruct (run C NEVER PAST (o_r y) os) as [[r1 h1]| |] eqn:R1; try discriminate. cbn [bind] in R. injection R as -> <-. rewrite (IH _ _ R1). reflexivity. }
    exact (SE _ _ _ RA SN).
Qed.
Print Assumptions C52_close_waits_for_ice.

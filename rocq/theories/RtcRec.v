(** The ghost list of RtcModel is what the components were really asked and what they gave: the same
    components with a recorder put in front of them record the same list. *)
From Verif Require Import Base BaseFacts RtcModel RtcSpec RtcProps.

(** The components [C], with a tape. Recorded: each call that hands them a datagram, data, keys or the
    time; each DTLS close that succeeded; each packet and certificate taken from the DTLS engine, each nomination taken
    from ICE, each datagram taken from the session. *)
Definition rec {W} (C : comps W) : comps (W * list act) :=
  let put (x : W * list act) (w : W) (t : list act) := (w, snd x ++ t) in
  mkC
  (fun x => let (e, w) := c_ice_event C (fst x) in (e, put x w (match e with Some (INominated a) => [ANominated a] | _ => [] end)))
  (fun x => let (e, w) := c_ice_transmit C (fst x) in (e, put x w []))
  (fun x => c_ice_timeout C (fst x))
  (fun x => let (o, w) := c_dtls_poll C (fst x) in
     (o, put x w (match o with DPacket p => [APacket p] | DCert der => [ACert (mkFp SHA256 (c_sha256 C der)) None] | _ => [] end)))
  (fun x n => let (ok, w) := c_dtls_timeout C (fst x) n in (ok, put x w [ADtlsTick n]))
  (fun x p => let (ok, w) := c_dtls_recv C (fst x) p in (ok, put x w [ADtlsRecv p]))
  (fun x p => let (o, w) := c_dtls_send C (fst x) p in (o, put x w (match o with DsOk => [ADtlsSend p true] | _ => [] end)))
  (fun x => let (ok, w) := c_dtls_close C (fst x) in (ok, put x w (if ok then [AShut] else [])))
  (fun x => c_dtls_closed C (fst x))
  (fun x b => put x (c_dtls_active C (fst x) b) [])
  (c_sha256 C)
  (fun x => let (e, w) := c_sctp_poll C (fst x) in (e, put x w []))
  (fun x n d => put x (c_sctp_input C (fst x) n d) [AData n d])
  (fun x l => put x (c_sctp_push C (fst x) l) [])
  (fun x => put x (c_sctp_lost C (fst x)) [])
  (fun x => let (ok, w) := c_sctp_close C (fst x) in (ok, put x w []))
  (fun x => c_sctp_timeout C (fst x)) (fun x => c_chan_timeout C (fst x))
  (fun x => let (e, w) := c_ses_event C (fst x) in (e, put x w []))
  (fun x => let (e, w) := c_ses_fallible C (fst x) in (e, put x w []))
  (fun x n => let (p, w) := c_ses_datagram C (fst x) n in (p, put x w (match p with Some q => [ASendSes q] | None => [] end)))
  (fun x => put x (c_ses_clear C (fst x)) [])
  (fun x km a => put x (c_ses_keys C (fst x) km a) [AKeys km a])
  (fun x => put x (c_ses_close C (fst x)) [])
  (fun x => c_ses_closed C (fst x)) (fun x => c_ses_timeout C (fst x))
  (fun x => let (e, w) := c_stats_event C (fst x) in (e, put x w []))
  (fun x => c_stats_timeout C (fst x))
  (fun s x n => let (ok, w) := c_tick C s (fst x) n in (ok, put x w [ATick s n]))
  (fun s x n p => put x (c_recv C s (fst x) n p) [ARecv s n p])
  (fun x n p => put x (c_recv_rtcp C (fst x) n p) [ARtcp n p]).

(** What of the ghost list the components can know: not the expected fingerprint, that DTLS came up
    for the first time, sending a DTLS packet, data DTLS refused. *)
Definition told (t : list act) : list act :=
  flat_map (fun a => match a with ACert s _ => [ACert s None] | AUp | ASendDtls _ | ADtlsSend _ false => [] | _ => [a] end) t.

Section Rec.
Context {W : Type} (C : comps W) (NEVER PAST : Z).
Notation R := (rec C).
Notation rtcR := (rtc (W * list act)).
Definition tape (r : rtcR) : list act := snd (r_w r).

Lemma told_app a b : told (a ++ b) = told a ++ told b. Proof. apply flat_map_app. Qed.
Definition grows (r r' : rtcR) (t : list act) : Prop := tape r' = tape r ++ told t.
Lemma grows_refl (r r' : rtcR) : tape r' = tape r -> grows r r' []. Proof. unfold grows. intro E. rewrite E. cbn. rewrite app_nil_r. reflexivity. Qed.
Lemma grows_trans (r1 r2 r3 : rtcR) a b : grows r1 r2 a -> grows r2 r3 b -> grows r1 r3 (a ++ b).
Proof. unfold grows. intros H1 H2. rewrite told_app, app_assoc, <- H1. exact H2. Qed.
Ltac rc := unfold grows, told, tape, set_w, set_st, set_dto, set_conn, set_fp, set_addrs, set_send, set_now, set_cstart, set_pend, set_active, disconnect in *;
  cbn [r_st r_w r_dto r_conn r_fp r_verify r_addrs r_send r_now r_cstart r_pend r_active fst snd flat_map app rec c_ses_keys c_sctp_input c_sctp_push c_sctp_lost c_ses_clear c_ses_close c_dtls_active] in *; rewrite ?app_nil_r, <- ?app_assoc; cbn [app]; auto.

Lemma dtls_close_rec r ok r' t : start_dtls_close R r = (ok, r', t) -> grows r r' t.
Proof.
  unfold start_dtls_close. destruct (r_cstart r); [intro H; injection H as <- <- <-; rc|].
  cbn [rec c_dtls_close]. destruct (c_dtls_close C (fst (r_w r))) as [[|] w]; intro H; injection H as <- <- <-; rc.
Qed.
Lemma close_rec r ok r' t : start_close R r = (ok, r', t) -> grows r r' t.
Proof.
  unfold start_close. destruct (r_st r); [|apply dtls_close_rec|intro H; injection H as <- <- <-; rc].
  cbn [rec c_sctp_close c_ses_close fst]. destruct (c_sctp_close C _) as [[|] w]; intro H.
  - apply dtls_close_rec in H. unfold grows in *. rewrite H. rc.
  - injection H as <- <- <-. rc.
Qed.
Lemma ice_rec : forall f r r' o t, ice_loop R f r = Ok (r', o, t) -> grows r r' t.
Proof.
  induction f as [|f IH]; intros r r' o t H; cbn [ice_loop] in H; [discriminate|]. cbn [rec c_ice_event] in H.
  destruct (c_ice_event C (fst (r_w r))) as [[[|s|a|a]|] w]; try (injection H as <- <- <-; rc).
  - apply IH in H. unfold grows in *. rewrite H. rc.
  - apply IH in H. unfold grows in *. rewrite H. rc.
  - destruct (ice_loop R f _) as [[[r1 o1] t1]| |] eqn:L; try discriminate. cbn [bind] in H. injection H as <- <- <-. apply IH in L. unfold grows in *. rewrite L. rc.
Qed.
Lemma tick_rec r r' o t : dtls_tick R r = (r', o, t) -> grows r r' t.
Proof.
  unfold dtls_tick. destruct (r_dto r) as [d|]; [|intro H; injection H as <- <- <-; rc]. destruct (d <=? r_now r); [|intro H; injection H as <- <- <-; rc].
  cbn [rec c_dtls_timeout]. destruct (c_dtls_timeout C _ _) as [[|] w]; intro H; injection H as <- <- <-; rc.
Qed.
Lemma loop_rec : forall f r j r' o t, dtls_loop R PAST f r j = Ok (r', o, t) -> grows r r' t.
Proof.
  induction f as [|f IH]; intros r j r' o t H; cbn [dtls_loop] in H; [discriminate|]. unfold dtls_poll in H. cbn [rec c_dtls_poll] in H.
  destruct (c_dtls_poll C (fst (r_w r))) as [[p| |km|der|d|d| |] w]; cbv beta iota zeta in H; try (injection H as <- <- <-; rc; fail).
  - unfold set_w at 1 in H. cbn [r_conn] in H. destruct (r_conn r).
    + apply IH in H. unfold grows in *. rewrite H. rc.
    + destruct (dtls_loop R PAST f _ true) as [[[r1 o1] t1]| |] eqn:L; try discriminate. cbn [bind] in H. injection H as <- <- <-. apply IH in L. unfold grows in *. rewrite L. rc.
  - unfold set_w at 1 in H. cbn [r_active] in H. destruct (r_active r) as [a|]; [|discriminate].
    destruct (dtls_loop R PAST f _ j) as [[[r1 o1] t1]| |] eqn:L; try discriminate. cbn [bind] in H. injection H as <- <- <-. apply IH in L. unfold grows in *. rewrite L. rc.
  - unfold set_w at 1 in H. cbn [r_fp] in H. destruct (r_fp r) as [e|]; [|injection H as <- <- <-; rc]. destruct (_ && _); [injection H as <- <- <-; rc|].
    destruct (dtls_loop R PAST f _ j) as [[[r1 o1] t1]| |] eqn:L; try discriminate. cbn [bind] in H. injection H as <- <- <-. apply IH in L. unfold grows in *. rewrite L. rc.
  - destruct (dtls_loop R PAST f _ j) as [[[r1 o1] t1]| |] eqn:L; try discriminate. cbn [bind] in H. injection H as <- <- <-. apply IH in L. unfold grows in *. rewrite L. rc.
  - destruct (start_close R _) as [[ok r1] t1] eqn:L. injection H as <- <- <-. apply close_rec in L. unfold grows in *. rewrite L. rc.
Qed.
Lemma sctp_rec : forall f r r' o t, sctp_loop R f r = Ok (r', o, t) -> grows r r' t.
Proof.
  induction f as [|f IH]; intros r r' o t H; cbn [sctp_loop] in H; [discriminate|]. cbn [rec c_sctp_poll] in H.
  destruct (c_sctp_poll C (fst (r_w r))) as [[[[|p rest]| |e|]|] w]; try (injection H as <- <- <-; rc; fail).
  - apply IH in H. unfold grows in *. rewrite H. rc.
  - unfold set_w at 1 in H. cbn [r_w rec c_dtls_send] in H. unfold set_w at 1 in H. cbn [r_w fst] in H. destruct (c_dtls_send C w p) as [[| |] w1].
    + injection H as <- <- <-. destruct rest; cbn [rec c_sctp_push]; rc.
    + injection H as <- <- <-. cbn [rec c_sctp_push]; rc.
    + unfold set_w at 1 in H. cbn [r_st] in H. destruct (r_st r); injection H as <- <- <-; try (rc; fail). destruct rest; cbn [rec c_sctp_push]; rc.
  - destruct (start_close R _) as [[ok r1] t1] eqn:L. injection H as <- <- <-. apply close_rec in L. unfold grows in *. rewrite L. cbn [rec c_sctp_lost]. rc.
  - apply IH in H. unfold grows in *. rewrite H. rc.
Qed.
Lemma events_rec r r' o : events R r = (r', o) -> grows r r' [].
Proof.
  unfold events. cbn [rec c_ses_event]. destruct (c_ses_event C _) as [[e|] w]; [intro H; injection H as <- <-; rc|].
  cbn [rec c_ses_fallible fst snd]. destruct (c_ses_fallible C w) as [[[e|]|] w1]; [intro H; injection H as <- <-; rc| |intro H; injection H as <- <-; rc].
  cbn [rec c_stats_event fst snd]. destruct (c_stats_event C w1) as [[e|] w2]; intro H; injection H as <- <-; rc.
Qed.
Lemma transmit_rec r r' o t : transmit R r = (r', o, t) -> grows r r' t.
Proof.
  unfold transmit. cbn [rec c_ice_transmit]. destruct (c_ice_transmit C _) as [[p|] w]; [intro H; injection H as <- <- <-; rc|].
  unfold set_w at 1. cbn [r_send]. destruct (r_send r) as [a|].
  - unfold set_w at 1. cbn [r_pend]. destruct (r_pend r) as [|p rest]; [|intro H; injection H as <- <- <-; rc].
    unfold set_w at 1. cbn [r_w rec c_ses_datagram fst snd]. destruct (c_ses_datagram C w _) as [[p|] w1]; intro H; injection H as <- <- <-; rc.
  - intro H; injection H as <- <- <-. cbn [rec c_ses_clear]. rc.
Qed.
Lemma timeouts_rec r r' y : timeouts R NEVER r = (r', y) -> grows r r' [].
Proof. unfold timeouts. destruct (r_st r); [intro H; injection H as <- <-; rc| |intro H; injection H as <- <-; rc]. destruct (drain_complete R r); intro H; injection H as <- <-; rc. Qed.
Lemma poll_rec : forall f r r' y t, poll_output R NEVER PAST f r = Ok (r', y, t) -> grows r r' t.
Proof.
  induction f as [|f IH]; intros r r' y t H; cbn [poll_output] in H; [discriminate|]. destruct (r_st r); [| |injection H as <- <- <-; rc].
  all: destruct (ice_loop R f r) as [[[r1 o1] t1]| |] eqn:L1; try discriminate; cbn [bind] in H; apply ice_rec in L1.
  all: destruct o1; try (injection H as <- <- <-; exact L1).
  all: destruct (dtls_tick R r1) as [[r2 o2] t2] eqn:L2; apply tick_rec in L2; pose proof (grows_trans _ _ _ _ _ L1 L2) as G2.
  all: destruct o2; try (injection H as <- <- <-; exact G2).
  all: destruct (dtls_loop R PAST f r2 false) as [[[r3 o3] t3]| |] eqn:L3; try discriminate; cbn [bind] in H; apply loop_rec in L3; pose proof (grows_trans _ _ _ _ _ G2 L3) as G3.
  all: destruct o3; try (injection H as <- <- <-; rewrite app_assoc; exact G3).
  all: destruct (sctp_loop R f r3) as [[[r4 o4] t4]| |] eqn:L4; try discriminate; cbn [bind] in H; apply sctp_rec in L4; pose proof (grows_trans _ _ _ _ _ G3 L4) as G4.
  all: destruct o4; try (injection H as <- <- <-; rewrite !app_assoc; exact G4).
  all: try (destruct (poll_output R NEVER PAST f r4) as [[[r5 y5] t5]| |] eqn:L5; try discriminate; cbn [bind] in H; injection H as <- <- <-; apply IH in L5; rewrite !app_assoc; exact (grows_trans _ _ _ _ _ G4 L5)).
  all: destruct (events R r4) as [r5 o5] eqn:L5; apply events_rec in L5; pose proof (grows_trans _ _ _ _ _ G4 L5) as G5; rewrite app_nil_r in G5.
  all: destruct o5; try (injection H as <- <- <-; rewrite !app_assoc; exact G5).
  all: destruct (transmit R r5) as [[r6 o6] t6] eqn:L6; apply transmit_rec in L6; pose proof (grows_trans _ _ _ _ _ G5 L6) as G6.
  all: destruct o6; try (injection H as <- <- <-; rewrite !app_assoc; exact G6).
  all: destruct (timeouts R NEVER r6) as [r7 y7] eqn:L7; apply timeouts_rec in L7; pose proof (grows_trans _ _ _ _ _ G6 L7) as G7; rewrite app_nil_r in G7.
  all: injection H as <- <- <-; rewrite !app_assoc; exact G7.
Qed.
Lemma timeout_rec r now ok r' t : do_handle_timeout R r now = (ok, r', t) -> grows r r' t.
Proof.
  unfold do_handle_timeout. destruct (now <? r_now r); [intro H; injection H as <- <- <-; rc|]. cbn [rec c_tick].
  unfold set_now at 1. cbn [r_w]. destruct (c_tick C ToIce _ now) as [k1 w1]. cbn [fst snd]. destruct (c_tick C ToSctp w1 now) as [k2 w2]. cbn [fst snd].
  destruct (c_tick C ToChan w2 now) as [k3 w3]. cbn [fst snd]. destruct (c_tick C ToSession w3 now) as [[|] w4]; cbn [fst snd].
  - destruct (c_tick C ToStats w4 now) as [k5 w5]. cbn [fst snd]. intro H; injection H as <- <- <-. rc.
  - intro H; injection H as <- <- <-. rc.
Qed.
Lemma receive_rec r now g ok r' t : do_handle_receive R r now g = (ok, r', t) -> grows r r' t.
Proof.
  destruct g as [m|p|p|p]; cbn [do_handle_receive rec c_recv c_recv_rtcp c_dtls_recv]; try (intro H; injection H as <- <- <-; rc).
  destruct (r_active r); [|intro H; injection H as <- <- <-; rc]. destruct (c_dtls_recv C _ p) as [k w]. intro H; injection H as <- <- <-. rc.
Qed.
Lemma init_rec r a ok r' t : init_dtls R r a = (ok, r', t) -> grows r r' t.
Proof.
  unfold init_dtls. destruct (r_active r); [intro H; injection H as <- <- <-; rc|]. cbn [rec c_dtls_active c_dtls_timeout c_dtls_recv]. unfold set_active at 1, set_w at 1. cbn [r_w fst snd].
  unfold set_active at 1, set_w at 1. cbn [r_now]. destruct (c_dtls_timeout C _ _) as [[|] w].
  - destruct a; [|intro H; injection H as <- <- <-; rc]. cbn [fst snd]. destruct (c_dtls_recv C w []) as [k w2]. intro H; injection H as <- <- <-. rc.
  - intro H; injection H as <- <- <-. rc.
Qed.

Lemma step_rec r o x : step R NEVER PAST r o = Ok x -> (forall w, o = QApi w -> snd w = tape r) -> grows r (o_r x) (o_acts x).
Proof.
  intros H K. destruct o as [f|now g| | |f|f|a|w]; cbn [step] in H.
  - destruct (poll_output R NEVER PAST f r) as [[[r' y] t]| |] eqn:P; try discriminate. cbn [bind] in H. injection H as <-. exact (poll_rec _ _ _ _ _ P).
  - destruct (handle_input R r now g) as [[ok r'] t] eqn:P. injection H as <-. cbn. unfold handle_input in P. destruct (r_st r); [| |injection P as <- <- <-; rc].
    all: destruct g as [g|]; [|exact (timeout_rec _ _ _ _ _ P)].
    all: destruct (do_handle_receive R r now g) as [[[|] r1] t1] eqn:P1; apply receive_rec in P1; [|injection P as <- <- <-; exact P1].
    all: destruct (do_handle_timeout R r1 now) as [[k2 r2] t2] eqn:P2; apply timeout_rec in P2; injection P as <- <- <-; exact (grows_trans _ _ _ _ _ P1 P2).
  - destruct (start_close R r) as [[ok r'] t] eqn:P. injection H as <-. exact (close_rec _ _ _ _ P).
  - injection H as <-. rc.
  - injection H as <-. rc.
  - injection H as <-. cbn. destruct (r_fp r); rc.
  - destruct (init_dtls R r a) as [[ok r'] t] eqn:P. injection H as <-. exact (init_rec _ _ _ _ _ P).
  - injection H as <-. cbn. specialize (K w eq_refl). rc.
Qed.
End Rec.

(** Every history with recording components: the tape holds the ghost list, if the application's other
    calls (which replace the components) leave it alone. *)
Theorem C51_acts_are_real : forall W (C : comps W) NEVER PAST w v start os r h,
  run (rec C) NEVER PAST (rtc0 (w, []) v start) os = Ok (r, h) ->
  (forall h1 w' x h2, h = h1 ++ (QApi w', x) :: h2 -> snd w' = told (acts h1)) ->
  snd (r_w r) = told (acts h).
Proof.
  intros W C NEVER PAST w v start os r h R K.
  assert (forall os r0 r h, run (rec C) NEVER PAST r0 os = Ok (r, h) -> (forall h1 w' x h2, h = h1 ++ (QApi w', x) :: h2 -> snd w' = tape r0 ++ told (acts h1)) -> tape r = tape r0 ++ told (acts h)) as G.
  { clear. induction os as [|o os IH]; intros r0 r h R K; cbn [run] in R; [injection R as <- <-; cbn; rewrite app_nil_r; reflexivity|].
    destruct (step (rec C) NEVER PAST r0 o) as [x| |] eqn:S; try discriminate. cbn [bind] in R. destruct (run (rec C) NEVER PAST (o_r x) os) as [[r1 h1]| |] eqn:R1; try discriminate. cbn [bind] in R. injection R as <- <-.
    change (acts ((o, x) :: h1)) with (o_acts x ++ acts h1). rewrite told_app, app_assoc.
    assert (tape (o_r x) = tape r0 ++ told (o_acts x)) as <-.
    { apply (step_rec C NEVER PAST _ _ _ S). intros w' ->. rewrite (K [] w' x h1 eq_refl). cbn. apply app_nil_r. }
    apply IH; [exact R1|]. intros h2 w' x' h3 ->. pose proof (K ((o, x) :: h2) w' x' h3 eq_refl) as KK. rewrite KK.
    change (acts ((o, x) :: h2)) with (o_acts x ++ acts h2). rewrite told_app, app_assoc. f_equal. symmetry.
    apply (step_rec C NEVER PAST _ _ _ S). intros w'' ->. rewrite (K [] w'' x _ eq_refl). cbn. apply app_nil_r. }
  rewrite <- (app_nil_l (told (acts h))). exact (G _ _ _ _ R K).
Qed.
Print Assumptions C51_acts_are_real.

(** C52: errors.  When the calls of the peer connection answer an error. *)
From Verif Require Import Base BaseFacts RtcModel RtcSpec.
Open Scope Z_scope.

(** Components none of which ever fails. *)
Record healthy {W} (C : comps W) : Prop := mkHealthy {
  h_tick : forall w n, fst (c_dtls_timeout C w n) = true;
  h_recv : forall w p, fst (c_dtls_recv C w p) = true;
  h_shut : forall w, fst (c_dtls_close C w) = true;
  h_poll : forall w, fst (c_dtls_poll C w) <> DOther;
  h_send : forall w p, fst (c_dtls_send C w p) <> DsErr;
  h_sctp : forall w, fst (c_sctp_close C w) = true;
  h_ses : forall w, fst (c_ses_fallible C w) <> None;
  h_time : forall w n, fst (c_tick C ToSession w n) = true }.

Section E.
Context {W : Type} (C : comps W) (NEVER PAST : Z).
(** An untrusted certificate among what was done. *)
Definition untrusted (t : list act) : Prop := exists seen e, In (ACert seen e) t /\ e <> Some seen.
Lemma un_l : forall t u, untrusted t -> untrusted (t ++ u).
Proof. intros t u (s & e & I & N). exists s, e. split; [apply in_or_app; auto|exact N]. Qed.
Lemma un_r : forall t u, untrusted u -> untrusted (t ++ u).
Proof. intros t u (s & e & I & N). exists s, e. split; [apply in_or_app; auto|exact N]. Qed.
Lemma un_c : forall a u, untrusted u -> untrusted (a :: u).
Proof. intros a u (s & e & I & N). exists s, e. split; [right; exact I|exact N]. Qed.
Lemma list_eqb_refl : forall l, list_eqb l l = true.
Proof. induction l as [|x l IH]; [reflexivity|]. cbn. rewrite Z.eqb_refl. exact IH. Qed.
Lemma fp_ne : forall a b, fp_eqb a b = false -> Some b <> Some a.
Proof. intros a b H E. injection E as ->. unfold fp_eqb in H. rewrite !list_eqb_refl in H. discriminate. Qed.

Lemma ice_err : forall f r r' o t, ice_loop C f r = Ok (r', o, t) -> o <> Return YErr.
Proof.
  induction f as [|f IH]; intros r r' o t H; cbn [ice_loop] in H; [discriminate|].
  destruct (c_ice_event C (r_w r)) as [[[| | |]|] w]; try (injection H as _ <- _; discriminate); try (eapply IH; eassumption).
  match type of H with bind ?x _ = _ => destruct x as [[[? ?] ?]| |] eqn:E; try discriminate end. cbn [bind] in H. injection H as <- <- <-. eapply IH; eassumption.
Qed.
Hypothesis Hh : healthy C.
Lemma sdc_ok : forall r, fst (fst (start_dtls_close C r)) = true.
Proof.
  intros r. unfold start_dtls_close. destruct (r_cstart r); [reflexivity|]. pose proof (h_shut _ Hh (r_w r)) as K. destruct (c_dtls_close C (r_w r)) as [ok w].
  cbn [fst] in K. subst ok. reflexivity.
Qed.
Lemma sc_ok : forall r, fst (fst (start_close C r)) = true.
Proof.
  intros r. unfold start_close. destruct (r_st r); [|apply sdc_ok|reflexivity].
  pose proof (h_sctp _ Hh (c_ses_close C (r_w r))) as K. destruct (c_sctp_close C (c_ses_close C (r_w r))) as [ok w]. cbn [fst] in K. subst ok. apply sdc_ok.
Qed.
Lemma tick_err : forall r r' o t, dtls_tick C r = (r', o, t) -> o <> Return YErr.
Proof.
  intros r r' o t H. unfold dtls_tick in H. destruct (r_dto r) as [u|]; [|injection H as _ <- _; discriminate]. destruct (u <=? r_now r); [|injection H as _ <- _; discriminate].
  pose proof (h_tick _ Hh (r_w r) (r_now r)) as K. destruct (c_dtls_timeout C (r_w r) (r_now r)) as [ok w]. cbn [fst] in K. subst ok. injection H as _ <- _. discriminate.
Qed.
Lemma dtls_err : forall f r j r' o t, dtls_loop C PAST f r j = Ok (r', o, t) -> o = Return YErr -> untrusted t.
Proof.
  induction f as [|f IH]; intros r j r' o t H E; cbn [dtls_loop] in H; [discriminate|]. subst o.
  assert (P : fst (fst (dtls_poll C PAST r)) <> DOther).
  { unfold dtls_poll. pose proof (h_poll _ Hh (r_w r)) as K. destruct (c_dtls_poll C (r_w r)) as [o w]. destruct o; cbn in *; congruence. }
  destruct (dtls_poll C PAST r) as [[o r0] tp]. cbn [fst] in P.
  destruct o as [p| |km|der|d|d| |]; try discriminate.
  - destruct (r_conn r0); [eapply IH; [eassumption|reflexivity]|].
    match type of H with bind ?x _ = _ => destruct x as [[[? ?] ?]| |] eqn:E; try discriminate end. cbn [bind] in H. injection H as <- -> <-. apply un_c. eapply IH; [eassumption|reflexivity].
  - destruct (r_active r0); [|discriminate].
    match type of H with bind ?x _ = _ => destruct x as [[[? ?] ?]| |] eqn:E; try discriminate end. cbn [bind] in H. injection H as <- -> <-. apply un_c. eapply IH; [eassumption|reflexivity].
  - destruct (r_fp r0) as [fp|]; [|injection H as _ <-; eexists _, _; split; [left; reflexivity|discriminate]].
    destruct (r_verify r0 && _) eqn:V.
    + injection H as _ <-. eexists _, _. split; [left; reflexivity|]. apply andb_prop in V as [_ V]. apply fp_ne. destruct (fp_eqb _ fp); [discriminate|reflexivity].
    + match type of H with bind ?x _ = _ => destruct x as [[[? ?] ?]| |] eqn:E; try discriminate end. cbn [bind] in H. injection H as <- -> <-. apply un_c. eapply IH; [eassumption|reflexivity].
  - match type of H with bind ?x _ = _ => destruct x as [[[? ?] ?]| |] eqn:E; try discriminate end. cbn [bind] in H. injection H as <- -> <-. apply un_c. eapply IH; [eassumption|reflexivity].
  - destruct j; discriminate.
  - pose proof (sc_ok r0) as K. destruct (start_close C r0) as [[ok ?] ?]. cbn [fst] in K. subst ok. discriminate.
  - congruence.
Qed.
Lemma sctp_err : forall f r r' o t, sctp_loop C f r = Ok (r', o, t) -> o <> Return YErr.
Proof.
  induction f as [|f IH]; intros r r' o t H; cbn [sctp_loop] in H; [discriminate|].
  destruct (c_sctp_poll C (r_w r)) as [e w]. destruct e as [[[|p rest]| |e|]|]; try (injection H as _ <- _; discriminate); try (eapply IH; eassumption).
  - cbn [r_w set_w] in H. pose proof (h_send _ Hh w p) as K. destruct (c_dtls_send C w p) as [[| |] w1]; cbn [fst] in K; try congruence; injection H as _ <- _; discriminate.
  - match type of H with context [start_close C ?x] => pose proof (sc_ok x) as K; destruct (start_close C x) as [[ok ?] ?] end. cbn [fst] in K. subst ok. injection H as _ <- _. discriminate.
Qed.
Lemma events_err : forall r r' o, events C r = (r', o) -> o <> Return YErr.
Proof.
  intros r r' o H. unfold events in H. destruct (c_ses_event C (r_w r)) as [[e|] w]; [injection H as _ <-; discriminate|].
  pose proof (h_ses _ Hh w) as K. destruct (c_ses_fallible C w) as [[[e|]|] w1]; cbn [fst] in K; [injection H as _ <-; discriminate| |congruence].
  destruct (c_stats_event C w1) as [[e|] w2]; injection H as _ <-; discriminate.
Qed.
Lemma transmit_err : forall r r' o t, transmit C r = (r', o, t) -> o <> Return YErr.
Proof.
  intros r r' o t H. unfold transmit in H. destruct (c_ice_transmit C (r_w r)) as [[p|] w]; [injection H as _ <- _; discriminate|].
  destruct (r_send _); [|injection H as _ <- _; discriminate]. destruct (r_pend _); [|injection H as _ <- _; discriminate].
  destruct (c_ses_datagram C _ _) as [[p|] w1]; injection H as _ <- _; discriminate.
Qed.
Lemma poll_err : forall f r r' y t, poll_output C NEVER PAST f r = Ok (r', y, t) -> y = YErr -> untrusted t.
Proof.
  induction f as [|f IH]; intros r r' y t H E; cbn [poll_output] in H; [discriminate|]. subst y.
  assert (G : match ice_loop C f r with Ok _ => True | _ => True end) by (destruct (ice_loop C f r); exact I). clear G.
  destruct (r_st r); [| |discriminate].
  all: destruct (ice_loop C f r) as [[[r1 o1] t1]| |] eqn:E1; cbn [bind] in H; try discriminate;
    pose proof (ice_err _ _ _ _ _ E1) as N1;
    assert (H' : match dtls_tick C r1 with
              | (r2, Return y, t2) => Ok (r2, y, t1 ++ t2)
              | (r2, _, t2) =>
                  do (r3, o3, t3) <- dtls_loop C PAST f r2 false ;
                  match o3 with
                  | Return y => Ok (r3, y, t1 ++ t2 ++ t3)
                  | _ =>
                      do (r4, o4, t4) <- sctp_loop C f r3 ;
                      match o4 with
                      | Return y => Ok (r4, y, t1 ++ t2 ++ t3 ++ t4)
                      | Again => do (r', y, t) <- poll_output C NEVER PAST f r4 ; Ok (r', y, t1 ++ t2 ++ t3 ++ t4 ++ t)
                      | Go =>
                          match events C r4 with
                          | (r5, Return y) => Ok (r5, y, t1 ++ t2 ++ t3 ++ t4)
                          | (r5, _) =>
                              match transmit C r5 with
                              | (r6, Return y, t6) => Ok (r6, y, t1 ++ t2 ++ t3 ++ t4 ++ t6)
                              | (r6, _, t6) => let (r7, y) := timeouts C NEVER r6 in Ok (r7, y, t1 ++ t2 ++ t3 ++ t4 ++ t6)
                              end
                          end
                      end
                  end
              end = Ok (r', YErr, t)) by (destruct o1; [exact H|exfalso; apply N1; congruence|exact H]);
    clear H; rename H' into H.
  all: destruct (dtls_tick C r1) as [[r2 o2] t2] eqn:E2; pose proof (tick_err _ _ _ _ E2) as N2.
  all: destruct o2; [|exfalso; apply N2; congruence|].
  all: destruct (dtls_loop C PAST f r2 false) as [[[r3 o3] t3]| |] eqn:E3; cbn [bind] in H; try discriminate; pose proof (dtls_err _ _ _ _ _ _ E3) as N3.
  all: destruct o3; [|injection H as _ -> <-; apply un_r, un_r, N3; reflexivity|].
  all: destruct (sctp_loop C f r3) as [[[r4 o4] t4]| |] eqn:E4; cbn [bind] in H; try discriminate; pose proof (sctp_err _ _ _ _ _ E4) as N4.
  all: destruct o4; [|exfalso; apply N4; congruence|].
  all: try (match type of H with bind ?x _ = _ => destruct x as [[[? ?] ?]| |] eqn:E5; try discriminate end; cbn [bind] in H; injection H as <- -> <-;
    do 4 apply un_r; eapply IH; [eassumption|reflexivity]).
  all: destruct (events C r4) as [r5 o5] eqn:E5; pose proof (events_err _ _ _ E5) as N5; destruct o5; [|exfalso; apply N5; congruence|].
  all: destruct (transmit C r5) as [[r6 o6] t6] eqn:E6; pose proof (transmit_err _ _ _ _ E6) as N6; destruct o6; [|exfalso; apply N6; congruence|].
  all: unfold timeouts in H; destruct (r_st r6); [|destruct (drain_complete C r6)|]; discriminate.
Qed.
Lemma ht_ok : forall r n, fst (fst (do_handle_timeout C r n)) = true.
Proof.
  intros r n. unfold do_handle_timeout. destruct (n <? r_now r); [reflexivity|]. match goal with |- context [c_tick C ToSession ?w ?m] => pose proof (h_time _ Hh w m) as K; destruct (c_tick C ToSession w m) as [ok w'] end.
  cbn [fst] in K. subst ok. reflexivity.
Qed.
Lemma step_err : forall r o x, step C NEVER PAST r o = Ok x -> o_ok x = false -> untrusted (o_acts x).
Proof.
  intros r o x H E. destruct o as [f|n g| | |fp|fp|a|w]; cbn [step] in H.
  - destruct (poll_output C NEVER PAST f r) as [[[r' y] t]| |] eqn:P; try discriminate. cbn [bind] in H. injection H as <-. cbn in *.
    eapply poll_err; [exact P|]. destruct y; congruence.
  - exfalso. assert (K : fst (fst (handle_input C r n g)) = true).
    { unfold handle_input. destruct (r_st r); [| |reflexivity].
      all: destruct g as [g|]; [|apply ht_ok].
      all: assert (R : fst (fst (do_handle_receive C r n g)) = true)
        by (unfold do_handle_receive; destruct g as [m|p|p|p]; try reflexivity; destruct (r_active r); [|reflexivity];
            pose proof (h_recv _ Hh (r_w r) p) as K; destruct (c_dtls_recv C (r_w r) p); exact K).
      all: destruct (do_handle_receive C r n g) as [[ok r1] t]; cbn [fst] in R; subst ok; pose proof (ht_ok r1 n) as K; destruct (do_handle_timeout C r1 n) as [[? ?] ?]; exact K. }
    destruct (handle_input C r n g) as [[ok r'] t]. injection H as <-. cbn in *. congruence.
  - exfalso. pose proof (sc_ok r) as K. destruct (start_close C r) as [[ok r'] t]. injection H as <-. cbn in *. congruence.
  - injection H as <-. discriminate.
  - injection H as <-. discriminate.
  - injection H as <-. discriminate.
  - exfalso. assert (K : fst (fst (init_dtls C r a)) = true).
    { unfold init_dtls. destruct (r_active r); [reflexivity|]. match goal with |- context [c_dtls_timeout C ?w ?m] => pose proof (h_tick _ Hh w m) as K; destruct (c_dtls_timeout C w m) as [ok w'] end.
      cbn [fst] in K. subst ok. destruct a; [|reflexivity]. destruct (c_dtls_recv C w' []); reflexivity. }
    destruct (init_dtls C r a) as [[ok r'] t]. injection H as <-. cbn in *. congruence.
  - injection H as <-. discriminate.
Qed.
End E.

(** If no component fails, a call answers an error only because of the certificate: it is not the one with the fingerprint known,
    or no fingerprint is known. *)
Theorem C52_errors_have_a_cause : forall W (C : comps W) NEVER PAST r o x, healthy C -> step C NEVER PAST r o = Ok x -> o_ok x = false ->
  exists seen e, In (ACert seen e) (o_acts x) /\ e <> Some seen.
Proof. intros W C NEVER PAST r o x Hh H E. exact (step_err C NEVER PAST Hh r o x H E). Qed.

(** And a failure is told: *)
(** of the DTLS timer, by the poll in which it is due, which also ends the connection (an event of ICE may come first), *)
Theorem C52_dtls_timer_failure_told : forall W (C : comps W) NEVER PAST r f x t, (forall w n, fst (c_dtls_timeout C w n) = false) ->
  is_alive r = true -> r_dto r = Some t -> t <= r_now r -> step C NEVER PAST r (QPoll f) = Ok x ->
  (o_out x = Some YErr /\ o_ok x = false /\ is_alive (o_r x) = false) \/ exists s, o_out x = Some (YEvent (EIce s)).
Proof.
  intros W C NEVER PAST r f x t F AL D T H. cbn [step] in H. destruct (poll_output C NEVER PAST f r) as [[[r' y] a]| |] eqn:P; try discriminate.
  cbn [bind] in H. injection H as <-. cbn [o_out o_ok o_r]. destruct f as [|f]; [discriminate|]. cbn [poll_output] in P.
  assert (IL : forall f r r1 o1 t1, ice_loop C f r = Ok (r1, o1, t1) -> r_dto r1 = r_dto r /\ r_now r1 = r_now r /\ (o1 = Go \/ exists s, o1 = Return (YEvent (EIce s)))).
  { clear. induction f as [|f IH]; intros r r1 o1 t1 H; cbn [ice_loop] in H; [discriminate|].
    destruct (c_ice_event C (r_w r)) as [[[| | |]|] w]; try (injection H as <- <- <-; cbn; eauto 6; fail);
      try (apply IH in H; cbn in H; exact H).
    match type of H with bind ?x _ = _ => destruct x as [[[? ?] ?]| |] eqn:E; try discriminate end. cbn [bind] in H. injection H as <- <- <-.
    apply IH in E. cbn in E. exact E. }
  unfold is_alive in AL. destruct (r_st r); [| |discriminate].
  all: destruct (ice_loop C f r) as [[[r1 o1] t1]| |] eqn:E1; cbn [bind] in P; try discriminate; apply IL in E1 as (X1 & X2 & [->|(s & ->)]);
    [|injection P as _ <- _; right; eauto].
  all: unfold dtls_tick in P; rewrite X1, D, X2 in P; rewrite (proj2 (Z.leb_le _ _) T) in P; rewrite X2 in P || idtac;
    pose proof (F (r_w r1) (r_now r)) as K; destruct (c_dtls_timeout C (r_w r1) (r_now r)) as [ok w]; cbn [fst] in K; subst ok; injection P as <- <- _; left; auto.
Qed.
(** of the session's timeout, by the handle_input that is not late, *)
Theorem C52_session_failure_told : forall W (C : comps W) NEVER PAST r now g x, (forall w n, fst (c_tick C ToSession w n) = false) ->
  is_alive r = true -> r_now r <= now -> step C NEVER PAST r (QInput now g) = Ok x -> o_ok x = false.
Proof.
  intros W C NEVER PAST r now g x F AL T H. cbn [step] in H.
  assert (HT : forall r, r_now r <= now -> fst (fst (do_handle_timeout C r now)) = false).
  { intros q Q. unfold do_handle_timeout. rewrite (proj2 (Z.ltb_ge _ _) Q). match goal with |- context [c_tick C ToSession ?w ?m] => pose proof (F w m) as K; destruct (c_tick C ToSession w m) as [ok w'] end.
    cbn [fst] in K. subst ok. reflexivity. }
  assert (K : fst (fst (handle_input C r now g)) = false).
  { unfold handle_input. unfold is_alive in AL. destruct (r_st r); [| |discriminate].
    all: destruct g as [g|]; [|apply HT; exact T].
    all: assert (N : r_now (snd (fst (do_handle_receive C r now g))) = r_now r)
      by (unfold do_handle_receive; destruct g; try reflexivity; destruct (r_active r); [|reflexivity]; destruct (c_dtls_recv C (r_w r) p); reflexivity).
    all: destruct (do_handle_receive C r now g) as [[[|] r1] t]; [|reflexivity]; cbn [fst snd] in N; rewrite <- N in T; specialize (HT r1 T);
      destruct (do_handle_timeout C r1 now) as [[? ?] ?]; exact HT. }
  destruct (handle_input C r now g) as [[ok r'] t]. injection H as <-. exact K.
Qed.
(** of DTLS at a datagram, by the handle_input that brings it, and time does not go on, *)
Theorem C52_dtls_input_failure_told : forall W (C : comps W) NEVER PAST r now p x, (forall w q, fst (c_dtls_recv C w q) = false) ->
  is_alive r = true -> r_active r <> None -> step C NEVER PAST r (QInput now (Some (GDtls p))) = Ok x -> o_ok x = false /\ ticks (o_acts x) = [] /\ r_now (o_r x) = r_now r.
Proof.
  intros W C NEVER PAST r now p x F AL AC H. cbn [step] in H. unfold handle_input, do_handle_receive in H. unfold is_alive in AL.
  destruct (r_active r); [|congruence]. pose proof (F (r_w r) p) as K. destruct (c_dtls_recv C (r_w r) p) as [ok w]. cbn [fst] in K. subst ok.
  destruct (r_st r); [| |discriminate]; injection H as <-; auto.
Qed.
(** of starting DTLS, by start_dtls and by the SDP calls, *)
Theorem C52_start_failure_told : forall W (C : comps W) NEVER PAST r a x, (forall w n, fst (c_dtls_timeout C w n) = false) ->
  r_active r = None -> step C NEVER PAST r (QInit a) = Ok x -> o_ok x = false /\ o_acts x = [ADtlsTick (r_now r)].
Proof.
  intros W C NEVER PAST r a x F AC H. cbn [step] in H. unfold init_dtls in H. rewrite AC in H.
  match type of H with context [c_dtls_timeout C ?w ?m] => pose proof (F w m) as K; destruct (c_dtls_timeout C w m) as [ok w'] end. cbn [fst] in K. subst ok. injection H as <-. auto.
Qed.
(** of closing SCTP or DTLS, by close() on a connection in use. *)
Theorem C52_close_failure_told : forall W (C : comps W) NEVER PAST r x, (forall w, fst (c_sctp_close C w) = false) \/ ((forall w, fst (c_dtls_close C w) = false) /\ r_cstart r = false) ->
  usable r = true -> step C NEVER PAST r QClose = Ok x -> o_ok x = false.
Proof.
  intros W C NEVER PAST r x F U H. cbn [step] in H. unfold usable in U. unfold start_close in H. destruct (r_st r); try discriminate.
  destruct (c_sctp_close C (c_ses_close C (r_w r))) as [ok w] eqn:E. destruct F as [F|(F & S)].
  - specialize (F (c_ses_close C (r_w r))). rewrite E in F. cbn [fst] in F. subst ok. injection H as <-. reflexivity.
  - destruct ok; [|injection H as <-; reflexivity]. unfold start_dtls_close in H. cbn [r_cstart set_w set_st r_w] in H. rewrite S in H.
    pose proof (F w) as K. destruct (c_dtls_close C w) as [ok w']. cbn [fst] in K. subst ok. injection H as <-. reflexivity.
Qed.

(** ** Cases *)
Definition errC (tick recv ses sctp : bool) : comps unit := mkC
  (fun w => (None, w)) (fun w => (None, w)) (fun _ => None) (fun w => (DCert [8], w))
  (fun w _ => (tick, w)) (fun w _ => (recv, w)) (fun w _ => (DsOk, w)) (fun w => (true, w)) (fun _ => false) (fun w _ => w) (fun d => d)
  (fun w => (None, w)) (fun w _ _ => w) (fun w _ => w) (fun w => w) (fun w => (sctp, w)) (fun _ => None) (fun _ => None)
  (fun w => (None, w)) (fun w => (Some None, w)) (fun w _ => (None, w)) (fun w => w) (fun w _ _ => w) (fun w => w) (fun _ => false) (fun _ => (None, 0))
  (fun w => (None, w)) (fun _ => None) (fun _ w _ => (ses, w)) (fun _ w _ _ => w) (fun w _ _ => w).
Example errC_healthy : healthy (errC true true true true).
Proof. constructor; intros; cbn; congruence || reflexivity. Qed.
Definition err_ok (c : comps unit) (r : rtc unit) (o : op) : option (bool * life * list act) :=
  match step c 99 (-1) r o with Ok x => Some (o_ok x, r_st (o_r x), o_acts x) | _ => None end.
(** Every component is well, and the certificate is not known: an error; with the fingerprint there is none. *)
Example errors_have_a_cause_ex : err_ok (errC true true true true) (rtc0 tt true 0) (QPoll 3) = Some (false, Closed, [ACert (mkFp SHA256 [8]) None]).
Proof. vm_compute. reflexivity. Qed.
Example failures_ex :
  err_ok (errC false true true true) (set_dto (rtc0 tt true 5) (Some 5)) (QPoll 3) = Some (false, Closed, [ADtlsTick 5]) /\
  err_ok (errC true true false true) (rtc0 tt true 5) (QInput 5 None) = Some (false, Alive, [ATick ToIce 5; ATick ToSctp 5; ATick ToChan 5; ATick ToSession 5]) /\
  err_ok (errC true false true true) (set_active (rtc0 tt true 5) true) (QInput 7 (Some (GDtls [1]))) = Some (false, Alive, [ADtlsRecv [1]]) /\
  err_ok (errC false true true true) (rtc0 tt true 5) (QInit true) = Some (false, Alive, [ADtlsTick 5]) /\
  err_ok (errC true true true false) (rtc0 tt true 5) QClose = Some (false, Alive, []).
Proof. vm_compute. auto 10. Qed.
Print Assumptions C52_errors_have_a_cause.
Print Assumptions C52_dtls_timer_failure_told.
Print Assumptions C52_session_failure_told.
Print Assumptions C52_dtls_input_failure_told.
Print Assumptions C52_start_failure_told.
Print Assumptions C52_close_failure_told.

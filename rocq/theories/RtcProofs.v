(** The parts of poll_output: what each may do ([stage]). *)
From Verif Require Import Base BaseFacts RtcModel RtcSpec.

Definition rank (l : life) : Z := match l with Alive => 0 | Closing => 1 | Closed => 2 end.
Lemma rank_le l : 0 <= rank l <= 2. Proof. destruct l; cbn; lia. Qed.

Definition good_cert {W} (r : rtc W) (a : act) : Prop :=
  match a with ACert seen e => e = r_fp r /\ (r_verify r = true -> e = Some seen) | _ => True end.

(** A part that goes from [r] to [r'] doing [t]; [bad]: it ended with a certificate that was not accepted. *)
Record stage {W} (r r' : rtc W) (t : list act) (bad : Prop) : Prop := mkSt {
  g_now : r_now r' = r_now r; g_ver : r_verify r' = r_verify r; g_fp : r_fp r' = r_fp r; g_act : r_active r' = r_active r;
  g_st : rank (r_st r) <= rank (r_st r'); g_cs : r_cstart r = true -> r_cstart r' = true;
  g_conn : r_conn r' = true -> r_conn r = true \/ ups t = 1%nat;
  g_ups : (ups t <= 1)%nat; g_once : r_conn r = true -> ups t = 0%nat; g_up : (1 <= ups t)%nat -> r_conn r' = true; g_cm : r_conn r = true -> r_conn r' = true;
  g_send : r_send r' = nominated (r_send r) t;
  g_pend : r_pend r ++ made t = sent t ++ r_pend r';
  g_sent : r_send r' = None -> sent t = [];
  g_tick : ticks t = [];
  g_recv : forall p, ~ In (ADtlsRecv p) t;
  g_cert : (forall a, In a t -> good_cert r a) \/
           (bad /\ r_st r' = Closed /\ exists t1 seen, t = t1 ++ [ACert seen (r_fp r)] /\ (forall a, In a t1 -> good_cert r a))
}.

Lemma ups_app a b : ups (a ++ b) = (ups a + ups b)%nat.
Proof. unfold ups. rewrite filter_app, app_length. reflexivity. Qed.
Lemma made_app a b : made (a ++ b) = made a ++ made b. Proof. apply flat_map_app. Qed.
Lemma sent_app a b : sent (a ++ b) = sent a ++ sent b. Proof. apply flat_map_app. Qed.
Lemma ticks_app a b : ticks (a ++ b) = ticks a ++ ticks b. Proof. apply flat_map_app. Qed.
Lemma nominated_app : forall a n b, nominated n (a ++ b) = nominated (nominated n a) b.
Proof. induction a as [|x a IH]; intros n b; [reflexivity|]. destruct x; cbn; apply IH. Qed.

Lemma nominated_some : forall t a, exists b, nominated (Some a) t = Some b.
Proof. induction t as [|x t IH]; intro a; cbn; [eauto|]. destruct x; apply IH. Qed.
Lemma nominated_none t n : nominated n t = None -> n = None.
Proof. destruct n as [a|]; [|auto]. destruct (nominated_some t a) as (b & ->). discriminate. Qed.

Lemma stage_refl W (r : rtc W) b : stage r r [] b.
Proof.
  split; auto; cbn; try lia; try (rewrite app_nil_r; reflexivity).
  left. intros a [].
Qed.

Lemma stage_trans W (r1 r2 r3 : rtc W) t1 t2 b : stage r1 r2 t1 False -> stage r2 r3 t2 b -> stage r1 r3 (t1 ++ t2) b.
Proof.
  intros H1 H2. destruct H1 as [A1 A2 A3 A4 A5 A6 A7 A8 A9 A10 A11 A12 A13 AS A14 A15 A16]. destruct H2 as [B1 B2 B3 B4 B5 B6 B7 B8 B9 B10 B11 B12 B13 BS B14 B15 B16].
  assert (forall a, good_cert r2 a -> good_cert r1 a) as GC by (intros [] G; cbn in *; try exact I; rewrite <- A2, <- A3; exact G).
  split; try congruence; try lia; try tauto.
  - rewrite ups_app. intro H. destruct (r_conn r1) eqn:R1; [auto|]. right. destruct (B7 H) as [K|K].
    + destruct (A7 K); [discriminate|]. rewrite (B9 K). lia.
    + destruct (r_conn r2) eqn:R2; [specialize (B9 eq_refl); lia|]. destruct (ups t1) eqn:U; [lia|]. assert (false = true) by (apply A10; lia). discriminate.
  - rewrite ups_app. destruct (r_conn r2) eqn:R2; [rewrite B9 by auto; lia|]. destruct (ups t1) eqn:U; [lia|]. assert (false = true) by (apply A10; lia). discriminate.
  - rewrite ups_app. intro H. rewrite A9, B9; auto.
  - rewrite ups_app. intro H. destruct (ups t1) eqn:U; [apply B10; lia|]. apply B11, A10. lia.
  - rewrite nominated_app, B12, A12. reflexivity.
  - rewrite made_app, sent_app, app_assoc, A13, <- !app_assoc, B13. reflexivity.
  - intro N. rewrite sent_app, (BS N). rewrite app_nil_r. apply AS. rewrite B12 in N. apply nominated_none in N. exact N.
  - rewrite ticks_app, A14, B14. reflexivity.
  - intros p I. apply in_app_or in I as [I|I]; [exact (A15 p I)|exact (B15 p I)].
  - destruct A16 as [A16|([] & _)]. destruct B16 as [B16|(X & Y & u & seen & E & Z)].
    + left. intros a I. apply in_app_or in I as [I|I]; auto.
    + right. split; [exact X|]. split; [exact Y|]. exists (t1 ++ u), seen. rewrite E, <- A3, app_assoc. split; [reflexivity|].
      intros a I. apply in_app_or in I as [I|I]; auto.
Qed.

Lemma stage_weaken W (r r' : rtc W) t (b b' : Prop) : (b -> b') -> stage r r' t b -> stage r r' t b'.
Proof. intros H []. split; auto. destruct g_cert0 as [X|(X & Y)]; [left; exact X|right; split; [apply H; exact X|exact Y]]. Qed.

Ltac simp := cbn [r_st r_w r_dto r_conn r_fp r_verify r_addrs r_send r_now r_cstart r_pend r_active
  set_w set_st set_dto set_conn set_fp set_addrs set_send set_now set_cstart set_pend set_active disconnect rank] in *.

Lemma list_eqb_eq : forall a b, list_eqb a b = true <-> a = b.
Proof.
  induction a as [|x a IH]; intros [|y b]; cbn [list_eqb]; split; intro H; try discriminate; try reflexivity.
  - apply andb_prop in H as [X Y]. apply Z.eqb_eq in X. apply IH in Y. congruence.
  - injection H as -> ->. rewrite Z.eqb_refl. cbn. apply IH. reflexivity.
Qed.
Lemma fp_eqb_eq a b : fp_eqb a b = true <-> a = b.
Proof.
  unfold fp_eqb. rewrite Bool.andb_true_iff, !list_eqb_eq. destruct a, b; cbn. split; [intros [-> ->]; reflexivity|intro H; injection H; auto].
Qed.

Section Stages.
Context {W : Type} (C : comps W) (NEVER PAST : Z).
Notation rtcW := (rtc W).

(** a silent change of the components, the timers or the state of life *)
Lemma stage_quiet (r r' : rtcW) b : r_now r' = r_now r -> r_verify r' = r_verify r -> r_fp r' = r_fp r -> r_active r' = r_active r ->
  rank (r_st r) <= rank (r_st r') -> (r_cstart r = true -> r_cstart r' = true) -> r_conn r' = r_conn r -> r_send r' = r_send r -> r_pend r' = r_pend r -> stage r r' [] b.
Proof.
  intros H1 H2 H3 H4 H5 H6 H7 H8 H9. split; auto; cbn; try lia; try congruence.
  all: try (rewrite app_nil_r; congruence); try (left; intros a []; fail).
  all: try (intro K; left; congruence).
Qed.
(** one act that concerns none of the facts *)
Definition neutral (a : act) : Prop := match a with ATick _ _ | ADtlsRecv _ | ACert _ _ | AUp | APacket _ | ANominated _ | ASendDtls _ => False | _ => True end.
Lemma stage_neutral (r r' : rtcW) t b : (forall a, In a t -> neutral a) -> stage r r' [] b -> stage r r' t False.
Proof.
  intros N [A1 A2 A3 A4 A5 A6 A7 A8 A9 A10 A11 A12 A13 AS A14 A15 A16].
  assert (ups t = 0%nat /\ made t = [] /\ sent t = [] /\ ticks t = [] /\ (forall n, nominated n t = n)) as (U & M & S & T & NM).
  { clear - N. induction t as [|x t IH]; [repeat split|]. destruct IH as (A & B & C0 & D & E); [intros a I; apply N; right; exact I|].
    pose proof (N x (or_introl eq_refl)) as NX. destruct x; cbn in NX; try contradiction; unfold ups, made, sent, ticks in *; cbn; repeat split; auto. }
  cbn [ups filter length made sent ticks flat_map nominated app] in *. split; auto; try lia; try congruence.
  - rewrite M, S. exact A13.
  - intros p I. exact (N _ I).
  - left. intros a I. pose proof (N a I) as NX. destruct a; cbn in *; auto; contradiction.
Qed.
Ltac quiet := apply stage_quiet; simp; auto; try lia.

Lemma sdc_stage (r : rtcW) ok r' t : start_dtls_close C r = (ok, r', t) -> stage r r' t False /\ (r_st r' = r_st r) /\ (ok = true -> r_cstart r' = true) /\ (t = [] \/ t = [AShut]).
Proof.
  unfold start_dtls_close. destruct (r_cstart r) eqn:CS.
  - intro H. injection H as <- <- <-. split; [apply stage_refl|]. auto.
  - destruct (c_dtls_close C (r_w r)) as [k w]. destruct k; intro H; injection H as <- <- <-; simp; (split; [|auto]).
    + apply stage_neutral with (b := False); [intros a [<-|[]]; exact I|]. quiet.
    + quiet.
    + split; [reflexivity|]. split; [discriminate|auto].
Qed.

Lemma sc_stage (r : rtcW) ok r' t : start_close C r = (ok, r', t) -> stage r r' t False /\
  (ok = true -> r_st r' <> Alive /\ (r_st r' = Closed \/ r_cstart r' = true)) /\ (r_st r' = Closed -> r_st r = Closed) /\
  (forall a, In a t -> a = AShut).
Proof.
  unfold start_close. destruct (r_st r) eqn:ST.
  - destruct (c_sctp_close C _) as [k w]. destruct k.
    + intro H. apply sdc_stage in H as (S & E & K & T). simp. split.
      { apply (stage_trans _ _ (set_st (set_w r w) Closing) _ [] t); [|exact S]. quiet. rewrite ST. cbn. lia. }
      split; [intro O; specialize (K O); rewrite E; split; [discriminate|auto]|]. split; [rewrite E; discriminate|]. destruct T as [->| ->]; [intros a []|intros a [<-|[]]; reflexivity].
    + intro H. injection H as <- <- <-. split; [quiet|]. split; [discriminate|]. simp. split; [congruence|]. intros a [].
  - intro H. apply sdc_stage in H as (S & E & K & T). split; [exact S|]. split; [intro O; rewrite E, ST; split; [discriminate|auto]|]. split; [congruence|].
    destruct T as [->| ->]; [intros a []|intros a [<-|[]]; reflexivity].
  - intro H. injection H as <- <- <-. split; [apply stage_refl|]. split; [intros _; split; [congruence|auto]|]. split; [auto|]. intros a [].
Qed.

(** What a part may return early. *)
Definition ret_ok (r r' : rtcW) (t : list act) (o : flow) : Prop :=
  match o with
  | Go | Again => r_st r' = r_st r
  | Return (YTimeout _ _) => False
  | Return (YEvent EConnected) => ups t = 1%nat /\ r_st r' = r_st r
  | Return (YEvent EClosed) => r_st r' <> Alive /\ r_cstart r' = true /\ (r_st r' = Closed -> r_st r = Closed)
  | Return (YSend a p) => r_send r' = Some a /\ (In (ASendDtls p) t \/ In (ASendSes p) t) /\ r_st r' = r_st r
  | Return YErr => True
  | Return _ => r_st r' = r_st r
  end.
Definition bad_ret (o : flow) : Prop := o = Return YErr.

Lemma ice_loop_stage : forall fuel (r : rtcW) r' o t, ice_loop C fuel r = Ok (r', o, t) -> stage r r' t False /\ r_st r' = r_st r /\ r_dto r' = r_dto r /\ r_pend r' = r_pend r /\
  (o = Go \/ exists s, o = Return (YEvent (EIce s))).
Proof.
  induction fuel as [|f IH]; intros r r' o t H; cbn [ice_loop] in H; [discriminate|].
  destruct (c_ice_event C (r_w r)) as [e w].
  assert (stage r (set_w r w) [] False) as Q by quiet.
  destruct e as [[|s|a|a]|].
  - apply IH in H as (S & A & B & D & E). simp. split; [|auto]. exact (stage_trans _ _ _ _ [] t _ Q S).
  - injection H as <- <- <-. simp. split; [exact Q|]. eauto 6.
  - apply IH in H as (S & A & B & D & E). simp. split; [|auto]. refine (stage_trans _ _ _ _ [] t _ _ S). quiet.
  - destruct (ice_loop C f (set_send (set_w r w) a)) as [[[r1 o1] t1]| |] eqn:L; try discriminate. cbn [bind] in H. injection H as <- <- <-.
    apply IH in L as (S & A & B & D & E). simp. split; [|auto].
    apply (stage_trans _ r (set_send (set_w r w) a) r1 [ANominated a] t1); [|exact S].
    split; simp; auto; cbn; try lia; try (rewrite app_nil_r; reflexivity). { intros p [K|[]]; discriminate. } { left. intros x [<-|[]]. exact I. }
  - injection H as <- <- <-. simp. split; [exact Q|]. auto 6.
Qed.

Lemma dtls_tick_stage (r : rtcW) r' o t : dtls_tick C r = (r', o, t) -> r_st r <> Closed -> stage r r' t False /\ r_pend r' = r_pend r /\
  (o = Go /\ r_st r' = r_st r \/ o = Return YErr /\ r_st r' = Closed).
Proof.
  intros H NC. assert (rank (r_st r) <= 2) as RK by (pose proof (rank_le (r_st r)); lia). unfold dtls_tick in H.
  destruct (r_dto r) as [d|]; [|injection H as <- <- <-; split; [apply stage_refl|auto]].
  destruct (Z.leb_spec d (r_now r)); [|injection H as <- <- <-; split; [apply stage_refl|auto]].
  destruct (c_dtls_timeout C (r_w r) (r_now r)) as [ok w]. destruct ok; injection H as <- <- <-; simp; (split; [|auto]).
  - apply stage_neutral with (b := False); [intros a [<-|[]]; exact I|]. quiet.
  - apply stage_neutral with (b := False); [intros a [<-|[]]; exact I|]. quiet.
Qed.

Lemma dtls_poll_stage (r : rtcW) o r' t : dtls_poll C PAST r = (o, r', t) -> stage r r' t False /\ r_st r' = r_st r /\ r_fp r' = r_fp r /\ r_verify r' = r_verify r /\ r_active r' = r_active r /\
  ((exists w p, c_dtls_poll C (r_w r) = (DPacket p, w) /\ o = DTimeout PAST /\ t = [APacket p]) \/ (exists w, c_dtls_poll C (r_w r) = (o, w) /\ r' = set_w r w /\ t = [] /\ forall p, o <> DPacket p)).
Proof.
  unfold dtls_poll. destruct (c_dtls_poll C (r_w r)) as [o1 w] eqn:P.
  destruct o1; intro H; injection H as <- <- <-; simp;
    (split; [|repeat (split; [reflexivity|]); try (right; exists w; repeat split; try reflexivity; discriminate)]); try quiet.
  - split; simp; auto; cbn; try lia. { intros q [K|[]]; discriminate. } { left. intros a [<-|[]]. exact I. }
  - left. eauto.
Qed.

Lemma dtls_loop_stage : forall fuel (r : rtcW) just r' o t, dtls_loop C PAST fuel r just = Ok (r', o, t) -> r_st r <> Closed -> (just = true -> r_conn r = true) ->
  stage r r' t (bad_ret o) /\ (o = Go /\ r_st r' = r_st r /\ just = false /\ ups t = 0%nat \/
    o = Return (YEvent EConnected) /\ r_st r' = r_st r /\ (just = true \/ ups t = 1%nat) \/
    o = Return (YEvent EClosed) /\ r_st r' = Closing /\ r_cstart r' = true \/ o = Return YErr).
Proof.
  induction fuel as [|f IH]; intros r just r' o t H NC J; cbn [dtls_loop] in H; [discriminate|].
  destruct (dtls_poll C PAST r) as [[o0 r0] tp] eqn:P. apply dtls_poll_stage in P as (S0 & ST & FP & VE & AC & PP).
  assert (o0 <> DTimeout PAST -> tp = []) as TP by (destruct PP as [(w & p & _ & E & _)|(w & _ & _ & E & _)]; [congruence|auto]).
  assert (r_st r0 <> Closed) as NC0 by congruence.
  assert (r_conn r = true -> r_conn r0 = true) as CM by (apply (g_cm _ _ _ _ S0)).
  destruct o0 as [p| |km|der|d|d| |].
  - exfalso. destruct PP as [(w & q & _ & E & _)|(w & _ & _ & _ & E)]; [discriminate|exact (E p eq_refl)].
  - rewrite TP in S0 by discriminate. destruct (r_conn r0) eqn:R0.
    + apply IH in H as (S & X); auto. split; [|].
      * exact (stage_trans _ _ _ _ [] t _ S0 S).
      * intuition congruence.
    + destruct (dtls_loop C PAST f (set_conn r0) true) as [[[r1 o1] t1]| |] eqn:L; try discriminate. cbn [bind] in H. injection H as <- <- <-.
      apply IH in L as (S & X); simp; auto.
      assert (stage r (set_conn r0) [AUp] False) as SU.
      { apply (stage_trans _ r r0 (set_conn r0) [] [AUp] False S0). split; simp; auto; cbn; try lia; try congruence; try (rewrite app_nil_r; reflexivity).
        - intros p [K|[]]; discriminate.
        - left. intros a [<-|[]]. exact I. }
      split; [exact (stage_trans _ _ _ _ [AUp] t1 _ SU S)|].
      pose proof (g_once _ _ _ _ S eq_refl) as O1. change (AUp :: t1) with ([AUp] ++ t1). rewrite ups_app, O1. cbn.
      destruct X as [(-> & X & E & _)|[(-> & X & _)|[(-> & X & Y)|XE]]]; [discriminate| | |]; intuition congruence.
  - rewrite TP in S0 by discriminate. destruct (r_active r0) as [a|]; [|discriminate].
    destruct (dtls_loop C PAST f (set_w r0 (c_ses_keys C (r_w r0) km a)) just) as [[[r1 o1] t1]| |] eqn:L; try discriminate. cbn [bind] in H. injection H as <- <- <-.
    apply IH in L as (S & X); simp; auto; try congruence.
    assert (stage r (set_w r0 (c_ses_keys C (r_w r0) km a)) [AKeys km a] False) as SU.
    { apply (stage_trans _ r r0 _ [] [AKeys km a] False S0). apply stage_neutral with (b := False); [intros x [<-|[]]; exact I|]. quiet. }
    split; [exact (stage_trans _ _ _ _ [AKeys km a] t1 _ SU S)|].
    change (AKeys km a :: t1) with ([AKeys km a] ++ t1). rewrite ups_app. cbn [ups filter length Nat.add]. intuition congruence.
  - rewrite TP in S0 by discriminate. assert (r_fp r0 = r_fp r) as F0 by (apply (g_fp _ _ _ _ S0)).
    destruct (r_fp r0) as [expected|] eqn:FE.
    + destruct (r_verify r0 && negb (fp_eqb (mkFp SHA256 (c_sha256 C der)) expected)) eqn:V.
      * injection H as <- <- <-. split; [|auto].
        apply (stage_trans _ r r0 _ [] _ _ S0). pose proof (rank_le (r_st r0)). split; simp; auto; cbn; try lia; try (rewrite app_nil_r; reflexivity).
        { intros p [K|[]]; discriminate. }
        right. split; [reflexivity|]. split; [reflexivity|]. exists [], (mkFp SHA256 (c_sha256 C der)). rewrite FE. split; [reflexivity|]. intros a [].
      * destruct (dtls_loop C PAST f r0 just) as [[[r1 o1] t1]| |] eqn:L; try discriminate. cbn [bind] in H. injection H as <- <- <-.
        apply IH in L as (S & X); auto; try (intro K; specialize (J K); auto).
        assert (stage r r0 [ACert (mkFp SHA256 (c_sha256 C der)) (Some expected)] False) as SU.
        { apply (stage_trans _ r r0 r0 [] _ False S0). split; simp; auto; cbn; try lia; try (rewrite app_nil_r; reflexivity).
          - intros p [K|[]]; discriminate.
          - left. intros a [<-|[]]. cbn. split; [congruence|]. intro VT. rewrite VT in V. cbn in V. destruct (fp_eqb (mkFp SHA256 (c_sha256 C der)) expected) eqn:FEQ; [|discriminate].
            apply fp_eqb_eq in FEQ. congruence. }
        split; [exact (stage_trans _ _ _ _ [ACert _ _] t1 _ SU S)|].
        change (ACert (mkFp SHA256 (c_sha256 C der)) (Some expected) :: t1) with ([ACert (mkFp SHA256 (c_sha256 C der)) (Some expected)] ++ t1). rewrite ups_app. cbn [ups filter length Nat.add]. intuition congruence.
    + injection H as <- <- <-. split; [|auto].
      apply (stage_trans _ r r0 _ [] _ _ S0). pose proof (rank_le (r_st r0)). split; simp; auto; cbn; try lia; try (rewrite app_nil_r; reflexivity).
      { intros p [K|[]]; discriminate. }
      right. split; [reflexivity|]. split; [reflexivity|]. exists [], (mkFp SHA256 (c_sha256 C der)). rewrite FE. split; [reflexivity|]. intros a [].
  - rewrite TP in S0 by discriminate.
    destruct (dtls_loop C PAST f (set_w r0 (c_sctp_input C (r_w r0) (r_now r0) d)) just) as [[[r1 o1] t1]| |] eqn:L; try discriminate. cbn [bind] in H. injection H as <- <- <-.
    apply IH in L as (S & X); simp; auto; try congruence.
    assert (stage r (set_w r0 (c_sctp_input C (r_w r0) (r_now r0) d)) [AData (r_now r0) d] False) as SU.
    { apply (stage_trans _ r r0 _ [] _ False S0). apply stage_neutral with (b := False); [intros x [<-|[]]; exact I|]. quiet. }
    split; [exact (stage_trans _ _ _ _ [AData _ _] t1 _ SU S)|].
    change (AData (r_now r0) d :: t1) with ([AData (r_now r0) d] ++ t1). rewrite ups_app. cbn [ups filter length Nat.add]. intuition congruence.
  - injection H as <- <- <-. split.
    + replace tp with (tp ++ []) by apply app_nil_r. apply (stage_trans _ r r0 _ tp [] _ S0). quiet.
    + assert (ups tp = 0%nat) as U by (destruct PP as [(w & p & _ & _ & ->)|(w & _ & _ & -> & _)]; reflexivity). simp. destruct just; [right; left; auto|left; auto].
  - rewrite TP in S0 by discriminate. destruct (start_close C r0) as [[ok r1] t1] eqn:SC. injection H as <- <- <-. apply sc_stage in SC as (S & X & Y & _). split.
    + apply (stage_weaken _ _ _ _ False); [intros []|]. exact (stage_trans _ _ _ _ [] t1 _ S0 S).
    + destruct ok; [right; right; left|auto 6]. split; [reflexivity|]. destruct (X eq_refl) as [X1 X2].
      destruct (r_st r1) eqn:R1; [congruence| |exfalso; apply NC0; apply Y; reflexivity]. split; [reflexivity|]. destruct X2; [discriminate|assumption].
  - rewrite TP in S0 by discriminate. injection H as <- <- <-. split; [|auto 6]. apply (stage_weaken _ _ _ _ False); [intros []|]. exact S0.
Qed.

Lemma sctp_loop_stage : forall fuel (r : rtcW) r' o t, sctp_loop C fuel r = Ok (r', o, t) -> r_st r <> Closed ->
  stage r r' t False /\ ups t = 0%nat /\ (o = Go /\ r_st r' = r_st r \/ o = Again /\ r_st r' = r_st r \/ o = Return (YEvent EClosed) /\ r_st r' = Closing /\ r_cstart r' = true \/
    (exists e, o = Return (YEvent (EChannel e)) /\ r_st r' = r_st r) \/ o = Return YErr /\ r_st r' <> Closed).
Proof.
  induction fuel as [|f IH]; intros r r' o t H NC; cbn [sctp_loop] in H; [discriminate|].
  destruct (c_sctp_poll C (r_w r)) as [e w]. assert (stage r (set_w r w) [] False) as Q by quiet.
  destruct e as [[[|p rest]| |e|]|].
  - apply IH in H as (S & U & X); simp; auto. split; [exact (stage_trans _ _ _ _ [] t _ Q S)|]. auto.
  - assert (forall (r0 : rtcW) l, r_st r0 = r_st r -> r_now r0 = r_now r -> r_verify r0 = r_verify r -> r_fp r0 = r_fp r -> r_active r0 = r_active r -> r_cstart r0 = r_cstart r -> r_conn r0 = r_conn r -> r_send r0 = r_send r -> r_pend r0 = r_pend r ->
      stage r (match l with [] => r0 | _ => set_w r0 (c_sctp_push C (r_w r0) l) end) [] False /\ r_st (match l with [] => r0 | _ => set_w r0 (c_sctp_push C (r_w r0) l) end) = r_st r) as PU.
    { intros r0 l E1 E2 E3 E4 E5 E6 E7 E8 E9. destruct l; split; simp; auto; apply stage_quiet; simp; auto; try lia; try congruence; rewrite E1; lia. }
    destruct (c_dtls_send C (r_w (set_w r w)) p) as [[| |] w1].
    + injection H as <- <- <-. split; [|split; [reflexivity|]].
      * apply stage_neutral with (b := False); [intros a [<-|[]]; exact I|]. apply PU; reflexivity.
      * right. left. split; [reflexivity|]. apply PU; reflexivity.
    + injection H as <- <- <-. split; [apply (PU (set_w (set_w r w) w1) (p :: rest)); reflexivity|]. split; [reflexivity|auto].
    + simp. destruct (r_st r) eqn:ST; [|..|congruence]; injection H as <- <- <-.
      * split; [quiet|]. split; [reflexivity|]. right. right. right. right. split; [reflexivity|]. simp. congruence.
      * split; [|split; [reflexivity|]].
        -- apply stage_neutral with (b := False); [intros a [<-|[]]; exact I|]. apply (PU (set_w (set_w r w) w1) rest); try reflexivity; simp; exact ST.
        -- right. left. split; [reflexivity|]. apply (PU (set_w (set_w r w) w1) rest); try reflexivity; simp; exact ST.
  - destruct (start_close C _) as [[ok r1] t1] eqn:SC. injection H as <- <- <-. apply sc_stage in SC as (S & X & Y & Z). simp. split; [|split].
    + refine (stage_trans _ _ _ _ [] t1 _ _ S). quiet.
    + unfold ups. clear - Z. induction t1 as [|a t1 IH]; [reflexivity|]. rewrite (Z a (or_introl eq_refl)). cbn. apply IH. intros b K. apply Z. right. exact K.
    + destruct ok.
      * destruct (X eq_refl) as [X1 X2]. right. right. left. split; [reflexivity|]. destruct (r_st r1) eqn:R1; [congruence| |exfalso; apply NC, Y; reflexivity].
        split; [reflexivity|]. destruct X2; [discriminate|assumption].
      * right. right. right. right. split; [reflexivity|]. intro K. apply NC, Y, K.
  - injection H as <- <- <-. split; [exact Q|]. split; [reflexivity|]. right. right. right. left. eauto.
  - apply IH in H as (S & U & X); simp; auto. split; [exact (stage_trans _ _ _ _ [] t _ Q S)|]. auto.
  - injection H as <- <- <-. split; [exact Q|]. split; [reflexivity|auto].
Qed.

Lemma events_stage (r : rtcW) r' o : events C r = (r', o) -> stage r r' [] False /\ r_st r' = r_st r /\ r_dto r' = r_dto r /\
  (o = Go \/ o = Return YErr \/ (exists e, o = Return (YEvent (ESession e))) \/ exists e, o = Return (YEvent (EStats e))).
Proof.
  unfold events. destruct (c_ses_event C (r_w r)) as [[e|] w]; [intro H; injection H as <- <-; split; [quiet|simp; eauto 8]|].
  destruct (c_ses_fallible C w) as [[[e|]|] w1]; [intro H; injection H as <- <-; split; [quiet|simp; eauto 8]| |intro H; injection H as <- <-; split; [quiet|simp; eauto 8]].
  destruct (c_stats_event C w1) as [[e|] w2]; intro H; injection H as <- <-; (split; [quiet|simp; eauto 8]).
Qed.

Lemma transmit_stage (r : rtcW) r' o t : transmit C r = (r', o, t) -> stage r r' t False /\ r_st r' = r_st r /\ r_dto r' = r_dto r /\ ups t = 0%nat /\
  (o = Go /\ t = [] /\ (r_send r' = None \/ r_pend r' = []) \/ (exists p, o = Return (YIce p) /\ t = []) \/
   (exists a p, o = Return (YSend a p) /\ r_send r' = Some a /\ (t = [ASendDtls p] \/ t = [ASendSes p]))).
Proof.
  unfold transmit. destruct (c_ice_transmit C (r_w r)) as [[p|] w]; [intro H; injection H as <- <- <-; split; [quiet|simp; eauto 8]|].
  simp. destruct (r_send r) as [a|] eqn:RS.
  - destruct (r_pend r) as [|p rest] eqn:RP.
    + destruct (c_ses_datagram C w (r_now r)) as [[p|] w1]; intro H; injection H as <- <- <-; simp.
      * split; [apply stage_neutral with (b := False); [intros x [<-|[]]; exact I|]; quiet|]. repeat (split; [reflexivity|]). right. right. exists a, p. auto.
      * split; [quiet|]. repeat (split; [reflexivity|]). left. auto.
    + intro H; injection H as <- <- <-; simp. split.
      * split; simp; auto; cbn; try lia; try (rewrite app_nil_r; congruence); try (intro; congruence). { intros q [K|[]]; discriminate. } { left. intros x [<-|[]]. exact I. }
      * repeat (split; [reflexivity|]). right. right. exists a, p. auto.
  - intro H; injection H as <- <- <-; simp. split; [quiet|]. repeat (split; [reflexivity|]). left. auto.
Qed.
End Stages.

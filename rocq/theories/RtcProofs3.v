(** Histories: the invariant. *)
From Verif Require Import Base BaseFacts RtcModel RtcSpec RtcProofs RtcProofs2.

Section Hist.
Context {W : Type} (C : comps W) (NEVER PAST : Z).
Notation rtcW := (rtc W). Notation hist := (list (op (W := W) * sres (W := W))).

Lemma acts_app (a b : hist) : acts (a ++ b) = acts a ++ acts b. Proof. apply flat_map_app. Qed.
Lemma acts_snoc (h : hist) p : acts (h ++ [p]) = acts h ++ o_acts (snd p). Proof. rewrite acts_app. cbn. rewrite app_nil_r. reflexivity. Qed.
Lemma outputs_snoc (h : hist) p : outputs (h ++ [p]) = outputs h ++ match o_out (snd p) with Some y => [y] | None => [] end.
Proof. unfold outputs. rewrite flat_map_app. cbn. rewrite app_nil_r. reflexivity. Qed.
Lemma in_force_app : forall (a b : hist) f, in_force f (a ++ b) = in_force (in_force f a) b.
Proof. induction a as [|[o x] a IH]; intros b f; [reflexivity|]. destruct o; cbn; apply IH. Qed.
Lemma conn_app a b : connecteds (a ++ b) = (connecteds a + connecteds b)%nat.
Proof. unfold connecteds. rewrite filter_app, app_length. reflexivity. Qed.

(** Plain calls do nothing the properties speak about. *)
Lemma called_facts (r r' : rtcW) t : called r r' t -> ups t = 0%nat /\ made t = [] /\ sent t = [] /\ (forall n, nominated n t = n) /\ forall a, In a t -> good_cert r a.
Proof.
  intros [_ _ _ _ _ _ K]. split; [|split; [|split; [|split]]].
  1-4: clear - K; induction t as [|x t IH]; [reflexivity|]; assert (forall a, In a t -> match a with ACert _ _ | AUp | APacket _ | ANominated _ | ASendDtls _ | AKeys _ _ | AData _ _ => False | _ => True end) as K' by (intros a I; apply K; right; exact I);
    specialize (IH K'); pose proof (K x (or_introl eq_refl)) as KX; unfold ups, made, sent in *; destruct x; cbn in *; auto; contradiction.
  intros a I. specialize (K a I). destruct a; cbn in *; auto; contradiction.
Qed.
Lemma called_refl (r : rtcW) : called r r []. Proof. split; auto; [lia|intros a []]. Qed.
Lemma called_trans (r1 r2 r3 : rtcW) t1 t2 : called r1 r2 t1 -> called r2 r3 t2 -> called r1 r3 (t1 ++ t2).
Proof. intros [A1 A2 A3 A4 A5 A6 A7] [B1 B2 B3 B4 B5 B6 B7]. split; try congruence; try lia; auto. intros a I. apply in_app_or in I as [I|I]; [exact (A7 a I)|exact (B7 a I)]. Qed.

(** A call other than a poll of a live Rtc. *)
Record plain (r : rtcW) (o : op (W := W)) (x : sres (W := W)) : Prop := mkPl {
  p_called : called r (o_r x) (o_acts x);
  p_fp : r_fp (o_r x) = match o with QFp f => Some f | QSdpFp f => match r_fp r with None => Some f | Some g => Some g end | _ => r_fp r end;
  p_now : (r_now (o_r x) = r_now r /\ ticks (o_acts x) = []) \/ (exists g, o = QInput (r_now (o_r x)) g) /\ r_now r <= r_now (o_r x) /\ (forall u, In u (ticks (o_acts x)) <-> u = r_now (o_r x)) /\ ascending (ticks (o_acts x));
  p_recv : r_active (o_r x) = None -> forall p, ~ In (ADtlsRecv p) (o_acts x);
  p_active : r_active (o_r x) = None -> r_active r = None;
  p_closed : r_st r = Closed -> r_st (o_r x) = Closed /\ (forall a, In a (o_acts x) -> is_start a = true /\ exists b, o = QInit b) /\ r_now (o_r x) = r_now r;
  p_out : o_out x = None \/ r_st r = Closed /\ o_out x = Some (YTimeout NEVER R_NOT);
  p_close : o = QClose -> o_ok x = true -> r_st (o_r x) <> Alive /\ (r_st (o_r x) = Closed \/ r_cstart (o_r x) = true);
  p_to_closed : r_st (o_r x) = Closed -> r_st r = Closed \/ o = QDisconnect
}.

Lemma plain_live (r : rtcW) (o : op (W := W)) (x : sres (W := W)) : r_st r <> Closed -> called r (o_r x) (o_acts x) ->
  r_fp (o_r x) = match o with QFp f => Some f | QSdpFp f => match r_fp r with None => Some f | Some g => Some g end | _ => r_fp r end ->
  ((r_now (o_r x) = r_now r /\ ticks (o_acts x) = []) \/ (exists g, o = QInput (r_now (o_r x)) g) /\ r_now r <= r_now (o_r x) /\ (forall u, In u (ticks (o_acts x)) <-> u = r_now (o_r x)) /\ ascending (ticks (o_acts x))) ->
  (r_active (o_r x) = None -> forall p, ~ In (ADtlsRecv p) (o_acts x)) -> (r_active (o_r x) = None -> r_active r = None) ->
  o_out x = None -> o <> QClose -> r_st (o_r x) = r_st r -> plain r o x.
Proof. intros. split; auto; try congruence. Qed.

Lemma closed_poll fuel (r : rtcW) r' y t : r_st r = Closed -> poll_output C NEVER PAST fuel r = Ok (r', y, t) -> r' = r /\ y = YTimeout NEVER R_NOT /\ t = [].
Proof. intros ST H. destruct fuel; cbn [poll_output] in H; [discriminate|]. rewrite ST in H. injection H as <- <- <-. auto. Qed.

Lemma step_cases (r : rtcW) o x : step C NEVER PAST r o = Ok x ->
  (exists fuel y, o = QPoll fuel /\ r_st r <> Closed /\ o_out x = Some y /\ poll_ok C NEVER r (o_r x) y (o_acts x) /\ o_ok x = match y with YErr => false | _ => true end) \/ plain r o x.
Proof.
  intro H. destruct o as [fuel|now g| | |f|f|a|w]; cbn [step] in H.
  - destruct (poll_output C NEVER PAST fuel r) as [[[r' y] t]| |] eqn:P; try discriminate. cbn [bind] in H. injection H as <-. cbn.
    destruct (r_st r) eqn:ST; [left|left|right].
    1-2: exists fuel, y; split; [reflexivity|]; split; [discriminate|]; split; [reflexivity|]; split; [|reflexivity]; eapply poll_spec; [exact P|congruence].
    destruct (closed_poll _ _ _ _ _ ST P) as (-> & -> & ->). split; cbn; auto; try discriminate; try (apply called_refl). intros _. split; [exact ST|]. split; [intros a []|reflexivity].
  - right. destruct (handle_input C r now g) as [[ok r'] t] eqn:HI. injection H as <-. unfold handle_input in HI.
    destruct (r_st r) eqn:ST.
    3: injection HI as <- <- <-; split; cbn; auto; try discriminate; try apply called_refl; intros _; split; [exact ST|split; [intros a []|reflexivity]].
    all: assert (r_st r <> Closed) as NC by congruence; destruct g as [g|].
    2,4: apply timeout_called in HI as (K & E1 & E2 & E3 & X); apply plain_live; cbn; auto; try discriminate; try congruence.
    2,4: destruct X as [(_ & -> & ->)|(L & N & T & A & _)]; [left; auto|right; rewrite N in *; eauto 8].
    2,3: intros AN p I; destruct X as [(_ & _ & ->)|(_ & _ & _ & _ & X)]; [exact I|exact (X p I)].
    all: destruct (do_handle_receive C r now g) as [[ok1 r1] t1] eqn:R; apply receive_called in R as (K1 & F1 & F2 & F3 & F4 & F5 & F6); destruct ok1.
    2,4: injection HI as <- <- <-; apply plain_live; cbn; auto; try discriminate; try congruence; intros AN p I; apply (F6 p I); congruence.
    all: destruct (do_handle_timeout C r1 now) as [[ok2 r2] t2] eqn:T; apply timeout_called in T as (K2 & E1 & E2 & E3 & X); injection HI as <- <- <-;
      apply plain_live; cbn; auto; try discriminate; try congruence; try (exact (called_trans _ _ _ _ _ K1 K2)).
    1,3: rewrite ticks_app, F5; cbn [app]; destruct X as [(_ & -> & ->)|(L & N & T & A & _)]; [left; auto|right; rewrite N in *; rewrite F4 in L; eauto 8].
    all: intros AN p I; apply in_app_or in I as [I|I]; [apply (F6 p I); congruence|destruct X as [(_ & _ & ->)|(_ & _ & _ & _ & X)]; [exact I|exact (X p I)]].
  - right. destruct (start_close C r) as [[ok r'] t] eqn:SC. injection H as <-. pose proof SC as SC'. apply sc_stage in SC as (S & X & Y & Z).
    assert (forall a, In a t -> match a with ACert _ _ | AUp | APacket _ | ANominated _ | ASendDtls _ | AKeys _ _ | AData _ _ => False | _ => True end) as PL by (intros a I; rewrite (Z a I); exact Logic.I).
    assert (ups t = 0%nat /\ made t = [] /\ sent t = [] /\ (forall n, nominated n t = n) /\ ticks t = []) as (U & M & SN & NM & TK).
    { clear - Z. induction t as [|a t IH]; [repeat split|]. destruct IH as (A & B & D & E & F); [intros b I; apply Z; right; exact I|]. rewrite (Z a (or_introl eq_refl)). unfold ups, made, sent, ticks in *. cbn. repeat split; auto. }
    split; cbn; auto; try discriminate.
    + split; auto; [apply (g_ver _ _ _ _ S)|apply (g_st _ _ _ _ S)|apply (g_cs _ _ _ _ S)| | |].
      * destruct (r_conn r) eqn:RC; [apply (g_cm _ _ _ _ S); exact RC|]. destruct (r_conn r') eqn:RC'; [|reflexivity]. destruct (g_conn _ _ _ _ S RC'); [congruence|lia].
      * rewrite (g_send _ _ _ _ S). apply NM.
      * pose proof (g_pend _ _ _ _ S) as P. rewrite M, SN, app_nil_r in P. cbn in P. congruence.
    + apply (g_fp _ _ _ _ S).
    + left. split; [apply (g_now _ _ _ _ S)|exact TK].
    + intros _ p I. specialize (Z _ I). discriminate.
    + rewrite (g_act _ _ _ _ S). auto.
    + intro ST. unfold start_close in SC'. rewrite ST in SC'. injection SC' as <- <- <-. split; [exact ST|]. split; [intros a []|reflexivity].
  - right. injection H as <-. pose proof (rank_le (r_st r)). split; cbn; simp; auto; try discriminate. { split; simp; auto; [lia|intros a []]. } intros _. split; [reflexivity|]. split; [intros a []|reflexivity].
  - right. injection H as <-. split; cbn; simp; auto; try discriminate. { split; simp; auto; [lia|intros a []]. } intro ST. split; [exact ST|]. split; [intros a []|reflexivity].
  - right. injection H as <-. destruct (r_fp r) eqn:F; split; cbn; simp; rewrite ?F; auto; try discriminate; try (split; simp; auto; [lia|intros a []]); try (intro ST; (split; [exact ST|]); (split; [intros a []|reflexivity])).
  - right. destruct (init_dtls C r a) as [[ok r'] t] eqn:ID. injection H as <-. apply init_called in ID as (K & E1 & E2 & E3 & E4 & E5 & E6 & E7). split; cbn; auto; try discriminate; try congruence; try (intro; exfalso; congruence).
    + intro ST. split; [congruence|]. split; [|exact E3]. intros b I. split; [apply E5; exact I|eauto].
    + intro. left. congruence.
  - right. injection H as <-. split; cbn; simp; auto; try discriminate. { split; simp; auto; [lia|intros a []]. } intro ST. split; [exact ST|]. split; [intros a []|reflexivity].
Qed.

Lemma ascending_app : forall a b, ascending a -> ascending b -> (forall x y, In x a -> In y b -> x <= y) -> ascending (a ++ b).
Proof.
  induction a as [|x a IH]; intros b A B X; [exact B|]. destruct A as [A1 A2]. split.
  - intros y I. apply in_app_or in I as [I|I]; [auto|]. apply X; [left; reflexivity|exact I].
  - apply IH; auto. intros u v U V. apply X; [right; exact U|exact V].
Qed.

Record inv (v : bool) (start : Z) (r : rtcW) (h : hist) : Prop := mkInv {
  i_fp : r_fp r = in_force None h; i_ver : r_verify r = v;
  i_send : r_send r = nominated None (acts h);
  i_pend : made (acts h) = sent (acts h) ++ r_pend r;
  i_ups : (ups (acts h) <= 1)%nat; i_up1 : r_conn r = true <-> ups (acts h) = 1%nat;
  i_cnt : (connecteds (outputs h) <= ups (acts h))%nat;
  i_now : start <= r_now r; i_tick : forall n, In n (ticks (acts h)) -> n <= r_now r; i_asc : ascending (ticks (acts h));
  i_max : r_now r = start \/ In (r_now r) (ticks (acts h));
  i_recv : r_active r = None -> forall p, ~ In (ADtlsRecv p) (acts h);
  i_cert : v = true -> (forall a, In a (acts h) -> verified a) \/
    (r_st r = Closed /\ exists t1 seen e t2, acts h = t1 ++ ACert seen e :: t2 /\ (forall a, In a t1 -> verified a) /\ forall a, In a t2 -> is_start a = true);
  i_close : (exists p, In p h /\ close_seen p) -> r_st r <> Alive /\ (r_st r = Closed \/ r_cstart r = true)
}.

Lemma inv0 (w : W) v start : inv v start (rtc0 w v start) [].
Proof.
  split; cbn; auto; try lia; try (split; discriminate); try (intros n [] ; fail). all: try (intros (p & [] & _); fail). all: try (left; intros a []; fail). all: intros _; left; intros a [].
Qed.

Lemma inv_step v start (r : rtcW) h o x : inv v start r h -> step C NEVER PAST r o = Ok x -> inv v start (o_r x) (h ++ [(o, x)]).
Proof.
  intros [I1 I2 I3 I4 I5 I6 I7 I8 I9 I10 I11 I12 I13 I14] H. apply step_cases in H as [(fuel & y & -> & NC & OY & (S & Y) & OK)|P].
  - destruct S as [A1 A2 A3 A4 A5 A6 A7 A8 A9 A10 A11 A12 A13 AS A14 A15 A16].
    split; rewrite ?acts_snoc, ?outputs_snoc, ?in_force_app, ?ups_app, ?ticks_app; cbn [snd in_force]; rewrite ?A14, ?app_nil_r; auto; try congruence; try lia.
    + rewrite nominated_app. congruence.
    + rewrite made_app, sent_app, I4, <- !app_assoc, A13. reflexivity.
    + rewrite OY, conn_app. assert (connecteds [y] <= ups (o_acts x))%nat; [|lia]. destruct y as [[| | | | |]| | | |]; cbn; lia.
    + rewrite A4. intros AN p K. apply in_app_or in K as [K|K]; [exact (I12 AN p K)|exact (A15 p K)].
    + intro V. destruct (I13 V) as [I13'|(ST & _)]; [|congruence]. rewrite V in I2. destruct A16 as [A16|(_ & ST & t1 & seen & E & K)].
      * left. intros a K. apply in_app_or in K as [K|K]; [auto|]. specialize (A16 a K). destruct a; cbn in *; auto. apply A16. exact I2.
      * right. split; [exact ST|]. exists (acts h ++ t1), seen, (r_fp r), []. rewrite E, <- app_assoc. split; [reflexivity|]. split; [|intros a []].
        intros a K0. apply in_app_or in K0 as [K0|K0]; [auto|]. specialize (K a K0). destruct a; cbn in *; auto. apply K. exact I2.
    + intros (p & IP & CS). assert (r_st (o_r x) <> Alive /\ (r_st (o_r x) = Closed \/ r_cstart (o_r x) = true) \/ y = YEvent EClosed) as D.
      { apply in_app_or in IP as [IP|[<-|[]]].
        - left. destruct I14 as [J1 J2]; [eauto|]. split; [intro K; rewrite K in A5; destruct (r_st r); cbn in A5; try lia; congruence|]. destruct J2; [congruence|]. right. auto.
        - destruct CS as [(CS & _)|CS]; [discriminate|]. cbn in CS. right. congruence. }
      destruct D as [D| ->]; [exact D|]. destruct Y as [Y1 Y2]. rewrite Y1. split; [discriminate|auto].
  - destruct P as [P1 P2 P3 P4 P5 P6 P7 P8 P9]. destruct (called_facts _ _ _ P1) as (U & M & SN & NM & _). destruct P1 as [K1 K2 K3 K4 K5 K6 K7].
    split; rewrite ?acts_snoc, ?outputs_snoc, ?in_force_app, ?ups_app, ?ticks_app, ?made_app, ?sent_app, ?nominated_app; cbn [snd]; rewrite ?NM, ?U, ?M, ?SN, ?app_nil_r, ?Nat.add_0_r; auto; try congruence.
    + rewrite P2, I1. destruct o; cbn; try reflexivity. destruct (in_force None h); reflexivity.
    + rewrite conn_app. assert (connecteds match o_out x with Some y => [y] | None => [] end = 0%nat) as -> by (destruct P7 as [-> |(_ & ->)]; reflexivity). lia.
    + destruct P3 as [(E & _)|(_ & L & _)]; lia.
    + intros n K. apply in_app_or in K as [K|K]; [specialize (I9 n K); destruct P3 as [(E & _)|(_ & L & _)]; lia|]. destruct P3 as [(_ & E)|(_ & _ & T & _)]; [rewrite E in K; destruct K|]. apply T in K. lia.
    + destruct P3 as [(_ & ->)|(_ & L & T & A)]; [rewrite app_nil_r; exact I10|]. apply ascending_app; auto. intros a b IA IB. apply T in IB as ->. specialize (I9 a IA). lia.
    + destruct P3 as [(E & ->)|(_ & L & T & A)]; [rewrite app_nil_r, E; exact I11|]. right. apply in_or_app. right. apply T. reflexivity.
    + intros AN p K. apply in_app_or in K as [K|K]; [exact (I12 (P5 AN) p K)|exact (P4 AN p K)].
    + intro V. destruct (I13 V) as [I13'|(ST & t1 & seen & e & t2 & E & X & Y)].
      * left. intros a K. apply in_app_or in K as [K|K]; [auto|]. specialize (K7 a K). destruct a; cbn in *; auto. contradiction.
      * right. destruct (P6 ST) as (Q1 & Q2 & _). split; [exact Q1|]. exists t1, seen, e, (t2 ++ o_acts x). rewrite E, <- app_assoc. split; [reflexivity|]. split; [exact X|].
        intros a K. apply in_app_or in K as [K|K]; [auto|]. apply Q2. exact K.
    + intros (p & IP & CS). apply in_app_or in IP as [IP|[<-|[]]].
      * destruct I14 as [J1 J2]; [eauto|]. split; [intro K; rewrite K in K2; destruct (r_st r); cbn in K2; try lia; congruence|]. destruct J2 as [J2|J2]; [left; apply P6; exact J2|right; auto].
      * destruct CS as [(CS & CO)|CS]; cbn in *; [exact (P8 CS CO)|]. destruct P7 as [P7|(_ & P7)]; congruence.
Qed.

Lemma run_inv v start : forall os (r : rtcW) h r' h', inv v start r h -> run C NEVER PAST r os = Ok (r', h') -> inv v start r' (h ++ h').
Proof.
  induction os as [|o os IH]; intros r h r' h' I R; cbn [run] in R.
  - injection R as <- <-. rewrite app_nil_r. exact I.
  - destruct (step C NEVER PAST r o) as [x| |] eqn:S; try discriminate. cbn [bind] in R. destruct (run C NEVER PAST (o_r x) os) as [[r1 h1]| |] eqn:R1; try discriminate. cbn [bind] in R. injection R as <- <-.
    pose proof (inv_step _ _ _ _ _ _ I S) as I'. specialize (IH _ _ _ _ I' R1). rewrite <- app_assoc in IH. exact IH.
Qed.
Lemma run_inv0 v start w os r h : run C NEVER PAST (rtc0 w v start) os = Ok (r, h) -> inv v start r h.
Proof. intro R. exact (run_inv v start os _ [] r h (inv0 w v start) R). Qed.

Lemma run_step : forall os (r : rtcW) r' h1 p h2, run C NEVER PAST r os = Ok (r', h1 ++ p :: h2) ->
  exists os1 os2 r1, os = os1 ++ fst p :: os2 /\ run C NEVER PAST r os1 = Ok (r1, h1) /\ step C NEVER PAST r1 (fst p) = Ok (snd p) /\ run C NEVER PAST (o_r (snd p)) os2 = Ok (r', h2).
Proof.
  induction os as [|o os IH]; intros r r' h1 p h2 R; cbn [run] in R.
  - injection R as _ E. destruct h1; discriminate.
  - destruct (step C NEVER PAST r o) as [x| |] eqn:S; try discriminate. cbn [bind] in R. destruct (run C NEVER PAST (o_r x) os) as [[r1 h]| |] eqn:R1; try discriminate. cbn [bind] in R. injection R as <- E.
    destruct h1 as [|q h1]; cbn in E.
    + injection E as <- <-. exists [], os, r. cbn. auto.
    + injection E as <- ->. destruct (IH _ _ _ _ _ R1) as (os1 & os2 & r2 & -> & Q1 & Q2 & Q3). exists (o :: os1), os2, r2. cbn [app run]. rewrite S. cbn [bind]. rewrite Q1. auto.
Qed.
End Hist.

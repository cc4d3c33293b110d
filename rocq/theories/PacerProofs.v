From Verif Require Import Base BaseFacts PacerModel PacerSpec.
From Coq Require Import Lqa.
Open Scope Z_scope.
Ltac spl := repeat match goal with |- _ /\ _ => split end.

Lemma qround_bounds x : (inject_Z (qround x) <= x + (1 # 2) /\ x - (1 # 2) < inject_Z (qround x))%Q.
Proof.
  unfold qround. split.
  - apply Qfloor_le.
  - pose proof (Qlt_floor (x + (1 # 2))) as H. rewrite inject_Z_plus in H. change (inject_Z 1) with 1%Q in H. lra.
Qed.
Lemma qround_le x y : (x <= y)%Q -> qround x <= qround y.
Proof. intro H. apply Qfloor_resp_le. lra. Qed.
Lemma qround_int n : qround (inject_Z n) = n.
Proof.
  destruct (qround_bounds (inject_Z n)) as [A B].
  assert (inject_Z (qround (inject_Z n)) < inject_Z (n + 1))%Q as C by (rewrite inject_Z_plus; change (inject_Z 1) with 1%Q; lra).
  assert (inject_Z (n - 1) < inject_Z (qround (inject_Z n)))%Q as D by (unfold Z.sub; rewrite inject_Z_plus; change (inject_Z (- (1))) with (-1 # 1)%Q; lra).
  rewrite <- Zlt_Qlt in C, D. lia.
Qed.
Lemma qround_nonneg x : (0 <= x)%Q -> 0 <= qround x.
Proof. intro H. apply qround_le in H. change 0%Q with (inject_Z 0) in H. rewrite qround_int in H. exact H. Qed.

Lemma inj_nonneg d : 0 <= d -> (0 <= inject_Z d)%Q.
Proof. intro. change 0%Q with (inject_Z 0). rewrite <- Zle_Qle. exact H. Qed.

Lemma rate_mul_nonneg r d : (0 <= r)%Q -> 0 <= d -> 0 <= rate_mul r d.
Proof.
  intros R D. apply qround_nonneg. pose proof (inj_nonneg d D). unfold Qdiv. change (/ inject_Z 8000000000)%Q with (1 # 8000000000)%Q.
  nra.
Qed.
Lemma rate_mul_upper r d : (inject_Z (rate_mul r d) <= r * inject_Z d / inject_Z 8000000000 + (1 # 2))%Q.
Proof. apply qround_bounds. Qed.
Lemma rate_mul_lower r d : (r * inject_Z d / inject_Z 8000000000 - (1 # 2) < inject_Z (rate_mul r d))%Q.
Proof. apply qround_bounds. Qed.

Lemma size_div_le s r k : (0 < r)%Q -> size_div s r <= k -> (inject_Z s * inject_Z 8000000000 <= r * inject_Z (k + 1))%Q.
Proof.
  intros R H. unfold size_div in H. destruct (Qeq_bool r 0) eqn:E; [apply Qeq_bool_iff in E; lra|].
  destruct (qround_bounds (inject_Z (s * 8000000000) / r)) as [_ B].
  assert (inject_Z (s * 8000000000) / r < inject_Z (k + 1))%Q as C.
  { rewrite Zle_Qle in H. rewrite inject_Z_plus. change (inject_Z 1) with 1%Q. lra. }
  rewrite inject_Z_mult in C. 
  apply (Qmult_lt_r _ _ r R) in C. rewrite Qmult_comm in C at 1. rewrite Qmult_div_r in C by lra. rewrite (Qmult_comm r). lra.
Qed.

Lemma qltb_true a b : qltb a b = true -> (a < b)%Q.
Proof. unfold qltb. intro H. apply negb_true_iff in H. destruct (Qlt_le_dec a b) as [|L]; [assumption|]. apply Qle_bool_iff in L. congruence. Qed.
Lemma qltb_false a b : qltb a b = false -> (b <= a)%Q.
Proof. unfold qltb. intro H. apply negb_false_iff in H. apply Qle_bool_iff. exact H. Qed.

(** ** The padding request leaves the books alone *)
Lemma padding_request_same s now : let s' := fst (padding_request s now) in
  pacing s' = pacing s /\ adjusted s' = adjusted s /\ padding s' = padding s /\ last_handle s' = last_handle s /\ last_emitted s' = last_emitted s /\
  debt s' = debt s /\ pdebt s' = pdebt s /\ queues s' = queues s /\ next_queue s' = next_queue s /\ gate s' = gate s /\ next_time s' = next_time s /\ completed s' = completed s /\ (probes s = [] -> probes s' = []).
Proof.
  unfold padding_request. destruct (negb _); [cbn; tauto|]. destruct (max_by _ _) as [q|]; [|cbn; tauto].
  destruct (probes s) as [|p ps] eqn:E.
  - destruct (negb (debt s =? 0) || negb (pdebt s =? 0)); [cbn; tauto|]. destruct (Qeq_bool (padding s) 0); cbn; tauto.
  - destruct (negb (should_send_now p now)); [cbn; intuition discriminate|]. destruct (next_packet p now) as [p' [n|]]; cbn; intuition discriminate.
Qed.

Lemma padding_request_debt s now r : probes s = [] -> snd (padding_request s now) = Some r -> debt s = 0.
Proof.
  intros P. unfold padding_request. destruct (negb _); [discriminate|]. destruct (max_by _ _) as [q|]; [|discriminate]. rewrite P.
  destruct (Z.eqb_spec (debt s) 0) as [->|]; [reflexivity|]. cbn. discriminate.
Qed.

(** ** The rate in use *)
Lemma adjust_band lo hi base qs now : (0 <= lo)%Q -> (lo <= base)%Q -> (base <= hi)%Q ->
  (queue_count qs <> 0 -> (min_rate qs now <= hi)%Q) -> (lo <= MAX_BITRATE)%Q -> (lo <= adjust base qs now)%Q /\ (adjust base qs now <= hi)%Q.
Proof.
  intros L0 L H M LM. unfold adjust. destruct (Z.eqb_spec (queue_count qs) 0); [tauto|]. specialize (M n).
  destruct (qltb base (min_rate qs now)) eqn:E; [|tauto]. apply qltb_true in E.
  destruct (qltb MAX_BITRATE (min_rate qs now)) eqn:E2; [apply qltb_true in E2; split; lra|].
  destruct (qltb (min_rate qs now) 0) eqn:E3; [apply qltb_true in E3; lra|]. split; lra.
Qed.

(** ** Runs without probes and unpaced queues, at rates between lo and hi *)
Section Band.
Variables (lo hi : Q) (M : Z).
Hypothesis lo_pos : (0 < lo)%Q.
Hypothesis lo_hi : (lo <= hi)%Q.
Hypothesis lo_max : (lo <= MAX_BITRATE)%Q.
Hypothesis M_pos : 0 <= M.

Local Notation burst := (burst hi).
Local Notation ev_ok := (ev_ok lo hi M).
Hypothesis M_small : (burst + inject_Z M + 1 <= lo * inject_Z 500000000 / inject_Z 8000000000)%Q.

Definition Inv (s : pacer) : Prop :=
  probes s = [] /\ (lo <= pacing s /\ pacing s <= hi)%Q /\ 0 <= debt s /\ (inject_Z (debt s) <= burst + inject_Z M)%Q /\
  (next_queue s <> None -> (inject_Z (debt s) <= burst)%Q) /\
  (last_emitted s = None -> debt s = 0) /\
  Forall (fun q => q_unpaced q = false) (queues s) /\
  match last_handle s with
  | None => adjusted s = 0%Q /\ debt s = 0 /\ next_queue s = None
  | Some _ => (lo <= adjusted s /\ adjusted s <= hi)%Q
  end.

Lemma burst_nonneg : (0 <= burst)%Q.
Proof. unfold PacerSpec.burst, Qdiv. change (/ inject_Z 8000000000)%Q with (1 # 8000000000)%Q. change (inject_Z 40000001) with (40000001 # 1)%Q. lra. Qed.

Lemma Inv_new r : (lo <= r /\ r <= hi)%Q -> Inv (new r).
Proof.
  intro R. pose proof burst_nonneg. pose proof (inj_nonneg M M_pos). unfold Inv, new. cbn. change (inject_Z 0) with 0%Q.
  spl; try tauto; try lra; try lia; try constructor.
Qed.

Lemma next_poll_release s now t r q : Inv s -> last_handle s = Some now -> next_queue s = None ->
  next_poll s now = Some ((t, r), Some q) -> now <? t = false -> (inject_Z (debt s) <= burst)%Q.
Proof.
  intros (P & R & D0 & D1 & _ & LE & U & A) LH NQ H T. rewrite LH in A. unfold next_poll in H. rewrite P, LH in H.
  destruct (last_emitted s) as [le|] eqn:E.
  2: { rewrite (LE eq_refl). exact burst_nonneg. }
  assert (filter (fun q => q_unpaced q && match q_unsent q with Some _ => true | None => false end) (queues s) = []) as FU.
  { clear - U. induction U as [|x l H F IH]; [reflexivity|]. cbn [filter]. rewrite H. exact IH. }
  rewrite FU in H. cbn [min_by] in H.
  destruct (min_by key_lt (filter nonempty (queues s))) as [q0|].
  - destruct (qltb 0 (adjusted s)) eqn:QA; [|apply qltb_false in QA; lra].
    inversion H; subst. clear H. destruct (Z.ltb_spec PACING (size_div (debt s) (adjusted s))) as [G|G].
    + apply Z.ltb_ge in T. unfold PACING in G. lia.
    + apply size_div_le in G; [|lra]. change (PACING + 1) with 40000001 in G. unfold PacerSpec.burst, Qdiv.
      change (inject_Z 8000000000) with (8000000000 # 1)%Q in *. change (/ (8000000000 # 1))%Q with (1 # 8000000000)%Q. change (inject_Z 40000001) with (40000001 # 1)%Q in *. lra.
  - destruct (qltb 0 (padding s) && existsb q_use_pad (queues s)); discriminate.
Qed.

Lemma step_inv s e : Inv s -> ev_ok e -> Inv (fst (step s e)).
Proof.
  intros I E. pose proof I as (P & R & D0 & D1 & D2 & LE & U & A). destruct e as [now qs|snt|r|r|c|]; cbn [step PacerSpec.ev_ok] in *.
  - unfold handle_timeout. 
    set (s1 := mkPacer _ _ _ _ _ _ _ _ _ _ _ _ _ _).
    assert (0 <= sat_sub (debt s) (rate_mul (adjusted s) (elapsed s now)) <= debt s) as DB.
    { unfold sat_sub. assert (0 <= rate_mul (adjusted s) (elapsed s now)).
      { apply rate_mul_nonneg; [|unfold elapsed; destruct (last_handle s); lia]. destruct (last_handle s); [lra|]. destruct A as (-> & _). lra. }
      lia. }
    assert (inject_Z (debt s1) <= inject_Z (debt s))%Q as DQ by (rewrite <- Zle_Qle; exact (proj2 DB)).
    assert (Inv s1) as I1.
    { unfold Inv. split; [exact P|]. split; [exact R|]. split; [exact (proj1 DB)|]. split; [lra|].
      split; [intro N; specialize (D2 N); lra|]. split; [intro N; specialize (LE N); unfold s1; cbn [debt]; lia|].
      split; [exact (proj1 E)|]. unfold s1; cbn [last_handle adjusted].
      apply adjust_band; try lra; try tauto; unfold base_rate; rewrite P; tauto. }
    pose proof (padding_request_same s1 now) as PS. pose proof (padding_request_debt s1 now) as PD.
    destruct (padding_request s1 now) as [s2 req]. cbn [fst snd] in *.
    destruct PS as (S1 & S2 & S3 & S4 & S5 & S6 & S7 & S8 & S9 & S10 & S11 & S12 & S13).
    assert (Inv s2) as I2.
    { destruct I1 as (J1 & J2 & J3 & J4 & J5 & J6 & J7 & J8). unfold Inv. rewrite S1, S2, S4, S5, S6, S8, S9. spl; try tauto. }
    destruct req as [[m n]|].
    + cbn [fst]. destruct I2 as (J1 & J2 & J3 & J4 & J5 & J6 & J7 & J8). unfold Inv, set_next. cbn -[inject_Z]. spl; try tauto.
      * intros _. rewrite S6, (PD _ P eq_refl). exact burst_nonneg.
      * rewrite S4 in *. cbn in *. exact J8.
    + destruct (next_queue s2) eqn:NQ; [exact I2|].
      destruct (next_poll s2 now) as [[[t r] q]|] eqn:NP; [|exact I2].
      destruct (now <? t) eqn:T; cbn [fst].
      * destruct I2 as (J1 & J2 & J3 & J4 & J5 & J6 & J7 & J8). unfold Inv, set_next. cbn -[inject_Z]. spl; try tauto. rewrite S4 in *. exact J8.
      * pose proof I2 as (J1 & J2 & J3 & J4 & J5 & J6 & J7 & J8). unfold Inv, set_next. cbn -[inject_Z]. spl; try tauto.
        -- intro N. destruct q as [q|]; [|cbn in N; congruence]. eapply next_poll_release; try eassumption. rewrite S4; reflexivity.
        -- rewrite S4 in *. exact J8.
  - unfold poll_queue. destruct (gate s); [exact I|]. destruct (next_queue s) as [q|] eqn:NQ; [|exact I].
    assert (last_handle s <> None) as LN. { intro N. rewrite N in A. destruct A as (_ & _ & A). discriminate. }
    assert (inject_Z (debt s) <= burst)%Q as DB by (apply D2; congruence).
    destruct snt as [[t n]|].
    + unfold register_send. cbn [probes]. rewrite P. cbn [check_internal]. unfold Inv. cbn -[inject_Z Z.min rate_mul].
      assert (Z.min (debt s + n) (rate_mul (adjusted s) MAX_DEBT_IN_TIME) = debt s + n) as ->.
      { apply Z.min_l. rewrite Zle_Qle. rewrite inject_Z_plus. destruct (last_handle s); [|congruence].
        pose proof (rate_mul_lower (adjusted s) MAX_DEBT_IN_TIME) as RL. unfold MAX_DEBT_IN_TIME in *.
        assert (inject_Z n <= inject_Z M)%Q by (rewrite <- Zle_Qle; lia).
        unfold Qdiv in *. change (inject_Z 8000000000) with (8000000000 # 1)%Q in *. change (/ (8000000000 # 1))%Q with (1 # 8000000000)%Q in *.
        change (inject_Z 500000000) with (500000000 # 1)%Q in *. lra. }
      spl; try tauto; try lra; try lia.
      all: first [discriminate | intros N; congruence | destruct (last_handle s); [tauto|congruence]
        | rewrite inject_Z_plus; assert (inject_Z n <= inject_Z M)%Q by (rewrite <- Zle_Qle; lia); lra].
    + cbn [fst]. unfold Inv. cbn -[inject_Z]. spl; try tauto. destruct (last_handle s); [tauto|congruence].
  - unfold Inv, set_pacing. cbn -[inject_Z]. spl; try tauto.
  - unfold Inv, set_padding. cbn -[inject_Z]. spl; try tauto.
  - tauto.
  - unfold check_probe_complete. rewrite P. cbn [check_internal]. destruct (completed s); cbn [fst]; unfold Inv; cbn -[inject_Z]; spl; tauto.
Qed.

Lemma handle_debt s now qs : debt (fst (handle_timeout s now qs)) = sat_sub (debt s) (rate_mul (adjusted s) (elapsed s now)) /\
  last_handle (fst (handle_timeout s now qs)) = Some now.
Proof.
  unfold handle_timeout. set (s1 := mkPacer _ _ _ _ _ _ _ _ _ _ _ _ _ _). pose proof (padding_request_same s1 now) as PS.
  destruct (padding_request s1 now) as [s2 req]. cbn [fst] in PS. destruct PS as (_ & _ & _ & S4 & _ & S6 & _ & _ & S9 & _).
  destruct req as [[m n]|]; cbn [fst]; [cbn; rewrite S4, S6; split; reflexivity|].
  destruct (next_queue s2); cbn [fst]; [rewrite S4, S6; split; reflexivity|].
  destruct (next_poll s2 now) as [[[t r] q]|]; cbn; rewrite S4, S6; split; reflexivity.
Qed.

Lemma run_bound es : forall s, Inv s -> Forall ev_ok es -> times_from (last_handle s) es ->
  let '(s', os) := run s es in
  Inv s' /\ (inject_Z (debt s) + inject_Z (sent es os) <= inject_Z (debt s') + hi * inject_Z (span (last_handle s) es) / inject_Z 8000000000 + inject_Z (handles es) * (1 # 2))%Q.
Proof.
  induction es as [|e es IH]; intros s I F T.
  - cbn [run sent span handles]. split; [exact I|]. unfold Qdiv. change (inject_Z 0) with 0%Q. lra.
  - inversion F as [|? ? F1 F2]; subst. pose proof (step_inv s e I F1) as I'.
    cbn [run]. destruct (step s e) as [s1 o] eqn:ST. cbn [fst] in I'.
    pose proof I as (P & R & D0 & D1 & D2 & LE & U & A).
    assert (forall h, last_handle s1 = h -> times_from h es -> 
       (inject_Z (debt s) + inject_Z (sent (e :: es) (o :: snd (run s1 es))) + inject_Z (handles es) * (1#2) + hi * inject_Z (span h es) / inject_Z 8000000000 <=
        inject_Z (debt s1) + inject_Z (sent es (snd (run s1 es))) + hi * inject_Z (span (last_handle s) (e :: es)) / inject_Z 8000000000 + inject_Z (handles (e :: es)) * (1 # 2))%Q ->
       let '(s', os) := (let (s'', os) := run s1 es in (s'', o :: os)) in
       Inv s' /\ (inject_Z (debt s) + inject_Z (sent (e :: es) os) <= inject_Z (debt s') + hi * inject_Z (span (last_handle s) (e :: es)) / inject_Z 8000000000 + inject_Z (handles (e :: es)) * (1 # 2))%Q) as K.
    { intros h Hh Th Q. specialize (IH s1 I' F2). rewrite Hh in IH. specialize (IH Th). destruct (run s1 es) as [s' os]. cbn [snd] in Q. destruct IH as [IH1 IH2].
      split; [exact IH1|]. lra. }
    destruct e as [now qs|snt|r|r|c|]; cbn [step PacerSpec.ev_ok] in *.
    + pose proof (handle_debt s now qs) as [HD HL]. destruct (handle_timeout s now qs) as [s2 rq]. inversion ST; subst s1 o. cbn [fst] in *.
      cbn [times_from] in T. destruct T as [T1 T2]. apply (K _ HL T2). cbn [sent handles span].
      assert (0 <= elapsed s now) as EN by (unfold elapsed; destruct (last_handle s); lia).
      assert (elapsed s now = match last_handle s with Some p => now - p | None => 0 end) as EE by (unfold elapsed; destruct (last_handle s); lia).
      rewrite <- EE, HD. rewrite !inject_Z_plus. change (inject_Z 1) with 1%Q.
      pose proof (rate_mul_upper (adjusted s) (elapsed s now)) as RU.
      assert (inject_Z (debt s) <= inject_Z (sat_sub (debt s) (rate_mul (adjusted s) (elapsed s now))) + inject_Z (rate_mul (adjusted s) (elapsed s now)))%Q as SB.
      { rewrite <- inject_Z_plus, <- Zle_Qle. unfold sat_sub. lia. }
      assert (adjusted s * inject_Z (elapsed s now) <= hi * inject_Z (elapsed s now))%Q as AH.
      { apply Qmult_le_compat_r; [|apply inj_nonneg; exact EN]. destruct (last_handle s); [tauto|]. destruct A as [-> _]. lra. }
      unfold Qdiv in *. change (/ inject_Z 8000000000)%Q with (1 # 8000000000)%Q in *. lra.
    + unfold poll_queue in ST. destruct (gate s).
      { inversion ST; subst. apply (K _ eq_refl T). cbn [sent handles span]. destruct snt as [[? ?]|]; lra. }
      destruct (next_queue s) as [q|] eqn:NQ.
      2: { inversion ST; subst. apply (K _ eq_refl T). cbn [sent handles span]. destruct snt as [[? ?]|]; lra. }
      assert (inject_Z (debt s) <= burst)%Q as DB by (apply D2; congruence).
      assert (last_handle s <> None) as LN. { intro N. rewrite N in A. destruct A as (_ & _ & A). discriminate. }
      destruct snt as [[t n]|].
      * inversion ST; subst s1 o. clear ST. apply (K (last_handle s)).
        -- unfold register_send. cbn [probes]. rewrite P. reflexivity.
        -- exact T.
        -- cbn [sent handles span]. unfold register_send. cbn [probes debt adjusted]. rewrite P. cbn [check_internal debt].
           assert (Z.min (debt s + n) (rate_mul (adjusted s) MAX_DEBT_IN_TIME) = debt s + n) as ->.
           { apply Z.min_l. rewrite Zle_Qle. rewrite inject_Z_plus. destruct (last_handle s); [|congruence].
             pose proof (rate_mul_lower (adjusted s) MAX_DEBT_IN_TIME) as RL. unfold MAX_DEBT_IN_TIME in *.
             assert (inject_Z n <= inject_Z M)%Q by (rewrite <- Zle_Qle; lia).
             unfold Qdiv in *. change (inject_Z 8000000000) with (8000000000 # 1)%Q in *. change (/ (8000000000 # 1))%Q with (1 # 8000000000)%Q in *.
             change (inject_Z 500000000) with (500000000 # 1)%Q in *. lra. }
           rewrite !inject_Z_plus. lra.
      * inversion ST; subst. apply (K (last_handle s) eq_refl T). cbn [sent handles span debt]. lra.
    + inversion ST; subst. apply (K _ eq_refl T). cbn [sent handles span set_pacing debt last_handle]. lra.
    + inversion ST; subst. apply (K _ eq_refl T). cbn [sent handles span set_padding debt last_handle]. lra.
    + tauto.
    + unfold check_probe_complete in ST. rewrite P in ST. cbn [check_internal] in ST. destruct (completed s); inversion ST; subst; apply (K _ eq_refl T); cbn [sent handles span debt last_handle]; lra.
Qed.
End Band.

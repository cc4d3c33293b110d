(** C31, continued: where released packets come from, probes, and what rounding does. *)
From Verif Require Import Base BaseFacts PacerModel PacerSpec PacerProofs PacerProofs2 PacerProps.
From Coq Require Import Lqa.
Open Scope Z_scope.

Lemma run_app s a b : run s (a ++ b) = (fst (run (fst (run s a)) b), snd (run s a) ++ snd (run (fst (run s a)) b)).
Proof.
  revert s. induction a as [|e a IH]; intro s; cbn [app run fst snd]; [destruct (run s b); reflexivity|].
  destruct (step s e) as [s1 o]. rewrite IH. destruct (run s1 a) as [s2 os]. reflexivity.
Qed.
Lemma run_length s es : length (snd (run s es)) = length es.
Proof. revert s. induction es as [|e es IH]; intro s; [reflexivity|]. cbn [run]. destruct (step s e) as [s1 o]. specialize (IH s1). destruct (run s1 es). cbn [snd length] in *. rewrite IH. reflexivity. Qed.
Lemma polled_app a b : polled (a ++ b) = polled a + polled b.
Proof. induction a as [|o a IH]; [reflexivity|]. cbn [app polled]. destruct o as [|[]| |]; lia. Qed.

(** ** Where a released packet comes from *)
(** the queue had something when the time was handled *)
Definition offered (m : Z) (e : event) : Prop :=
  match e with
  | EHandle _ qs => exists q, In q qs /\ q_id q = m /\ (0 < q_count q \/ (q_unpaced q = true /\ q_unsent q <> None) \/ q_use_pad q = true)
  | _ => False
  end.

Lemma min_by_in {A} lt (l : list A) m : min_by lt l = Some m -> In m l.
Proof. revert m. induction l as [|a l IH]; intros m; [discriminate|]. cbn. destruct (min_by lt l) as [y|]; [destruct (lt y a)|]; intro H; inversion H; subst; auto. Qed.

Lemma next_poll_offered s now t r q : next_poll s now = Some ((t, r), Some q) -> In q (queues s) /\ (0 < q_count q \/ (q_unpaced q = true /\ q_unsent q <> None)).
Proof.
  unfold next_poll. destruct (last_emitted s).
  - destruct (min_by _ (filter (fun q0 => q_unpaced q0 && _) (queues s))) as [u|] eqn:E.
    + intro H. inversion H; subst. apply min_by_in, filter_In in E as [E1 E2]. apply andb_true_iff in E2 as [E2 E3]. split; [exact E1|]. right. split; [exact E2|]. destruct (q_unsent q); congruence.
    + destruct (min_by key_lt (filter nonempty (queues s))) as [u|] eqn:E2.
      * apply min_by_in, filter_In in E2 as [E3 E4]. apply Z.ltb_lt in E4. destruct (qltb 0 (adjusted s)).
        -- destruct (probes s); intro H; inversion H; subst; split; try exact E3; left; exact E4.
        -- destruct (_ && _); [|discriminate]. destruct (probes s); discriminate.
      * destruct (_ && _); [|discriminate]. destruct (probes s); discriminate.
  - destruct (filter nonempty (queues s)) as [|x l] eqn:E; [discriminate|]. intro H. inversion H; subst.
    assert (In q (filter nonempty (queues s))) as I by (rewrite E; left; reflexivity). apply filter_In in I as [I1 I2]. apply Z.ltb_lt in I2. tauto.
Qed.

Lemma handle_offers s now qs m : next_queue (fst (handle_timeout s now qs)) = Some m -> next_queue s = Some m \/ offered m (EHandle now qs).
Proof.
  pose proof (C31_padding_request s now qs) as PR. unfold handle_timeout in *. set (s1 := mkPacer _ _ _ _ _ _ _ _ _ _ _ _ _ _) in *.
  pose proof (padding_request_same s1 now) as PS. destruct (padding_request s1 now) as [s2 req]. cbn [fst] in PS.
  destruct PS as (_ & _ & _ & _ & _ & _ & _ & S8 & S9 & _). destruct req as [[m0 n0]|].
  - cbn [fst set_next next_queue]. intro H. inversion H; subst. right. destruct (PR m n0 _ eq_refl) as (_ & (q & Q1 & Q2 & Q3) & _). exists q. tauto.
  - clear PR. destruct (next_queue s2) as [x|] eqn:NQ; [cbn [fst]; intro H; left; rewrite NQ in H; rewrite <- H, S9; reflexivity|].
    destruct (next_poll s2 now) as [[[t r] q]|] eqn:NP; [|cbn [fst]; congruence]. cbn [fst set_next next_queue]. destruct (now <? t); [discriminate|].
    destruct q as [q|]; [|discriminate]. cbn [option_map]. intro H. inversion H; subst. right. destruct (next_poll_offered _ _ _ _ _ NP) as [A B]. rewrite S8 in A. exists q. split; [exact A|]. split; [reflexivity|]. tauto.
Qed.

Lemma step_next s e m : next_queue (fst (step s e)) = Some m -> next_queue s = Some m \/ offered m e.
Proof.
  destruct e as [now qs|snt|r|r|c|]; cbn [step]; try (intro; left; assumption).
  - pose proof (handle_offers s now qs m) as H. destruct (handle_timeout s now qs). exact H.
  - unfold poll_queue. destruct (gate s); [tauto|]. destruct (next_queue s) eqn:N; [|cbn; congruence]. cbn [fst]. destruct snt as [[t n]|]; [|cbn; discriminate].
    unfold register_send. destruct (check_internal _). cbn. discriminate.
  - unfold check_probe_complete. destruct (completed s); [cbn; tauto|]. destruct (check_internal _). cbn. tauto.
Qed.

(** A queue named by poll_queue was offered (with packets, or for padding) in an earlier call of
    handle_timeout, and each such offer is used at most once (see C31_one_packet_per_timeout). *)
Theorem C31_polled_queue_was_offered : forall r es snt m c,
  snd (step (fst (run (new r) es)) (EPoll snt)) = OPolled (Some (m, c)) ->
  exists a e b, es = a ++ e :: b /\ offered m e /\ polled (snd (run (fst (run (new r) (a ++ [e]))) b)) = 0.
Proof.
  intros r es snt m c H.
  assert (next_queue (fst (run (new r) es)) = Some m) as N.
  { cbn [step] in H. unfold poll_queue in H. destruct (gate _); [discriminate|]. destruct (next_queue _); [|discriminate]. inversion H; reflexivity. }
  clear H snt c. revert N. induction es as [|e es IH] using rev_ind; [discriminate|]. intro N. rewrite run_app in N. cbn [fst run] in N.
  set (s := fst (run (new r) es)) in *. destruct (step s e) as [s1 o] eqn:ST. cbn [fst] in N.
  pose proof (step_next s e m) as SN. rewrite ST in SN. cbn [fst] in SN. destruct (SN N) as [A|A].
  - destruct (IH A) as (a & x & b & E1 & E2 & E3). subst es. exists a, x, (b ++ [e]). split; [rewrite <- app_assoc; reflexivity|]. split; [exact E2|].
    rewrite run_app. cbn [snd]. rewrite polled_app, E3. cbn [run].
    assert (fst (run (fst (run (new r) (a ++ [x]))) b) = s) as ->.
    { unfold s. change (a ++ x :: b) with (a ++ [x] ++ b). rewrite app_assoc. rewrite (run_app (new r) (a ++ [x]) b). reflexivity. }
    rewrite ST. cbn [snd]. assert (polled [o] = 0) as P0; [|exact P0].
    (* a successful poll would have taken the queue *)
    destruct e as [now qs|snt|q|q|c|]; cbn [step] in ST; try (inversion ST; reflexivity).
    + destruct (handle_timeout s now qs); inversion ST; reflexivity.
    + unfold poll_queue in ST. destruct (gate s); [inversion ST; reflexivity|]. destruct (next_queue s); [|inversion ST; reflexivity].
      inversion ST; subst. exfalso. destruct snt as [[t n]|]; [|discriminate]. unfold register_send in N. destruct (check_internal _). discriminate.
    + destruct (check_probe_complete s); inversion ST; reflexivity.
  - exists es, e, []. split; [reflexivity|]. split; [exact A|reflexivity].
Qed.

(** ** Probes *)
Lemma sent_app a b oa ob : length oa = length a -> sent (a ++ b) (oa ++ ob) = sent a oa + sent b ob /\ sends (a ++ b) (oa ++ ob) = sends a oa + sends b ob.
Proof.
  revert oa. induction a as [|e a IH]; intros oa H; destruct oa as [|o oa]; try discriminate; [split; reflexivity|].
  cbn [app length] in *. destruct (IH oa) as [A B]; [congruence|]. cbn [sent sends].
  destruct e as [?|[[? ?]|]|?|?|?|], o as [?|[]|?|]; rewrite ?A, ?B; split; try reflexivity; lia.
Qed.

(** progress of a probe: the bytes and packets counted were sent after it was started *)
Definition counted (r : Q) (es : list event) (p : probe) : Prop :=
  exists a b, es = a ++ EProbe (p_cfg p) :: b /\
  let s := fst (run (new r) (a ++ [EProbe (p_cfg p)])) in
  p_bytes p <= sent b (snd (run s b)) /\ p_packets p <= sends b (snd (run s b)).
Definition finished (r : Q) (es : list event) (c : Z) : Prop :=
  exists a cfg b, es = a ++ EProbe cfg :: b /\ pc_cluster cfg = c /\
  let s := fst (run (new r) (a ++ [EProbe cfg])) in
  target_bytes cfg <= sent b (snd (run s b)) /\ pc_min_packets cfg <= sends b (snd (run s b)).

Definition nonneg_ev (e : event) : Prop := match e with EPoll (Some (_, n)) => 0 <= n | _ => True end.
Lemma sent_one s e : nonneg_ev e -> 0 <= sent [e] (snd (run s [e])) /\ 0 <= sends [e] (snd (run s [e])).
Proof.
  intro H. cbn [run]. destruct (step s e) as [s1 o]. cbn [snd]. destruct e as [?|[[? ?]|]|?|?|?|], o as [?|[]|?|]; cbn in *; lia.
Qed.
Lemma window_snoc r a x b e : let s := fst (run (new r) (a ++ [x])) in let st := fst (run (new r) (a ++ x :: b)) in
  sent (b ++ [e]) (snd (run s (b ++ [e]))) = sent b (snd (run s b)) + sent [e] (snd (run st [e])) /\
  sends (b ++ [e]) (snd (run s (b ++ [e]))) = sends b (snd (run s b)) + sends [e] (snd (run st [e])).
Proof.
  intros s st. rewrite run_app. cbn [snd]. 
  assert (fst (run s b) = st) as ->. { unfold s, st. change (a ++ x :: b) with (a ++ [x] ++ b). rewrite app_assoc, (run_app (new r) (a ++ [x]) b). reflexivity. }
  apply sent_app. apply run_length.
Qed.
Lemma counted_snoc r es e p : nonneg_ev e -> counted r es p -> counted r (es ++ [e]) p.
Proof.
  intros NE (a & b & E & H). subst es. cbv zeta in H. exists a, (b ++ [e]). split; [rewrite <- app_assoc; reflexivity|]. cbv zeta.
  destruct (window_snoc r a (EProbe (p_cfg p)) b e) as [A B]. rewrite A, B.
  destruct (sent_one (fst (run (new r) (a ++ EProbe (p_cfg p) :: b))) e NE). lia.
Qed.
Lemma finished_snoc r es e c : nonneg_ev e -> finished r es c -> finished r (es ++ [e]) c.
Proof.
  intros NE (a & cfg & b & E & C & H). subst es. cbv zeta in H. exists a, cfg, (b ++ [e]). split; [rewrite <- app_assoc; reflexivity|]. split; [exact C|]. cbv zeta.
  destruct (window_snoc r a (EProbe cfg) b e) as [A B]. rewrite A, B.
  destruct (sent_one (fst (run (new r) (a ++ EProbe cfg :: b))) e NE). lia.
Qed.
(** only the counters matter *)
Lemma counted_same r es p p' : p_cfg p' = p_cfg p -> p_bytes p' = p_bytes p -> p_packets p' = p_packets p -> counted r es p -> counted r es p'.
Proof. unfold counted. intros -> -> ->. tauto. Qed.
Lemma complete_finished r es p : is_complete p = true -> counted r es p -> finished r es (pc_cluster (p_cfg p)).
Proof.
  unfold is_complete. destruct (p_started p); [|discriminate]. intro H. apply andb_true_iff in H as [H1 H2]. apply Z.leb_le in H1, H2.
  intros (a & b & E & C). cbv zeta in C. exists a, (p_cfg p), b. split; [exact E|]. split; [reflexivity|]. cbv zeta. lia.
Qed.
Lemma counted_record r es t n p : 0 <= n -> counted r es p -> (* the last poll released *)
  forall q c, snd (step (fst (run (new r) es)) (EPoll (Some (t, n)))) = OPolled (Some (q, c)) ->
  counted r (es ++ [EPoll (Some (t, n))]) (record_packet p t n).
Proof.
  intros N (a & b & E & H) q c ST. cbv zeta in H. subst es. exists a, (b ++ [EPoll (Some (t, n))]). split; [rewrite <- app_assoc; reflexivity|]. cbv zeta.
  change (p_cfg (record_packet p t n)) with (p_cfg p). change (p_bytes (record_packet p t n)) with (p_bytes p + n). change (p_packets (record_packet p t n)) with (p_packets p + 1).
  destruct (window_snoc r a (EProbe (p_cfg p)) b (EPoll (Some (t, n)))) as [A B]. rewrite A, B. 
  set (s0 := fst (run (new r) (a ++ EProbe (p_cfg p) :: b))) in *. cbn [run]. destruct (step s0 (EPoll (Some (t, n)))) as [s1 o]. cbn [snd] in *. subst o. cbn. lia.
Qed.

Lemma check_internal_cases ps : (exists p ps', ps = p :: ps' /\ is_complete p = true /\ check_internal ps = (ps', Some (pc_cluster (p_cfg p)))) \/ check_internal ps = (ps, None).
Proof. destruct ps as [|p ps]; [right; reflexivity|]. cbn. destruct (is_complete p) eqn:E; [left; eauto|right; reflexivity]. Qed.

Lemma probe_inv r es : Forall nonneg_ev es ->
  let s := fst (run (new r) es) in Forall (counted r es) (probes s) /\ (forall c, completed s = Some c -> finished r es c).
Proof.
  induction es as [|e es IH] using rev_ind; intro F; [split; [constructor|discriminate]|].
  apply Forall_app in F as [F1 F2]. inversion F2 as [|? ? NE _]; subst. specialize (IH F1). cbv zeta in *. rewrite run_app. cbn [fst run].
  set (s := fst (run (new r) es)) in *. destruct IH as [P C].
  assert (Forall (counted r (es ++ [e])) (probes s)) as P' by (eapply Forall_impl; [|exact P]; intros p; apply counted_snoc; exact NE).
  assert (forall c, completed s = Some c -> finished r (es ++ [e]) c) as C' by (intros c Hc; apply finished_snoc; auto).
  destruct e as [now qs|snt|q|q|c|]; cbn [step].
  - pose proof (handle_fields s now qs) as H. destruct (handle_timeout s now qs) as [s' rq]. cbv zeta in H. cbn [fst] in *.
    destruct H as (_ & _ & _ & _ & _ & _ & _ & _ & _ & H1 & H2). rewrite H1. split; [|exact C'].
    destruct H2 as [->|[->|(p & ps & E1 & ->)]]; [constructor|exact P'|]. rewrite E1 in P'. inversion P'; subst. constructor; [|assumption].
    destruct (next_packet_cfg p now) as (A1 & A2 & A3). eapply counted_same; eauto.
  - unfold poll_queue. destruct (gate s) eqn:G; [split; assumption|]. destruct (next_queue s) as [q|] eqn:NQ; [|split; assumption]. cbn [fst].
    destruct snt as [[t n]|]; [|split; assumption].
    assert (exists c, snd (step s (EPoll (Some (t, n)))) = OPolled (Some (q, c))) as [c0 SP].
    { cbn [step]. unfold poll_queue. rewrite G, NQ. eexists. reflexivity. }
    unfold register_send. cbn [probes completed].
    assert (Forall (counted r (es ++ [EPoll (Some (t, n))])) (match probes s with p :: ps => record_packet p t n :: ps | [] => [] end)) as K.
    { destruct (probes s) as [|p ps]; [constructor|]. inversion P; subst. inversion P'; subst. constructor; [|assumption]. eapply counted_record; eassumption. }
    destruct (check_internal_cases (match probes s with p :: ps => record_packet p t n :: ps | [] => [] end)) as [(p & ps & E1 & E2 & E3)|E3]; rewrite E3.
    + cbn [probes completed fst]. rewrite E1 in K. inversion K; subst. split; [assumption|]. intros c Hc. inversion Hc; subst. apply complete_finished; assumption.
    + cbn [probes completed fst]. split; assumption.
  - split; assumption.
  - split; assumption.
  - cbn [fst start_probe probes completed]. split; [|exact C']. apply Forall_app. split; [exact P'|]. constructor; [|constructor].
    exists es, []. split; [reflexivity|]. cbv zeta. cbn. lia.
  - unfold check_probe_complete. destruct (completed s) as [c|] eqn:CC; [cbn; split; [exact P'|discriminate]|].
    destruct (check_internal_cases (probes s)) as [(p & ps & E1 & E2 & E3)|E3]; rewrite E3; cbn [fst probes completed].
    + rewrite E1 in P'. inversion P'; subst. split; [assumption|discriminate].
    + split; [assumption|discriminate].
Qed.

(** A probe reported complete has sent its bytes and its number of packets since it was started. *)
Theorem C31_probe_complete : forall r es c, Forall nonneg_ev es ->
  snd (step (fst (run (new r) es)) ECheck) = ODone (Some c) -> finished r es c.
Proof.
  intros r es c F H. destruct (probe_inv r es F) as [P C]. set (s := fst (run (new r) es)) in *. cbn [step] in H. unfold check_probe_complete in H.
  destruct (completed s) as [c'|] eqn:CC; [inversion H; subst; apply C; reflexivity|].
  destruct (check_internal_cases (probes s)) as [(p & ps & E1 & E2 & E3)|E3]; rewrite E3 in H; cbn in H; [|discriminate]. inversion H; subst.
  rewrite E1 in P. inversion P; subst. apply complete_finished; assumption.
Qed.

(** ** What rounding to whole bytes does *)
Definition q1 (now since : Z) : qstate := mkQ 1 false false now 1000 1 (now - since) None (Some since) 0.
Definition kbit240 : Q := inject_Z 240000.
Definition mbit4 : Q := inject_Z 4000000.

Lemma adjust_q1 R now since : (inject_Z 80000 <= R)%Q -> 0 <= now - since <= 1900000000 -> adjust R [q1 now since] now = R.
Proof.
  intros HR T. unfold adjust. change (queue_count [q1 now since]) with 1. cbn [Z.eqb].
  replace (qltb R (min_rate [q1 now since] now)) with false; [reflexivity|]. symmetry. unfold qltb. apply negb_false_iff, Qle_bool_iff.
  unfold min_rate. change (queue_count [q1 now since]) with 1. change (queue_bytes [q1 now since]) with 1000.
  assert (queue_time [q1 now since] now = now - since) as -> by (unfold queue_time, total_queue_time; cbn -[Z.mul Z.sub Z.add Z.max]; lia).
  rewrite Z.div_1_r. unfold QUEUE_LIMIT. rewrite (Z.max_r 0), (Z.max_r 1000000) by lia. unfold size_per. destruct (Z.eqb_spec (2000000000 - (now - since)) 0); [lia|].
  apply Qle_shift_div_r; [change 0%Q with (inject_Z 0); rewrite <- Zlt_Qlt; lia|].
  assert (inject_Z (1000 * 8000000000) <= inject_Z 80000 * inject_Z (2000000000 - (now - since)))%Q as B by (rewrite <- inject_Z_mult, <- Zle_Qle; lia).
  eapply Qle_trans; [exact B|]. apply Qmult_le_compat_r; [exact HR|]. apply inj_nonneg. lia.
Qed.

(** Calls every 10 us at 240 kbit/s: each is worth 0.3 bytes, rounded to none, so a packet that
    one call after 42 ms would release waits for 1.9 s (until the queue limit intervenes). *)
Fixpoint ticks (n : nat) (t : Z) : list event :=
  match n with O => [] | S n' => EHandle t [q1 t 0] :: EPoll (Some (t, 1000)) :: ticks n' (t + 10000) end.
Definition first_packet : list event := [EHandle 0 [q1 0 0]; EPoll (Some (0, 1250))].

Lemma ticks_stuck n : forall s t, 10000 <= t -> t + 10000 * Z.of_nat n <= 1900000000 ->
  last_handle s = Some (t - 10000) -> pacing s = kbit240 -> adjusted s = kbit240 -> debt s = 1250 -> next_queue s = None -> probes s = [] -> last_emitted s <> None ->
  polled (snd (run s (ticks n t))) = 0.
Proof.
  induction n as [|n IH]; intros s t T0 T1 LH PC AD DB NQ PB LE; [reflexivity|]. cbn [ticks run].
  cbn [step]. pose proof (handle_fields s t [q1 t 0]) as HF. 
  pose proof (handle_paced s t [q1 t 0] PB LE NQ) as HP.
  assert (adjust (pacing s) [q1 t 0] t = kbit240) as AJ. { rewrite PC. apply adjust_q1; [vm_compute; discriminate|lia]. }
  rewrite AJ in HP. destruct (handle_timeout s t [q1 t 0]) as [s1 rq]. cbv zeta in *. cbn [fst] in *.
  destruct HF as (H1 & H2 & H3 & H4 & H5 & H6 & H7 & H8 & H9 & H10 & H11).
  assert (elapsed s t = 10000) as EL by (unfold elapsed; rewrite LH; lia).
  assert (debt s1 = 1250) as D1. { rewrite H1, EL, AD, DB. vm_compute. reflexivity. }
  assert (adjusted s1 = kbit240) as A1. { rewrite H5. unfold base_rate. rewrite PB. exact AJ. }
  rewrite D1, A1 in HP. destruct HP as [HP _]; [repeat constructor|exists (q1 t 0); split; [left; reflexivity|vm_compute; reflexivity]|vm_compute; reflexivity|].
  destruct HP as [HT HN]; [vm_compute; reflexivity|].
  unfold poll_queue. rewrite H9, HN. cbn [fst snd].
  assert (probes s1 = []) as P1. { destruct H11 as [->|[->|(p & ps & E1 & _)]]; [reflexivity|exact PB|congruence]. }
  specialize (IH s1 (t + 10000)). destruct (run s1 (ticks n (t + 10000))) as [s2 os]. cbn [snd polled] in *.
  apply IH; try assumption; try lia.
  - rewrite H6. f_equal. lia.
  - rewrite H3. exact PC.
  - rewrite H7. exact LE.
Qed.

Theorem C31_starvation_by_rounding_refuted : forall n, Z.of_nat n <= 189999 ->
  polled (snd (run (new kbit240) (first_packet ++ ticks n 10000))) = 1 /\
  polled (snd (run (new kbit240) (first_packet ++ [EHandle 42000000 [q1 42000000 0]; EPoll (Some (42000000, 1000))]))) = 2.
Proof.
  intros n N. split; [|vm_compute; reflexivity]. rewrite run_app. cbn [snd]. rewrite polled_app.
  rewrite ticks_stuck; [vm_compute; reflexivity|lia|lia|vm_compute; reflexivity|vm_compute; reflexivity|vm_compute; reflexivity
    |vm_compute; reflexivity|vm_compute; reflexivity|vm_compute; reflexivity|vm_compute; discriminate].
Qed.

(** Calls every microsecond at 4 Mbit/s: each is worth half a byte, rounded to one, so the pacer
    sends at twice the rate and there is no bound of the kind rate * time + constant. *)
Fixpoint tick1 (n : nat) (t : Z) : list event :=
  match n with O => [] | S n' => EHandle t [q1 t t] :: tick1 n' (t + 1000) end.
Fixpoint cycles (k : nat) (t : Z) : list event :=
  match k with O => [] | S k' => tick1 1000 t ++ EPoll (Some (t, 1000)) :: cycles k' (t + 1000000) end.
Definition burst_packet : list event := [EHandle 0 [q1 0 0]; EPoll (Some (0, 10000))].

Definition busy (s : pacer) (h D : Z) : Prop :=
  last_handle s = Some h /\ pacing s = mbit4 /\ adjusted s = mbit4 /\ debt s = D /\ (next_queue s = None \/ next_queue s = Some 1) /\ probes s = [] /\ last_emitted s <> None.

Lemma size_div_small D R k : (0 < R)%Q -> (inject_Z (D * 8000000000) <= inject_Z k * R)%Q -> size_div D R <= k.
Proof.
  intros R0 H. unfold size_div. destruct (Qeq_bool R 0) eqn:E; [apply Qeq_bool_iff in E; lra|].
  rewrite <- (qround_int k). apply qround_le. apply Qle_shift_div_r; assumption.
Qed.

Lemma tick_once s h D : busy s h D -> 1 <= D <= 20000 ->
  let s1 := fst (handle_timeout s (h + 1000) [q1 (h + 1000) (h + 1000)]) in busy s1 (h + 1000) (D - 1) /\ next_queue s1 = Some 1 /\ gate s1 = false.
Proof.
  intros (LH & PC & AD & DB & NQ & PB & LE) HD. set (t := h + 1000). pose proof (handle_fields s t [q1 t t]) as HF.
  assert (adjust (pacing s) [q1 t t] t = mbit4) as AJ. { rewrite PC. apply adjust_q1; [vm_compute; discriminate|lia]. }
  cbv zeta in *. destruct HF as (H1 & H2 & H3 & H4 & H5 & H6 & H7 & H8 & H9 & H10 & H11).
  assert (elapsed s t = 1000) as EL by (unfold elapsed; rewrite LH; unfold t; lia).
  assert (debt (fst (handle_timeout s t [q1 t t])) = D - 1) as D1.
  { rewrite H1, EL, AD, DB. replace (rate_mul mbit4 1000) with 1 by (vm_compute; reflexivity). unfold sat_sub. lia. }
  assert (adjusted (fst (handle_timeout s t [q1 t t])) = mbit4) as A1. { rewrite H5. unfold base_rate. rewrite PB. exact AJ. }
  assert (next_queue (fst (handle_timeout s t [q1 t t])) = Some 1) as N1.
  { destruct NQ as [NQ|NQ].
    - pose proof (handle_paced s t [q1 t t] PB LE NQ) as HP. rewrite AJ in HP. cbv zeta in HP. rewrite D1, A1 in HP.
      destruct HP as [_ HP]; [repeat constructor|exists (q1 t t); split; [left; reflexivity|vm_compute; reflexivity]|vm_compute; reflexivity|].
      destruct HP as (q & [<-|[]] & _ & _ & B & _); [|exact B].
      apply size_div_small; [vm_compute; reflexivity|]. unfold mbit4, PACING. rewrite <- inject_Z_mult, <- Zle_Qle. lia.
    - unfold handle_timeout. set (s1 := mkPacer _ _ _ _ _ _ _ _ _ _ _ _ _ _).
      assert (padding_request s1 t = (s1, None)) as -> by reflexivity. change (next_queue s1) with (next_queue s). rewrite NQ. exact NQ. }
  split; [|split; [exact N1|exact H9]]. unfold busy. rewrite H6, H3, A1, D1, N1, H7. spl; try reflexivity; try assumption; [right; reflexivity|].
  destruct H11 as [->|[->|(p & ps & E1 & _)]]; [reflexivity|exact PB|congruence].
Qed.

Lemma tick1_run n : forall s h D, busy s h D -> Z.of_nat n <= D <= 20000 -> (0 < n)%nat ->
  let s1 := fst (run s (tick1 n (h + 1000))) in busy s1 (h + 1000 * Z.of_nat n) (D - Z.of_nat n) /\ next_queue s1 = Some 1 /\ gate s1 = false /\
  sent (tick1 n (h + 1000)) (snd (run s (tick1 n (h + 1000)))) = 0.
Proof.
  induction n as [|n IH]; intros s h D B HD HN; [lia|]. cbn [tick1 run step].
  assert (1 <= D <= 20000) as H1 by lia. pose proof (tick_once s h D B H1) as T. cbv zeta in T.
  destruct (handle_timeout s (h + 1000) [q1 (h + 1000) (h + 1000)]) as [s1 rq]. cbn [fst] in T. destruct T as (T1 & T2 & T3).
  destruct n as [|n'].
  - cbn [tick1 run fst snd sent]. change (Z.of_nat 1) with 1. rewrite Z.mul_1_r. tauto.
  - assert (Z.of_nat (S n') <= D - 1 <= 20000) as H2 by lia. assert (0 < S n')%nat as H3 by lia.
    specialize (IH s1 (h + 1000) (D - 1) T1 H2 H3). cbv zeta in IH. destruct (run s1 (tick1 (S n') (h + 1000 + 1000))) as [s2 os]. cbn [fst snd] in *.
    destruct IH as (I1 & I2 & I3 & I4). replace (h + 1000 * Z.of_nat (S (S n'))) with (h + 1000 + 1000 * Z.of_nat (S n')) by lia.
    replace (D - Z.of_nat (S (S n'))) with (D - 1 - Z.of_nat (S n')) by lia. cbn [sent]. tauto.
Qed.

Lemma cycles_run k : forall s h, busy s h 10000 -> sent (cycles k (h + 1000)) (snd (run s (cycles k (h + 1000)))) = 1000 * Z.of_nat k.
Proof.
  induction k as [|k IH]; intros s h B; [reflexivity|]. cbn [cycles]. rewrite run_app. cbn [snd].
  destruct (sent_app (tick1 1000 (h + 1000)) (EPoll (Some (h + 1000, 1000)) :: cycles k (h + 1000 + 1000000)) (snd (run s (tick1 1000 (h + 1000))))
     (snd (run (fst (run s (tick1 1000 (h + 1000)))) (EPoll (Some (h + 1000, 1000)) :: cycles k (h + 1000 + 1000000)))) (run_length _ _)) as [-> _].
  destruct (tick1_run 1000 s h 10000 B) as (T1 & T2 & T3 & T4); [lia|lia|]. rewrite T4. clear T4.
  set (s1 := fst (run s (tick1 1000 (h + 1000)))) in *. replace (h + 1000 * Z.of_nat 1000) with (h + 1000000) in T1 by lia. replace (10000 - Z.of_nat 1000) with 9000 in T1 by lia.
  cbn [run step]. unfold poll_queue. rewrite T3, T2.
  set (s2 := register_send _ _ _).
  assert (busy s2 (h + 1000000) 10000) as B2.
  { destruct T1 as (LH & PC & AD & DB & NQ & PB & LE). unfold s2, register_send. cbn [probes]. rewrite PB. cbn [check_internal]. unfold busy.
    cbn [last_handle pacing adjusted debt next_queue probes last_emitted]. rewrite LH, PC, AD, DB. spl; try reflexivity; [left; reflexivity|discriminate]. }
  specialize (IH s2 (h + 1000000) B2). replace (h + 1000 + 1000000) with (h + 1000000 + 1000) by lia. destruct (run s2 (cycles k (h + 1000000 + 1000))) as [s3 os]. cbn [snd sent] in *. lia.
Qed.

Lemma tick1_span n : forall h es, span (Some h) (tick1 n (h + 1000) ++ es) = 1000 * Z.of_nat n + span (Some (h + 1000 * Z.of_nat n)) es.
Proof.
  induction n as [|n IH]; intros h es; [cbn [tick1 app]; replace (h + 1000 * Z.of_nat 0) with h by lia; lia|]. cbn [tick1 app span]. rewrite IH.
  replace (h + 1000 + 1000 * Z.of_nat n) with (h + 1000 * Z.of_nat (S n)) by lia. lia.
Qed.
Lemma cycles_span k : forall h, span (Some h) (cycles k (h + 1000)) = 1000000 * Z.of_nat k.
Proof.
  induction k as [|k IH]; intro h; [reflexivity|]. cbn [cycles]. rewrite tick1_span. cbn [span].
  replace (h + 1000 * Z.of_nat 1000) with (h + 1000000) by lia. replace (h + 1000 + 1000000) with (h + 1000000 + 1000) by lia. rewrite IH. lia.
Qed.
Lemma tick1_ok n : forall t h, h <= t -> Forall (ev_ok mbit4 mbit4 10000) (tick1 n t) /\ forall es, (forall h', times_from (Some h') es \/ h' < 0 \/ True) -> True.
Proof. intros. split; [|tauto]. clear h H. revert t. induction n; intro t; [constructor|]. cbn [tick1]. constructor; [|apply IHn].
  cbn [ev_ok]. split; [repeat constructor|]. intros _. unfold min_rate, queue_time, total_queue_time. cbn [fold_right q1 q_origin q_count q_created]. rewrite !Z.sub_diag. vm_compute. discriminate.
Qed.
Lemma cycles_ok k : forall t, Forall (ev_ok mbit4 mbit4 10000) (cycles k t).
Proof.
  induction k; intro t; [constructor|]. cbn [cycles]. apply Forall_app. split; [apply (tick1_ok 1000 t t); lia|]. constructor; [cbn; lia|apply IHk].
Qed.
Lemma tick1_times n : forall h es, times_from (Some (h + 1000 * Z.of_nat n)) es -> times_from (Some h) (tick1 n (h + 1000) ++ es).
Proof.
  induction n as [|n IH]; intros h es T; [cbn [tick1 app]; replace (h + 1000 * Z.of_nat 0) with h in T by lia; exact T|]. cbn [tick1 app times_from]. split; [lia|].
  apply IH. replace (h + 1000 + 1000 * Z.of_nat n) with (h + 1000 * Z.of_nat (S n)) by lia. exact T.
Qed.
Lemma cycles_times k : forall h, times_from (Some h) (cycles k (h + 1000)).
Proof.
  induction k as [|k IH]; intro h; [exact I|]. cbn [cycles]. apply tick1_times. cbn [times_from].
  replace (h + 1000 * Z.of_nat 1000) with (h + 1000000) by lia. replace (h + 1000 + 1000000) with (h + 1000000 + 1000) by lia. apply IH.
Qed.

Theorem C31_rate_bound_without_rounding_refuted : forall extra : Z, exists es,
  Forall (ev_ok mbit4 mbit4 10000) es /\ times_from None es /\
  (inject_Z (sent es (snd (run (new mbit4) es))) > mbit4 * inject_Z (span None es) / inject_Z 8000000000 + inject_Z extra)%Q.
Proof.
  intro extra. set (k := Z.to_nat (Z.max 0 extra)). exists (burst_packet ++ cycles k 1000). split; [|split].
  - apply Forall_app. split; [|apply cycles_ok]. repeat constructor; cbn; try lia. vm_compute. discriminate.
  - cbn [burst_packet app times_from]. split; [exact I|]. apply (cycles_times k 0).
  - assert (busy (fst (run (new mbit4) burst_packet)) 0 10000) as B by (unfold busy; vm_compute; intuition congruence).
    rewrite run_app. cbn [snd]. destruct (sent_app burst_packet (cycles k 1000) (snd (run (new mbit4) burst_packet)) (snd (run (fst (run (new mbit4) burst_packet)) (cycles k 1000))) (run_length _ _)) as [-> _].
    pose proof (cycles_span k 0) as CS. change (0 + 1000) with 1000 in CS. pose proof (cycles_run k _ 0 B) as CR. change (0 + 1000) with 1000 in CR.
    rewrite CR. cbn [burst_packet app span]. rewrite CS.
    replace (sent burst_packet (snd (run (new mbit4) burst_packet))) with 10000 by (vm_compute; reflexivity).
    unfold mbit4, Qdiv. change (/ inject_Z 8000000000)%Q with (1 # 8000000000)%Q.
    assert (extra <= Z.of_nat k) as EK by lia. rewrite Zle_Qle in EK.
    rewrite !inject_Z_plus, !inject_Z_mult. change (inject_Z 0) with 0%Q. change (inject_Z 10000) with (10000 # 1)%Q. change (inject_Z 1000) with (1000 # 1)%Q. change (inject_Z 1000000) with (1000000 # 1)%Q. change (inject_Z 4000000) with (4000000 # 1)%Q.
    assert (0 <= inject_Z (Z.of_nat k))%Q by (apply inj_nonneg; lia). lra.
Qed.

(** ** The hypotheses can be met *)
Example C31_rate_bound_example :
  let es := burst_packet ++ cycles 3 1000 in
  (burst mbit4 + inject_Z 10000 + 1 <= mbit4 * inject_Z 500000000 / inject_Z 8000000000)%Q /\
  Forall (ev_ok mbit4 mbit4 10000) es /\ times_from None es /\ sent es (snd (run (new mbit4) es)) = 13000.
Proof.
  split; [vm_compute; discriminate|]. split; [apply Forall_app; split; [repeat constructor; cbn; try lia; vm_compute; discriminate|apply cycles_ok]|].
  split; [cbn [burst_packet app times_from]; split; [exact I|]; apply (cycles_times 3 0)|vm_compute; reflexivity].
Qed.
Example C31_probe_example :
  let cfg := mkPC 7 (inject_Z 1000000) 15000000 5 2000000 in
  let q t := mkQ 3 false true t 0 0 0 None None 2 in
  let es := [EHandle 10000000 [q 10000000]; EProbe cfg; EHandle 20000000 [q 20000000]; EPoll (Some (20000000, 240)); EHandle 23000000 [q 23000000]; EPoll (Some (23000000, 480));
    EHandle 30000000 [q 30000000]; EPoll (Some (30000000, 480)); EHandle 40000000 [q 40000000]; EPoll (Some (40000000, 480)); EHandle 50000000 [q 50000000]; EPoll (Some (50000000, 480))] in
  snd (step (fst (run (new (inject_Z 300000)) es)) ECheck) = ODone (Some 7).
Proof. vm_compute. reflexivity. Qed.
Example C31_padding_example : exists s', handle_timeout (set_padding (new (inject_Z 300000)) (inject_Z 50000)) 5 [mkQ 3 false true 0 0 0 0 None None 2] = (s', Some (3, 31)).
Proof. eexists. vm_compute. reflexivity. Qed.

Print Assumptions C31_polled_queue_was_offered.
Print Assumptions C31_probe_complete.
Print Assumptions C31_rate_bound_without_rounding_refuted.

From Verif Require Import Base BaseFacts PacerModel PacerSpec PacerProofs.
From Coq Require Import Lqa.
Open Scope Z_scope.

(** ** The gate *)
Lemma step_gate s e : gate s = true -> is_handle e = false -> gate (fst (step s e)) = true /\ polled [snd (step s e)] = 0.
Proof.
  intros G H. destruct e as [now qs|snt|r|r|c|]; cbn [step is_handle] in *; try discriminate; try (split; [exact G|reflexivity]).
  - unfold poll_queue. rewrite G. split; [exact G|reflexivity].
  - unfold check_probe_complete. destruct (completed s); [split; [exact G|reflexivity]|]. destruct (check_internal (probes s)). split; [exact G|reflexivity].
Qed.
Lemma run_gate es : forall s, gate s = true -> forallb (fun e => negb (is_handle e)) es = true -> polled (snd (run s es)) = 0.
Proof.
  induction es as [|e es IH]; intros s G H; [reflexivity|]. cbn [run forallb] in *. apply andb_true_iff in H as [H1 H2]. apply negb_true_iff in H1.
  destruct (step_gate s e G H1) as [A B]. destruct (step s e) as [s1 o]. cbn [fst snd] in *. specialize (IH s1 A H2).
  destruct (run s1 es) as [s2 os]. cbn [snd polled] in *. destruct o as [|[]| |]; cbn [polled] in *; lia.
Qed.
Lemma poll_closes s e : polled [snd (step s e)] <> 0 -> gate (fst (step s e)) = true.
Proof.
  destruct e as [now qs|snt|r|r|c|]; cbn [step]; try (cbn; congruence).
  - destruct (handle_timeout s now qs). cbn. congruence.
  - unfold poll_queue. destruct (gate s) eqn:G; [cbn; congruence|]. destruct (next_queue s); [|cbn; congruence].
    intros _. cbn [fst]. destruct snt as [[t n]|]; [|reflexivity]. unfold register_send. destruct (check_internal _). reflexivity.
  - destruct (check_probe_complete s). cbn. congruence.
Qed.
Lemma run_one es : forall s, forallb (fun e => negb (is_handle e)) es = true -> polled (snd (run s es)) <= 1.
Proof.
  induction es as [|e es IH]; intros s H; [cbn; lia|]. cbn [run forallb] in *. apply andb_true_iff in H as [H1 H2].
  pose proof (poll_closes s e) as PC. destruct (step s e) as [s1 o]. cbn [fst snd] in *.
  specialize (IH s1 H2). pose proof (run_gate es s1) as RG. destruct (run s1 es) as [s2 os]. cbn [snd] in *.
  destruct o as [|[]| |]; cbn [polled] in *; try lia.
Qed.

(** ** Debts *)
Definition sane (e : event) : Prop :=
  match e with
  | EPoll (Some (_, n)) => 0 <= n
  | EPacing r | EPadding r => (0 <= r)%Q
  | EProbe c => (0 <= pc_rate c)%Q
  | _ => True
  end.
Definition Dinv (s : pacer) : Prop :=
  0 <= debt s /\ 0 <= pdebt s /\ (0 <= pacing s)%Q /\ (0 <= adjusted s)%Q /\ (0 <= padding s)%Q /\ Forall (fun p => (0 <= pc_rate (p_cfg p))%Q) (probes s).

Lemma adjust_nonneg b qs now : (0 <= b)%Q -> (0 <= adjust b qs now)%Q.
Proof.
  intro B. unfold adjust. destruct (queue_count qs =? 0); [exact B|]. destruct (qltb b (min_rate qs now)) eqn:E; [|exact B]. apply qltb_true in E.
  destruct (qltb MAX_BITRATE _); [unfold MAX_BITRATE; change (inject_Z 10000000000) with (10000000000 # 1)%Q; lra|]. destruct (qltb _ 0); lra.
Qed.
Lemma check_internal_incl (P : probe -> Prop) ps : Forall P ps -> Forall P (fst (check_internal ps)).
Proof. intro F. destruct F; cbn; [constructor|]. destruct (is_complete x); cbn; [assumption|constructor; assumption]. Qed.

Lemma padding_request_probes s now : exists k, probes (fst (padding_request s now)) = [] \/
  (probes (fst (padding_request s now)) = probes s) \/
  (exists p ps, probes s = p :: ps /\ k = fst (next_packet p now) /\ probes (fst (padding_request s now)) = k :: ps).
Proof.
  unfold padding_request. destruct (negb _); [exists (probe_new (mkPC 0 0 0 0 0)); tauto|].
  destruct (max_by _ _) as [q|]; [|exists (probe_new (mkPC 0 0 0 0 0)); tauto].
  destruct (probes s) as [|p ps]; [exists (probe_new (mkPC 0 0 0 0 0)); left; destruct (negb (debt s =? 0) || negb (pdebt s =? 0)); [reflexivity|]; destruct (Qeq_bool _ 0); reflexivity|].
  exists (fst (next_packet p now)). destruct (negb (should_send_now p now)); [right; left; reflexivity|].
  right. right. exists p, ps. destruct (next_packet p now) as [p' [n|]]; cbn; tauto.
Qed.
Lemma next_packet_cfg p now : p_cfg (fst (next_packet p now)) = p_cfg p /\ p_bytes (fst (next_packet p now)) = p_bytes p /\ p_packets (fst (next_packet p now)) = p_packets p.
Proof.
  unfold next_packet. cbn [p_cfg p_bytes p_packets p_last_pad].
  repeat match goal with |- context [if ?b then _ else _] => destruct b end; cbn; tauto.
Qed.

Lemma handle_fields s now qs : let s' := fst (handle_timeout s now qs) in
  debt s' = sat_sub (debt s) (rate_mul (adjusted s) (elapsed s now)) /\ pdebt s' = sat_sub (pdebt s) (rate_mul (padding s) (elapsed s now)) /\
  pacing s' = pacing s /\ padding s' = padding s /\ adjusted s' = adjust (base_rate s) qs now /\ last_handle s' = Some now /\ last_emitted s' = last_emitted s /\
  queues s' = qs /\ gate s' = false /\ completed s' = completed s /\
  (probes s' = [] \/ probes s' = probes s \/ exists p ps, probes s = p :: ps /\ probes s' = fst (next_packet p now) :: ps).
Proof.
  unfold handle_timeout. set (s1 := mkPacer _ _ _ _ _ _ _ _ _ _ _ _ _ _). pose proof (padding_request_same s1 now) as PS.
  pose proof (padding_request_probes s1 now) as PP.
  destruct (padding_request s1 now) as [s2 req]. cbn [fst] in *. destruct PS as (S1 & S2 & S3 & S4 & S5 & S6 & S7 & S8 & S9 & S10 & S11 & S12 & S13).
  assert (probes s2 = [] \/ probes s2 = probes s \/ exists p ps, probes s = p :: ps /\ probes s2 = fst (next_packet p now) :: ps) as PQ.
  { destruct PP as [k [PP|[PP|(p & ps & A & B & C)]]]; [left; exact PP|right; left; exact PP|]. right. right. exists p, ps. subst k. split; [exact A|exact C]. }
  clear PP.
  destruct req as [[m n]|]; [|destruct (next_queue s2); [|destruct (next_poll s2 now) as [[[t r] q]|]]]; cbn [fst set_next debt pdebt pacing padding adjusted last_handle last_emitted queues gate completed probes];
  rewrite ?S1, ?S2, ?S3, ?S4, ?S5, ?S6, ?S7, ?S8, ?S10, ?S12; (spl; try reflexivity; exact PQ).
Qed.

Lemma step_dinv s e : Dinv s -> sane e -> Dinv (fst (step s e)).
Proof.
  intros (A & B & C & D & E & F) S. destruct e as [now qs|snt|r|r|c|]; cbn [step sane] in *.
  - pose proof (handle_fields s now qs) as H. destruct (handle_timeout s now qs) as [s' rq]. cbn [fst] in *. cbv zeta in H.
    destruct H as (H1 & H2 & H3 & H4 & H5 & _ & _ & _ & _ & _ & H6). unfold Dinv. rewrite H1, H2, H3, H4, H5. unfold sat_sub. spl; try lia; try assumption.
    + apply adjust_nonneg. unfold base_rate. destruct F; assumption.
    + destruct H6 as [->|[->|(p & ps & E1 & ->)]]; [constructor|exact F|]. rewrite E1 in F. inversion F; subst. constructor; [|assumption].
      rewrite (proj1 (next_packet_cfg p now)). assumption.
  - unfold poll_queue. destruct (gate s); [unfold Dinv; tauto|]. destruct (next_queue s); [|unfold Dinv; tauto]. cbn [fst]. destruct snt as [[t n]|]; [|unfold Dinv; tauto].
    unfold register_send. cbn [probes debt pdebt adjusted padding].
    pose proof (check_internal_incl (fun p => (0 <= pc_rate (p_cfg p))%Q) (match probes s with p :: ps => record_packet p t n :: ps | [] => [] end)) as K.
    destruct (check_internal _) as [ps' c]. cbn [fst] in K. unfold Dinv. cbn [debt pdebt pacing adjusted padding probes].
    assert (0 <= rate_mul (adjusted s) MAX_DEBT_IN_TIME) by (apply rate_mul_nonneg; [assumption|unfold MAX_DEBT_IN_TIME; lia]).
    assert (0 <= rate_mul (padding s) MAX_DEBT_IN_TIME) by (apply rate_mul_nonneg; [assumption|unfold MAX_DEBT_IN_TIME; lia]).
    spl; try lia; try assumption. apply K. destruct F; [constructor|]. constructor; assumption.
  - unfold Dinv, set_pacing. cbn. tauto.
  - unfold Dinv, set_padding. cbn. tauto.
  - unfold Dinv, start_probe. cbn [debt pdebt pacing adjusted padding probes fst]. spl; try assumption. apply Forall_app. split; [assumption|]. constructor; [exact S|constructor].
  - unfold check_probe_complete. destruct (completed s); [unfold Dinv; cbn; tauto|].
    pose proof (check_internal_incl (fun p => (0 <= pc_rate (p_cfg p))%Q) (probes s) F) as K. destruct (check_internal (probes s)). cbn in *. unfold Dinv. cbn. tauto.
Qed.
Lemma run_dinv es : forall s, Dinv s -> Forall sane es -> Dinv (fst (run s es)).
Proof.
  induction es as [|e es IH]; intros s D F; [exact D|]. inversion F; subst. cbn [run]. pose proof (step_dinv s e D H1) as D'.
  destruct (step s e) as [s1 o]. cbn [fst] in D'. specialize (IH s1 D' H2). destruct (run s1 es). exact IH.
Qed.

(** ** min_by / max_by *)
Lemma min_by_spec {A} (lt : A -> A -> bool) (Ht : forall x y z, lt y x = false -> lt z y = false -> lt z x = false) (Hr : forall x, lt x x = false)
  (Ha : forall x y, lt x y = true -> lt y x = false) l :
  match min_by lt l with None => l = [] | Some m => In m l /\ forall x, In x l -> lt x m = false end.
Proof.
  induction l as [|a l IH]; [reflexivity|]. cbn [min_by]. destruct (min_by lt l) as [y|].
  - destruct IH as [I1 I2]. destruct (lt y a) eqn:E.
    + split; [right; exact I1|]. intros x [<-|Hx]; [apply Ha; exact E|apply I2; exact Hx].
    + split; [left; reflexivity|]. intros x [<-|Hx]; [apply Hr|]. eapply Ht; [exact E|apply I2; exact Hx].
  - subst l. split; [left; reflexivity|]. intros x [<-|[]]. apply Hr.
Qed.
Lemma max_by_spec {A} (lt : A -> A -> bool) (Ht : forall x y z, lt x y = false -> lt y z = false -> lt x z = false) (Hr : forall x, lt x x = false)
  (Ha : forall x y, lt x y = true -> lt y x = false) l :
  match max_by lt l with None => l = [] | Some m => In m l /\ forall x, In x l -> lt m x = false end.
Proof.
  induction l as [|a l IH]; [reflexivity|]. cbn [max_by]. destruct (max_by lt l) as [y|].
  - destruct IH as [I1 I2]. destruct (lt y a) eqn:E.
    + split; [left; reflexivity|]. intros x [<-|Hx]; [apply Hr|]. eapply Ht; [apply Ha; exact E|apply I2; exact Hx].
    + split; [right; exact I1|]. intros x [<-|Hx]; [exact E|apply I2; exact Hx].
  - subst l. split; [left; reflexivity|]. intros x [<-|[]]. apply Hr.
Qed.
Lemma olt_facts : (forall x y z, olt y x = false -> olt z y = false -> olt z x = false) /\ (forall x, olt x x = false) /\ (forall x y, olt x y = true -> olt y x = false).
Proof.
  split; [|split].
  - intros [x|] [y|] [z|]; cbn; intros; try congruence. apply Z.ltb_ge in H, H0. apply Z.ltb_ge. lia.
  - intros [x|]; cbn; [apply Z.ltb_ge; lia|reflexivity].
  - intros [x|] [y|]; cbn; intros; try congruence. apply Z.ltb_lt in H. apply Z.ltb_ge. lia.
Qed.

(** ** Unpaced packets go first *)
Lemma forallb_count_false qs q : In q qs -> 0 < q_count q -> forallb (fun q => q_count q =? 0) qs = false.
Proof.
  intros I C. apply not_true_iff_false. intro H. rewrite forallb_forall in H. specialize (H q I). apply Z.eqb_eq in H. lia.
Qed.

Lemma unpaced_first s now qs q t : last_emitted s <> None -> next_queue s = None -> In q qs -> q_unpaced q = true -> q_unsent q = Some t -> t <= now -> 0 < q_count q ->
  exists q', In q' qs /\ q_unpaced q' = true /\ (exists t', q_unsent q' = Some t' /\ t' <= t) /\ next_queue (fst (handle_timeout s now qs)) = Some (q_id q') /\ gate (fst (handle_timeout s now qs)) = false.
Proof.
  intros LE NQ I U US T C. unfold handle_timeout. set (s1 := mkPacer _ _ _ _ _ _ _ _ _ _ _ _ _ _).
  assert (padding_request s1 now = (s1, None)) as ->.
  { unfold padding_request. change (queues s1) with qs. rewrite (forallb_count_false qs q I C). reflexivity. }
  change (next_queue s1) with (next_queue s). rewrite NQ. unfold next_poll. change (last_emitted s1) with (last_emitted s). change (queues s1) with qs.
  destruct (last_emitted s) as [le|]; [|congruence].
  set (f := filter _ qs).
  assert (In q f) as IF by (apply filter_In; split; [exact I|]; rewrite U, US; reflexivity).
  destruct olt_facts as (O1 & O2 & O3).
  pose proof (min_by_spec (fun a b => olt (q_unsent a) (q_unsent b)) (fun x y z => O1 _ _ _) (fun x => O2 _) (fun x y => O3 _ _) f) as M.
  destruct (min_by _ f) as [m|]; [|rewrite M in IF; destruct IF]. destruct M as [M1 M2]. specialize (M2 q IF).
  apply filter_In in M1 as [M1 M3]. apply andb_true_iff in M3 as [M3 M4]. destruct (q_unsent m) as [tm|] eqn:UM; [|discriminate].
  rewrite US in M2. cbn in M2. apply Z.ltb_ge in M2.
  destruct (Z.ltb_spec now tm); [lia|]. cbn [fst set_next next_queue gate option_map]. exists m. spl; try assumption; try reflexivity.
  exists tm. split; [exact UM|lia].
Qed.

(** ** Progress: the promised time is kept *)
Lemma inject_0 : inject_Z 0 = 0%Q. Proof. reflexivity. Qed.

Lemma handle_paced s now qs : probes s = [] -> last_emitted s <> None -> next_queue s = None ->
  Forall (fun q => q_unpaced q = false) qs -> (exists q, In q qs /\ 0 < q_count q) -> (0 < adjust (pacing s) qs now)%Q ->
  let s' := fst (handle_timeout s now qs) in
  let d := size_div (debt s') (adjusted s') in
  (PACING < d -> next_time s' = Some (now + d, Paced) /\ next_queue s' = None) /\
  (d <= PACING -> exists q, In q qs /\ 0 < q_count q /\ (forall x, In x qs -> 0 < q_count x -> key_lt x q = false) /\ next_queue s' = Some (q_id q) /\ gate s' = false).
Proof.
  intros P LE NQ U [q [I C]] R s' d. pose proof (handle_fields s now qs) as HF. cbv zeta in HF. fold s' in HF.
  destruct HF as (H1 & H2 & H3 & H4 & H5 & H6 & H7 & H8 & H9 & H10 & H11).
  subst d. rewrite H5, H1 in *. unfold s', handle_timeout in *. clear H1 H2 H3 H4 H5 H6 H7 H8 H9 H10 H11.
  set (s1 := mkPacer _ _ _ _ _ _ _ _ _ _ _ _ _ _) in *.
  assert (padding_request s1 now = (s1, None)) as E.
  { unfold padding_request. change (queues s1) with qs. rewrite (forallb_count_false qs q I C). reflexivity. }
  rewrite E in *. change (next_queue s1) with (next_queue s) in *. rewrite NQ in *. unfold next_poll in *. change (last_emitted s1) with (last_emitted s) in *. change (queues s1) with qs in *.
  destruct (last_emitted s) as [le|]; [|congruence].
  assert (filter (fun q => q_unpaced q && match q_unsent q with Some _ => true | None => false end) qs = []) as FU.
  { clear - U. induction U as [|x l H F IH]; [reflexivity|]. cbn [filter]. rewrite H. exact IH. }
  rewrite FU in *. cbn [min_by] in *.
  assert ((forall x y z, key_lt y x = false -> key_lt z y = false -> key_lt z x = false) /\ (forall x, key_lt x x = false) /\ (forall x y, key_lt x y = true -> key_lt y x = false)) as (O1 & O2 & O3).
  { destruct olt_facts as (O1 & O2 & O3). unfold key_lt. split; [|split].
    - intros x y z. rewrite !orb_false_iff, !andb_false_iff, !Z.ltb_ge, !Z.eqb_neq. intros [A1 A2] [B1 B2]. split; [lia|].
      destruct A2 as [A2|A2]; [left; lia|]. destruct B2 as [B2|B2]; [left; lia|]. right. eapply O1; eassumption.
    - intro x. rewrite O2, andb_false_r, orb_false_r. apply Z.ltb_ge. lia.
    - intros x y. rewrite orb_true_iff, andb_true_iff, Z.ltb_lt, Z.eqb_eq. rewrite orb_false_iff, andb_false_iff, Z.ltb_ge, Z.eqb_neq.
      intros [A|[A B]]; [split; [lia|left; lia]|]. split; [lia|right; apply O3; exact B]. }
  pose proof (min_by_spec key_lt O1 O2 O3 (filter nonempty qs)) as M.
  assert (In q (filter nonempty qs)) as IN by (apply filter_In; split; [exact I|apply Z.ltb_lt; exact C]).
  destruct (min_by key_lt (filter nonempty qs)) as [m|]; [|rewrite M in IN; destruct IN]. destruct M as [M1 M2].
  change (adjusted s1) with (adjust (base_rate s) qs now) in *. unfold base_rate in *. change (probes s1) with (probes s) in *. rewrite P in *.
  assert (qltb 0 (adjust (pacing s) qs now) = true) as Q0.
  { unfold qltb. apply negb_true_iff. apply not_true_iff_false. intro X. apply Qle_bool_iff in X. lra. }
  rewrite Q0 in *. change (last_handle s1) with (Some now) in *. change (debt s1) with (sat_sub (debt s) (rate_mul (adjusted s) (elapsed s now))) in *.
  set (d := size_div _ _) in *. destruct (Z.ltb_spec PACING d) as [G|G].
  - split; [|lia]. intros _. cbn [fst set_next next_time next_queue]. destruct (Z.ltb_spec now (now + d)); [split; reflexivity|unfold PACING in G; lia].
  - split; [lia|]. intros _. apply filter_In in M1 as [M1 M3]. apply Z.ltb_lt in M3. exists m. split; [exact M1|]. split; [exact M3|].
    split. { intros x X1 X2. apply M2. apply filter_In. split; [exact X1|apply Z.ltb_lt; exact X2]. }
    cbn [fst set_next next_queue gate]. rewrite Z.add_0_r, Z.ltb_irrefl. split; reflexivity.
Qed.

(** after the drain time at most one byte of debt is left *)
Lemma drained D r e : 0 <= D -> (0 < r)%Q -> (r <= MAX_BITRATE)%Q -> size_div D r <= e -> sat_sub D (rate_mul r e) <= 1.
Proof.
  intros D0 R RM E. unfold sat_sub. apply Z.max_lub; [|lia].
  unfold size_div in E. destruct (Qeq_bool r 0) eqn:Q0; [apply Qeq_bool_iff in Q0; lra|].
  destruct (qround_bounds (inject_Z (D * 8000000000) / r)) as [_ B]. pose proof (rate_mul_lower r e) as L.
  assert (inject_Z (D * 8000000000) / r - (1 # 2) < inject_Z e)%Q as X by (rewrite Zle_Qle in E; lra).
  assert (inject_Z (D * 8000000000) < r * (inject_Z e + (1 # 2)))%Q as Y.
  { assert (inject_Z (D * 8000000000) / r < inject_Z e + (1 # 2))%Q as Y by lra. apply (Qmult_lt_r _ _ r R) in Y.
    rewrite Qmult_comm, Qmult_div_r in Y by lra. rewrite Qmult_comm. exact Y. }
  rewrite inject_Z_mult in Y. unfold MAX_BITRATE in RM. unfold Qdiv in L. change (/ inject_Z 8000000000)%Q with (1 # 8000000000)%Q in L.
  change (inject_Z 8000000000) with (8000000000 # 1)%Q in *. change (inject_Z 10000000000) with (10000000000 # 1)%Q in *.
  assert (inject_Z D < inject_Z (rate_mul r e + 2))%Q as W by (rewrite inject_Z_plus; change (inject_Z 2) with 2%Q; lra).
  rewrite <- Zlt_Qlt in W. lia.
Qed.

Lemma size_div_one D r : 0 <= D <= 1 -> (inject_Z 201 <= r)%Q -> size_div D r <= PACING.
Proof.
  intros D0 R. change (inject_Z 201) with 201%Q in R. unfold size_div. destruct (Qeq_bool r 0); [unfold PACING; lia|].
  destruct (qround_bounds (inject_Z (D * 8000000000) / r)) as [A _].
  assert (inject_Z (D * 8000000000) / r <= inject_Z 39900000)%Q as B.
  { apply Qle_shift_div_r; [lra|]. assert (inject_Z (D * 8000000000) <= inject_Z 8000000000)%Q as C by (rewrite <- Zle_Qle; lia).
    change (inject_Z 8000000000) with (8000000000 # 1)%Q in C. change (inject_Z 39900000) with (39900000 # 1)%Q. lra. }
  assert (inject_Z (qround (inject_Z (D * 8000000000) / r)) <= inject_Z PACING)%Q as C.
  { unfold PACING. change (inject_Z 39900000) with (39900000 # 1)%Q in B. change (inject_Z 40000000) with (40000000 # 1)%Q. lra. }
  rewrite <- Zle_Qle in C. exact C.
Qed.

Lemma progress s now qs : Dinv s -> probes s = [] -> last_emitted s <> None -> next_queue s = None ->
  Forall (fun q => q_unpaced q = false) qs -> (exists q, In q qs /\ 0 < q_count q) -> (0 < adjust (pacing s) qs now)%Q -> (adjust (pacing s) qs now <= MAX_BITRATE)%Q ->
  let s1 := fst (handle_timeout s now qs) in next_queue s1 = None ->
  exists t, next_time s1 = Some (t, Paced) /\ now < t /\
  forall now' qs', t <= now' -> Forall (fun q => q_unpaced q = false) qs' -> (exists q, In q qs' /\ 0 < q_count q) -> (inject_Z 201 <= adjust (pacing s1) qs' now')%Q ->
  exists q, In q qs' /\ 0 < q_count q /\ next_queue (fst (handle_timeout s1 now' qs')) = Some (q_id q) /\ gate (fst (handle_timeout s1 now' qs')) = false.
Proof.
  intros DI P LE NQ U X R RM s1 NQ1. pose proof (handle_paced s now qs P LE NQ U X R) as H. cbv zeta in H. fold s1 in H.
  pose proof (handle_fields s now qs) as HF. cbv zeta in HF. fold s1 in HF.
  destruct HF as (H1 & H2 & H3 & H4 & H5 & H6 & H7 & H8 & H9 & H10 & H11).
  destruct (Z.le_gt_cases (size_div (debt s1) (adjusted s1)) PACING) as [G|G].
  { destruct H as [_ H]. destruct (H G) as (q & _ & _ & _ & B & _). congruence. }
  destruct H as [H _]. destruct (H G) as [HT _]. exists (now + size_div (debt s1) (adjusted s1)). split; [exact HT|]. split; [unfold PACING in G; lia|].
  intros now' qs' T U' X' R'.
  assert (probes s1 = []) as P1. { destruct H11 as [->|[->|(p & ps & E1 & _)]]; [reflexivity|exact P|congruence]. }
  assert (last_emitted s1 <> None) as LE1 by (rewrite H7; exact LE).
  pose proof (handle_paced s1 now' qs' P1 LE1 NQ1 U' X') as K. 
  assert (0 < adjust (pacing s1) qs' now')%Q as RP by (change (inject_Z 201) with 201%Q in R'; lra). specialize (K RP). cbv zeta in K. destruct K as [_ K].
  pose proof (handle_fields s1 now' qs') as HF. cbv zeta in HF. destruct HF as (I1 & I2 & I3 & I4 & I5 & I6 & I7 & I8 & I9 & I10 & I11).
  rewrite I5, I1 in K. unfold base_rate in K. rewrite P1 in K.
  assert (elapsed s1 now' = now' - now) as EL by (unfold elapsed; rewrite H6; unfold PACING in G; lia).
  rewrite EL in K.
  assert (0 <= debt s1) as D1 by (rewrite H1; unfold sat_sub; lia).
  assert (adjusted s1 = adjust (pacing s) qs now) as A1 by (rewrite H5; unfold base_rate; rewrite P; reflexivity).
  destruct K as (q & K1 & K2 & _ & K3 & K4).
  - apply size_div_one; [|exact R']. split; [unfold sat_sub; lia|]. apply drained; [exact D1|rewrite A1; exact R|rewrite A1; exact RM|lia].
  - exists q. tauto.
Qed.

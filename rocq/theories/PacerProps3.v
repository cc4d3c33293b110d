(** C31: padding and probes. *)
From Verif Require Import Base BaseFacts PacerModel PacerSpec PacerProofs PacerProofs2.
From Coq Require Import Lqa.
Open Scope Z_scope.

(** every queue is empty, some queue takes padding *)
Definition idle (qs : list qstate) : Prop :=
  (forall q, In q qs -> q_count q = 0 /\ q_unsent q = None) /\ exists q, In q qs /\ q_use_pad q = true.

Lemma idle_max qs : idle qs -> exists q, max_by (fun a b => olt (q_emitted a) (q_emitted b)) (filter q_use_pad qs) = Some q.
Proof.
  intros (_ & q & H1 & H2). assert (In q (filter q_use_pad qs)) as H by (apply filter_In; auto). destruct (filter q_use_pad qs) as [|a l]; [contradiction|].
  cbn. destruct (max_by _ l); [destruct (olt _ _)|]; eauto.
Qed.
Lemma idle_all qs : idle qs -> forallb (fun q => q_count q =? 0) qs = true.
Proof. intros [H _]. apply forallb_forall. intros q Hq. apply Z.eqb_eq. apply (H q Hq). Qed.

(** While a probe runs, padding is asked for only up to the bytes the probe still needs, at most one
    interval's worth (or 240 bytes), not sooner than the interval after the last request nor than the
    probe's own rate allows. *)
Theorem C31_probe_padding : forall s now qs m n s' p ps, probes s = p :: ps -> handle_timeout s now qs = (s', Some (m, n)) ->
  p_bytes p + n <= target_bytes (p_cfg p) /\ n <= Z.max (rate_mul (pc_rate (p_cfg p)) (pc_delta (p_cfg p))) 240 /\ 0 < n /\
  p_last_pad p + pc_delta (p_cfg p) <= now /\
  (forall st, p_started p = Some st -> ~ (pc_rate (p_cfg p) == 0)%Q -> st + size_div (p_bytes p) (pc_rate (p_cfg p)) <= now).
Proof.
  intros s now qs m n s' p ps P H. unfold handle_timeout in H. set (s1 := mkPacer _ _ _ _ _ _ _ _ _ _ _ _ _ _) in H.
  destruct (padding_request s1 now) as [s2 req] eqn:E.
  destruct req as [[m0 n0]|]. 2: { destruct (next_queue s2); [discriminate|]. destruct (next_poll s2 now) as [[[? ?] ?]|]; discriminate. }
  inversion H; subst m0 n0. clear H. unfold padding_request in E. change (queues s1) with qs in E. change (probes s1) with (probes s) in E. rewrite P in E.
  destruct (negb (forallb _ qs)); [discriminate|]. destruct (max_by _ _) as [q|]; [|discriminate]. destruct (should_send_now p now) eqn:SN; cbn [negb] in E; [|discriminate].
  unfold should_send_now in SN. apply andb_true_iff in SN as [SN1 SN2]. apply Z.leb_le in SN1, SN2.
  destruct (next_packet p now) as [p' [k|]] eqn:NP; [|discriminate]. inversion E; subst k. clear E.
  unfold next_packet in NP. cbn [p_cfg p_bytes p_last_pad] in NP. destruct (now <? _); [discriminate|]. destruct (now <? _); [discriminate|]. destruct (now <=? _); [discriminate|].
  set (rq := Z.min _ _) in NP. destruct (rq =? 0) eqn:R0; [discriminate|]. assert (n = rq) as RQ by (inversion NP; reflexivity). clear NP. apply Z.eqb_neq in R0. unfold rq, sat_sub in *.
  split; [lia|]. split; [lia|]. split; [lia|]. split; [exact SN2|]. intros st ST NZ. unfold next_probe_time in SN1. rewrite ST in SN1.
  destruct (Qeq_bool (pc_rate (p_cfg p)) 0) eqn:Q0; [apply Qeq_bool_iff in Q0; contradiction|]. lia.
Qed.
Print Assumptions C31_probe_padding.

(** ... and it is asked for as soon as both allow it. *)
Theorem C31_probe_padding_in_time : forall s now qs p ps st, probes s = p :: ps -> idle qs -> 
  p_started p = Some st -> ~ (pc_rate (p_cfg p) == 0)%Q -> 0 < pc_delta (p_cfg p) -> p_bytes p < target_bytes (p_cfg p) ->
  p_last_pad p + pc_delta (p_cfg p) <= now -> st + size_div (p_bytes p) (pc_rate (p_cfg p)) <= now ->
  exists s' m n, handle_timeout s now qs = (s', Some (m, n)).
Proof.
  intros s now qs p ps st P ID ST NZ DL TB T1 T2. unfold handle_timeout. set (s1 := mkPacer _ _ _ _ _ _ _ _ _ _ _ _ _ _).
  unfold padding_request. change (queues s1) with qs. change (probes s1) with (probes s). rewrite P, (idle_all _ ID). cbn [negb]. destruct (idle_max _ ID) as [q ->].
  assert (next_probe_time p <= now) as NT. { unfold next_probe_time. rewrite ST. destruct (Qeq_bool (pc_rate (p_cfg p)) 0) eqn:Q0; [apply Qeq_bool_iff in Q0; contradiction|]. lia. }
  assert (should_send_now p now = true) as SN. { unfold should_send_now. apply andb_true_iff. split; apply Z.leb_le; lia. }
  rewrite SN. cbn [negb]. assert (exists p' n, next_packet p now = (p', Some n)) as (p' & n & NP).
  { unfold next_packet. cbn [p_cfg p_bytes p_last_pad]. replace (now <? p_last_pad p + pc_delta (p_cfg p)) with false by lia. rewrite ST.
    replace (mkProbe (p_cfg p) (p_bytes p) (p_packets p) (Some st) (p_last_pad p)) with p by (destruct p; cbn in *; subst; reflexivity).
    replace (now <? next_probe_time p) with false by lia. replace (now <=? p_last_pad p) with false by lia.
    set (rq := Z.min _ _). assert (rq <> 0) as R0 by (unfold rq, sat_sub; lia). apply Z.eqb_neq in R0. rewrite R0. eauto. }
  rewrite NP. eauto.
Qed.
Print Assumptions C31_probe_padding_in_time.

Lemma drained0 D r e : 0 <= D -> (0 < r)%Q -> (r <= inject_Z 8000000000)%Q -> size_div D r <= e -> sat_sub D (rate_mul r e) = 0.
Proof.
  intros D0 R RM E. unfold sat_sub. enough (D <= rate_mul r e) by lia.
  unfold size_div in E. destruct (Qeq_bool r 0) eqn:Q0; [apply Qeq_bool_iff in Q0; lra|].
  destruct (qround_bounds (inject_Z (D * 8000000000) / r)) as [_ B]. pose proof (rate_mul_lower r e) as L.
  assert (inject_Z (D * 8000000000) / r - (1 # 2) < inject_Z e)%Q as X by (rewrite Zle_Qle in E; lra).
  assert (inject_Z (D * 8000000000) < r * (inject_Z e + (1 # 2)))%Q as Y.
  { assert (inject_Z (D * 8000000000) / r < inject_Z e + (1 # 2))%Q as Y by lra. apply (Qmult_lt_r _ _ r R) in Y.
    rewrite Qmult_comm, Qmult_div_r in Y by lra. rewrite Qmult_comm. exact Y. }
  rewrite inject_Z_mult in Y. unfold Qdiv in L. change (/ inject_Z 8000000000)%Q with (1 # 8000000000)%Q in L.
  change (inject_Z 8000000000) with (8000000000 # 1)%Q in *.
  assert (inject_Z D < inject_Z (rate_mul r e + 1))%Q as W by (rewrite inject_Z_plus; change (inject_Z 1) with 1%Q; lra).
  rewrite <- Zlt_Qlt in W. lia.
Qed.

(** Nothing to send, no probe, a padding rate: padding is asked for now, or a time is promised and the
    first call at or after it asks for padding (rates up to 8 Gbit/s). *)
Theorem C31_padding_time_is_kept : forall r es now qs, (0 <= r)%Q -> Forall sane es ->
  let s := fst (run (new r) es) in
  probes s = [] -> last_emitted s <> None -> next_queue s = None -> idle qs ->
  (0 < pacing s)%Q -> (pacing s <= inject_Z 8000000000)%Q -> (0 < padding s)%Q -> (padding s <= inject_Z 8000000000)%Q ->
  let s1 := fst (handle_timeout s now qs) in
  snd (handle_timeout s now qs) <> None \/
  exists t, fst (poll_timeout s1) = Some (Z.min t (now + PACING)) /\ now < t /\
  forall now' qs', t <= now' -> idle qs' -> snd (handle_timeout s1 now' qs') <> None.
Proof.
  intros r es now qs R F s P LE NQ ID A0 A1 B0 B1 s1.
  assert (Dinv s) as DI. { apply run_dinv; [|exact F]. unfold Dinv, new. cbn. spl; try lia; try lra; try constructor. }
  assert (QC : forall l, idle l -> queue_count l = 0).
  { intros l [H _]. induction l as [|q l IH]; [reflexivity|]. cbn. rewrite (proj1 (H q (or_introl eq_refl))). unfold queue_count in IH. rewrite IH; [reflexivity|]. intros; apply H; right; assumption. }
  assert (ADJ : forall l b n, idle l -> adjust b l n = b) by (intros l b n H; unfold adjust; rewrite (QC l H); reflexivity).
  assert (ST : forall x n l, probes x = [] -> last_emitted x <> None -> next_queue x = None -> idle l -> (0 < padding x)%Q ->
    let D := sat_sub (debt x) (rate_mul (adjusted x) (elapsed x n)) in let PD := sat_sub (pdebt x) (rate_mul (padding x) (elapsed x n)) in
    if (D =? 0) && (PD =? 0) then snd (handle_timeout x n l) <> None
    else let y := fst (handle_timeout x n l) in
      let d := Z.max (size_div D (pacing x)) (size_div PD (padding x)) in
      probes y = [] /\ next_queue y = None /\ last_emitted y = last_emitted x /\ debt y = D /\ pdebt y = PD /\ adjusted y = pacing x /\ padding y = padding x /\ last_handle y = Some n /\
      next_time y = Some (n + (if d =? 0 then 1000 else d), Padding)).
  { clear - ADJ. intros x n l P LE NQ ID B0. cbv zeta. unfold handle_timeout. unfold base_rate. rewrite P, (ADJ _ _ _ ID). set (D := sat_sub (debt x) _). set (PD := sat_sub (pdebt x) _).
    unfold padding_request. cbn [queues probes debt pdebt padding]. rewrite (idle_all _ ID). cbn [negb]. destruct (idle_max _ ID) as [q ->].
    assert (Qeq_bool (padding x) 0 = false) as Q0 by (apply not_true_is_false; intro Z; apply Qeq_bool_iff in Z; lra).
    destruct (D =? 0) eqn:D0; [destruct (PD =? 0) eqn:PD0|]; cbn [negb andb orb]; [rewrite Q0; cbn; discriminate| |];
      cbn [next_queue]; rewrite NQ; unfold next_poll; cbn [last_emitted queues probes adjusted padding debt pdebt last_handle];
      (destruct (last_emitted x) as [le|]; [|congruence]);
      (assert (filter (fun q => q_unpaced q && match q_unsent q with Some _ => true | None => false end) l = []) as FU by (destruct ID as [ID _]; clear - ID; induction l as [|a l IH]; [reflexivity|]; cbn [filter]; rewrite (proj2 (ID a (or_introl eq_refl))), andb_false_r; apply IH; intros; apply ID; right; assumption));
      (assert (filter nonempty l = []) as FN by (destruct ID as [ID _]; clear - ID; induction l as [|a l IH]; [reflexivity|]; cbn [filter]; unfold nonempty at 1; rewrite (proj1 (ID a (or_introl eq_refl))); apply IH; intros; apply ID; right; assumption));
      rewrite FU, FN; cbn [min_by];
      (assert (qltb 0 (padding x) && existsb q_use_pad l = true) as -> by (apply andb_true_iff; split; [unfold qltb; apply negb_true_iff; apply not_true_is_false; intro Z; apply Qle_bool_iff in Z; lra|]; destruct ID as (_ & q0 & I1 & I2); apply existsb_exists; eauto));
      cbn [fst snd set_next probes next_queue last_emitted debt pdebt adjusted padding last_handle next_time option_map];
      (spl; try reflexivity); destruct (n <? _); reflexivity. }
  pose proof (ST s now qs P LE NQ ID B0) as H. cbv zeta in H. fold s1 in H.
  set (D := sat_sub (debt s) _) in *. set (PD := sat_sub (pdebt s) _) in *.
  destruct ((D =? 0) && (PD =? 0)) eqn:DZ; [left; exact H|]. right. destruct H as (H1 & H2 & H3 & H4 & H5 & H6 & H7 & H8 & H9).
  set (d := Z.max (size_div D (pacing s)) (size_div PD (padding s))) in *.
  assert (0 <= D /\ 0 <= PD) as [D0 PD0] by (unfold D, PD, sat_sub; lia).
  assert (SD : forall a q, 0 <= a -> (0 < q)%Q -> 0 <= size_div a q).
  { intros a q Ha Hq. unfold size_div. destruct (Qeq_bool q 0); [lia|]. apply qround_nonneg. apply Qle_shift_div_l; [exact Hq|]. rewrite Qmult_0_l. apply inj_nonneg. lia. }
  pose proof (SD D (pacing s) D0 A0). pose proof (SD PD (padding s) PD0 B0).
  exists (now + (if d =? 0 then 1000 else d)). split; [|split].
  - unfold poll_timeout. rewrite H8, H9. cbn [option_map]. destruct (Z.ltb_spec (now + PACING) (now + (if d =? 0 then 1000 else d))); cbn [fst]; f_equal; lia.
  - destruct (d =? 0) eqn:DD; lia.
  - intros now' qs' T ID'. pose proof (ST s1 now' qs' H1 ltac:(rewrite H3; exact LE) H2 ID' ltac:(rewrite H7; exact B0)) as K. cbv zeta in K.
    assert (elapsed s1 now' = now' - now) as EL by (unfold elapsed; rewrite H8; destruct (d =? 0); lia).
    rewrite EL, H4, H5, H6, H7 in K. assert (d <= now' - now) as DE by (destruct (d =? 0) eqn:DD; lia).
    rewrite (drained0 D (pacing s)), (drained0 PD (padding s)) in K by (try assumption; lia). exact K.
Qed.
Print Assumptions C31_padding_time_is_kept.

(** * The hypotheses are met *)
Definition C31_q (u : bool) : qstate := mkQ 7 false u 0 0 0 0 None None 2.
Definition C31_c : pconfig := mkPC 5 (inject_Z 800000) 15000000 5 2000000.
Example C31_idle : idle [C31_q true].
Proof. split; [intros q [<-|[]]; auto|]. exists (C31_q true). split; [left; reflexivity|reflexivity]. Qed.
Example C31_probe_case : exists s' m n, handle_timeout (mkPacer (inject_Z 800000) 0 (inject_Z 100000) (Some 0) (Some 0) None 0 0 [] None [mkProbe C31_c 0 0 (Some 0) 0] None true false) 3000000 [C31_q true] = (s', Some (m, n)) /\ m = 7 /\ n = 240.
Proof. do 3 eexists. split; [vm_compute; reflexivity|]. split; reflexivity. Qed.
(** after a packet of 1000 bytes, with a padding rate of 100 kbit/s, the time promised is 80 ms later (next call: 40 ms) *)
Example C31_padding_case : let es := [EHandle 0 [mkQ 7 true true 0 1000 1 0 None (Some 0) 0]; EPadding (inject_Z 100000); EPoll (Some (0, 1000)); EHandle 1000 [C31_q true]] in
  let s := fst (run (new (inject_Z 800000)) es) in
  Forall sane es /\ probes s = [] /\ last_emitted s <> None /\ next_queue s = None /\ (0 < padding s)%Q /\ next_time s = Some (80001000, Padding) /\ fst (poll_timeout s) = Some 40001000.
Proof.
  cbv zeta. split.
  - repeat apply Forall_cons; try apply Forall_nil; cbn [sane fst snd]; repeat split; try lia; try (intros q [<-|[]]; cbn; lia); unfold Qle; cbn; lia.
  - vm_compute. repeat split; try reflexivity; discriminate.
Qed.

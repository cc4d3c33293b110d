(** C23: TWCC feedback says what was received. *)
From Verif Require Import Base BaseFacts TwccModel TwccSpec TwccProofs TwccRecvModel TwccRecvSpec TwccRecvProofs TwccRecvQueue TwccRecvNoPanic.
From Coq Require Import Sorting.Sorted.

(** A history of the register: packets that arrive and reports that are asked
    for.  The reports made come out. *)
Inductive rop := Arrive (seq time : Z) | Build (max_bytes : Z).
Definition rop_ok (o : rop) : Prop := match o with Arrive s _ => 0 <= s < U64 | Build m => m <= 10000 end.
Fixpoint rrun (r : recv) (ops : list rop) : res (recv * list twcc) :=
  match ops with
  | [] => Ok (r, [])
  | Arrive s t :: l => rrun (update_seq r s t) l
  | Build m :: l =>
      do (o, r') <- build_report r m ;
      do (r'', ts) <- rrun r' l ;
      Ok (r'', match o with Some t => t :: ts | None => ts end)
  end.

Lemma recv_new_ok keep : reg_ok (recv_new keep).
Proof. split; [constructor|]. split; [cbn; lia|]. split; [constructor|cbn; lia]. Qed.
Lemma rrun_ok : forall ops r r' ts, reg_ok r -> Forall rop_ok ops -> rrun r ops = Ok (r', ts) -> reg_ok r'.
Proof.
  induction ops as [|[s t|m] ops IH]; intros r r' ts Hr Ho E; cbn [rrun] in E.
  - injection E as <- <-. exact Hr.
  - pose proof (Forall_inv Ho) as H0. cbn in H0. apply (IH _ _ _ (update_ok r s t Hr ltac:(lia)) (Forall_inv_tail Ho) E).
  - destruct (build_report r m) as [[o r1]| |] eqn:Eb; cbn [bind] in E; try discriminate.
    destruct (rrun r1 ops) as [[r2 ts2]| |] eqn:Er; cbn [bind] in E; try discriminate. injection E as <- _.
    destruct (build_report_spec r m o r1 Hr Eb (Forall_inv Ho)) as [R1 _]. exact (IH _ _ _ R1 (Forall_inv_tail Ho) Er).
Qed.

(** The statuses a report announces, one per sequence number from its base on. *)
Definition announced (t : twcc) : list status := firstn (Z.to_nat (t_count t)) (statuses (t_chunks t)).
(** Arrivals the register still remembers, and those not reported so far. *)
Definition remembered (r : recv) : list (Z * Z) := rv_q r.
Definition unreported (r : recv) : list (Z * Z) := skipn (rv_from r) (rv_q r).

Lemma announced_eq t sts m : statuses (t_chunks t) = sts ++ rep NotReceived m -> t_count t = zlen sts -> announced t = sts.
Proof.
  intros E C. unfold announced. rewrite E, C. unfold zlen. rewrite Nat2Z.id, firstn_app, firstn_all, Nat.sub_diag. cbn [firstn]. apply app_nil_r.
Qed.

Lemma in_firstn {A} (l : list A) n x : In x (firstn n l) -> In x l.
Proof. revert n. induction l as [|y l IH]; intros [|n] H; cbn in *; try contradiction. destruct H as [H|H]; [auto|right; eauto]. Qed.
Lemma in_skipn {A} (l : list A) n x : In x (skipn n l) -> In x l.
Proof. revert n. induction l as [|y l IH]; intros [|n] H; cbn in *; try contradiction; [auto|right; eauto]. Qed.

Lemma filter_none {A} (f : A -> bool) l : (forall x, In x l -> f x = false) -> filter f l = [].
Proof. induction l as [|x l IH]; intro H; [reflexivity|]. cbn. rewrite (H x) by (left; reflexivity). apply IH. intros; apply H; right; assumption. Qed.
Lemma filter_all {A} (f : A -> bool) l : (forall x, In x l -> f x = true) -> filter f l = l.
Proof. induction l as [|x l IH]; intro H; [reflexivity|]. cbn. rewrite (H x) by (left; reflexivity). f_equal. apply IH. intros; apply H; right; assumption. Qed.
Lemma filter_len {A} (f : A -> bool) l : (length (filter f l) <= length l)%nat.
Proof. induction l as [|x l IH]; [reflexivity|]. cbn. destruct (f x); cbn; lia. Qed.
(** The facts about one report, for a register in order. *)
Lemma report_facts r mx t r' : reg_ok r -> mx <= 10000 -> build_report r mx = Ok (Some t, r') ->
  exists base, hd_error (map fst (unreported r)) = Some base /\ t_base t = base mod U16 /\
    0 < t_count t < U16 /\ zlen (announced t) = t_count t /\
    (forall i, 0 <= i < t_count t -> exists s, nth_error (announced t) (Z.to_nat i) = Some s /\
       (s = NotReceived \/ s = SmallDelta \/ s = LargeDelta) /\
       (s <> NotReceived <-> exists time, In (base + i, time) (remembered r))) /\
    received_at base (announced t) = map fst (firstn (length (t_deltas t)) (unreported r)) /\
    unreported r' = skipn (length (t_deltas t)) (unreported r) /\
    Forall (fun x => base + t_count t <= fst x) (unreported r') /\ reg_ok r'.
Proof.
  intros Rok Hm Hb.
  destruct (build_report_spec r mx _ _ Rok Hb Hm) as [Rok' (base & t0 & m & sts & start & A1 & A2 & A3 & A4 & A5 & A6 & A6' & A7 & A8 & A8' & A8'' & A8''' & A9 & A10 & A11 & A12 & A13 & A14 & A15 & A16 & A17 & A18 & A19 & A20 & A21 & _)].
  rewrite (announced_eq t sts m A9 A6). exists base. unfold unreported. fold (pending_of r). fold (pending_of r'). split.
  { destruct (pending_of r) as [|x l]; [discriminate|]. cbn in A1 |- *. injection A1 as ->. reflexivity. }
  split; [exact A4|]. split; [exact A5|]. split; [symmetry; exact A6|].
  split; [|rewrite A19; auto].
  intros i Hi. destruct (nth_error sts (Z.to_nat i)) as [s|] eqn:En.
  2:{ exfalso. apply nth_error_None in En. unfold zlen in A6. lia. }
  exists s. split; [reflexivity|].
  assert (s = NotReceived \/ s = SmallDelta \/ s = LargeDelta) as K.
  { rewrite Forall_forall in A6'. specialize (A6' s (nth_error_In _ _ En)). destruct s; auto. congruence. }
  split; [exact K|]. split.
  - intro N. assert (In (base + i) (received_at base sts)) as R.
    { apply received_at_in. exists (Z.to_nat i), s. split; [exact En|]. split; [destruct K as [K|K]; [congruence|exact K]|lia]. }
    rewrite A16 in R. apply in_map_iff in R. destruct R as ((s0 & tm) & Q1 & Q2). cbn in Q1. subst s0. exists tm.
    unfold remembered. apply in_firstn in Q2. unfold pending_of in Q2. exact (in_skipn _ _ _ Q2).
  - intros [tm Hin] ->. unfold remembered in Hin. rewrite <- (firstn_skipn (rv_from r)) in Hin. fold (pending_of r) in Hin.
    destruct Rok as (So & _). rewrite <- (firstn_skipn (rv_from r)) in So. fold (pending_of r) in So. destruct (sorted_app_inv _ _ So) as (_ & _ & Lt).
    apply in_app_or in Hin. destruct Hin as [Hin|Hin].
    + rewrite Forall_forall in Lt. specialize (Lt _ Hin). destruct (pending_of r) as [|x l]; [discriminate|]. cbn in A1. injection A1 as ->.
      pose proof (Forall_inv Lt) as L0. cbn in L0. lia.
    + rewrite <- (firstn_skipn (length (t_deltas t))) in Hin. apply in_app_or in Hin. destruct Hin as [Hin|Hin].
      * apply (in_map fst) in Hin. rewrite <- A16 in Hin. apply received_at_in in Hin. destruct Hin as (j & s' & J1 & J2 & J3). cbn in J3.
        assert (j = Z.to_nat i) as -> by lia. rewrite En in J1. injection J1 as <-. destruct J2; discriminate.
      * rewrite Forall_forall in A17. specialize (A17 _ Hin). cbn in A17. lia.
Qed.

(** C23. After any history, a report that is made starts at the first arrival
    not reported yet; it has one status for each sequence number of its range,
    at least one; and a number is called received exactly if an arrival with
    that number is remembered. *)
Theorem C23_report : forall keep ops r ts max_bytes t r', Forall rop_ok ops -> max_bytes <= 10000 ->
  rrun (recv_new keep) ops = Ok (r, ts) -> build_report r max_bytes = Ok (Some t, r') ->
  exists base, hd_error (map fst (unreported r)) = Some base /\ t_base t = base mod U16 /\
    0 < t_count t < U16 /\ zlen (announced t) = t_count t /\
    (forall i, 0 <= i < t_count t -> exists s, nth_error (announced t) (Z.to_nat i) = Some s /\
       (s = NotReceived \/ s = SmallDelta \/ s = LargeDelta) /\
       (s <> NotReceived <-> exists time, In (base + i, time) (remembered r))).
Proof.
  intros keep ops r ts mx t r' Ho Hm Hr Hb. pose proof (rrun_ok _ _ _ _ (recv_new_ok keep) Ho Hr) as Rok.
  destruct (report_facts r mx t r' Rok Hm Hb) as (base & A1 & A2 & A3 & A4 & A5 & _). exists base. auto.
Qed.

(** C23. The deltas of a report belong to the unreported arrivals in order, one
    for each status that calls for one and of the size it calls for; each is
    the time since the arrival before (for the first, since the reference
    time), up to one tick of 250 us.  The reference time is the time of the
    first arrival rounded down to 64 ms steps since the start. *)
Theorem C23_deltas : forall keep ops r ts max_bytes t r', Forall rop_ok ops -> max_bytes <= 10000 ->
  rrun (recv_new keep) ops = Ok (r, ts) -> build_report r max_bytes = Ok (Some t, r') ->
  exists start first, rv_start r' = Some start /\ (rv_start r = Some start \/ rv_start r = None /\ start = first) /\
    hd_error (map snd (unreported r)) = Some first /\
    t_ref t = (Z.max 0 (first - start) / 64000000) mod U32 /\
    map kind (t_deltas t) = needs (announced t) /\
    tracks (start + t_ref t * 64000000) (unreported r) (t_deltas t).
Proof.
  intros keep ops r ts mx t r' Ho Hm Hr Hb. pose proof (rrun_ok _ _ _ _ (recv_new_ok keep) Ho Hr) as Rok.
  destruct (build_report_spec r mx _ _ Rok Hb Hm) as [_ (base & t0 & m & sts & start & A1 & A2 & A3 & A4 & A5 & A6 & A6' & A7 & A8 & A8' & A8'' & A8''' & A9 & A10 & A11 & A12 & A13 & A14 & A15 & A16 & A17 & A18 & A19 & A20 & A21 & _)].
  rewrite (announced_eq t sts m A9 A6). exists start, t0. split; [exact A3|]. split; [destruct (rv_start r); [left; congruence|right; auto]|].
  split; [unfold unreported; fold (pending_of r); destruct (pending_of r) as [|x l]; [discriminate|]; cbn in A1 |- *; injection A1 as ->; reflexivity|].
  split; [rewrite A7; do 1 f_equal; rewrite Z.div_div by lia; reflexivity|]. split; [exact A14|]. exact A18.
Qed.

(** Deltas add up to times; the error adds up too. *)
Fixpoint times (prev : Z) (ds : list delta) : list Z :=
  match ds with [] => [] | d :: l => (prev + delta_ns d) :: times (prev + delta_ns d) l end.
Theorem C23_times : forall ds arrivals prev start i x s t, tracks prev arrivals ds ->
  nth_error (times start ds) i = Some x -> nth_error arrivals i = Some (s, t) ->
  Z.abs (t - x) < Z.abs (prev - start) + 250000 * (Z.of_nat i + 1).
Proof.
  induction ds as [|d ds IH]; intros arr prev start i x s t Ht Hx Ha; [destruct i; discriminate|].
  destruct arr as [|[s0 t0] arr]; [contradiction|]. destruct Ht as [H1 H2]. cbn [times] in Hx. destruct i as [|i]; cbn [nth_error] in *.
  - injection Hx as <-. injection Ha as <- <-. lia.
  - specialize (IH arr t0 (start + delta_ns d) i x s t H2 Hx Ha). lia.
Qed.

(** C23. The message fits in the size asked for, also with the padding. *)
Theorem C23_size : forall keep ops r ts max_bytes t r', Forall rop_ok ops -> max_bytes <= 10000 ->
  rrun (recv_new keep) ops = Ok (r, ts) -> build_report r max_bytes = Ok (Some t, r') ->
  wire_size t <= max_bytes.
Proof.
  intros keep ops r ts mx t r' Ho Hm Hr Hb. pose proof (rrun_ok _ _ _ _ (recv_new_ok keep) Ho Hr) as Rok.
  destruct (build_report_spec r mx _ _ Rok Hb Hm) as [_ (base & t0 & m & sts & start & A1 & A2 & A3 & A4 & A5 & A6 & A6' & A7 & A8 & A8' & A8'' & A8''' & A9 & A10 & A11 & A12 & A13 & A14 & A15 & A16 & A17 & A18 & A19 & A20 & A21 & _)].
  unfold wire_size, twcc_words, pad4. set (n := zlen (t_chunks t) * 2 + deltas_len (t_deltas t)) in *.
  assert (20 + n + 3 <= mx) as B by (unfold n; lia). clearbody n. cbv zeta. destruct (4 - n mod 4 <? 4) eqn:E; dlia.
Qed.

(** C23. It is a well-formed message, as long as its runs are shorter than
    8192 and the reference time fits its field: then by C24 the peer reads and
    iterates exactly what is announced. *)
Theorem C23_wellformed : forall keep ops r ts max_bytes t r', Forall rop_ok ops -> max_bytes <= 10000 ->
  rrun (recv_new keep) ops = Ok (r, ts) -> build_report r max_bytes = Ok (Some t, r') ->
  Forall (fun c => match c with Run _ n => n < 8192 | _ => True end) (t_chunks t) -> t_ref t < 16777216 ->
  twcc_ok t /\ no_empty_run t.
Proof.
  intros keep ops r ts mx t r' Ho Hm Hr Hb Hrun Href. pose proof (rrun_ok _ _ _ _ (recv_new_ok keep) Ho Hr) as Rok.
  destruct (build_report_spec r mx _ _ Rok Hb Hm) as [_ (base & t0 & m & sts & start & A1 & A2 & A3 & A4 & A5 & A6 & A6' & A7 & A8 & A8' & A8'' & A8''' & A9 & A10 & A11 & A12 & A13 & A14 & A15 & A16 & A17 & A18 & A19 & A20 & A21 & _)].
  assert (Forall chunk_ok (t_chunks t)) as CO.
  { rewrite Forall_forall in A12, Hrun |- *. intros c Hc. specialize (A12 c Hc). specialize (Hrun c Hc). destruct c; cbn [chunk_okw chunk_ok] in *; [lia|exact A12|exact A12]. }
  assert (0 <= base) as B0.
  { destruct Rok as (_ & _ & Nn & _). rewrite Forall_forall in Nn. destruct (pending_of r) as [|x l] eqn:Ep; [discriminate|]. cbn in A1. injection A1 as ->.
    apply (Nn (base, t0)). apply (in_skipn _ (rv_from r)). fold (pending_of r). rewrite Ep. left. reflexivity. }
  split; [|eapply Forall_impl; [|exact A12]; intros c Hc; destruct c; cbn in *; tauto].
  split.
  - unfold twcc_fields. rewrite A8'', A8''', A4, A8. assert (0 <= t_ref t) by (rewrite A7; apply Z.mod_pos_bound; reflexivity).
    pose proof (Z.mod_pos_bound base U16 eq_refl). pose proof (Z.mod_pos_bound (rv_gen r) 256 eq_refl). assert (U32 = 4294967296) by reflexivity. lia.
  - split; [exact CO|]. split; [exact A15|]. split.
    { rewrite <- (statuses_size _ CO), A9, zlen_app. pose proof (zlen_nonneg (rep NotReceived m)). lia. }
    split; [exact A13|]. rewrite A14, A9, needs_app. assert (needs (rep NotReceived m) = []) as ->; [|rewrite app_nil_r; reflexivity].
    rewrite needs_rep. apply concat_nils.
Qed.

(** C23. Successive reports skip no arrival: what is unreported afterwards is
    exactly the previously unreported arrivals beyond the range. *)
Theorem C23_successive : forall keep ops r ts max_bytes t r', Forall rop_ok ops -> max_bytes <= 10000 ->
  rrun (recv_new keep) ops = Ok (r, ts) -> build_report r max_bytes = Ok (Some t, r') ->
  exists base, hd_error (map fst (unreported r)) = Some base /\
    unreported r' = filter (fun x => base + t_count t <=? fst x) (unreported r).
Proof.
  intros keep ops r ts mx t r' Ho Hm Hr Hb. pose proof (rrun_ok _ _ _ _ (recv_new_ok keep) Ho Hr) as Rok.
  destruct (report_facts r mx t r' Rok Hm Hb) as (base & A1 & A2 & A3 & A4 & A5 & A6 & A7 & A8 & A9). exists base. split; [exact A1|].
  rewrite <- (firstn_skipn (length (t_deltas t)) (unreported r)), filter_app, <- A7.
  assert (filter (fun x => base + t_count t <=? fst x) (firstn (length (t_deltas t)) (unreported r)) = []) as ->.
  { apply filter_none. intros x Hx. apply (in_map fst) in Hx. rewrite <- A6 in Hx. apply received_at_in in Hx. destruct Hx as (j & s' & J1 & J2 & ->).
    assert (j < length (announced t))%nat by (apply nth_error_Some; congruence). unfold zlen in A4. lia. }
  cbn [app]. symmetry. apply filter_all. intros x Hx. rewrite Forall_forall in A8. specialize (A8 x Hx). cbn beta in A8. lia.
Qed.

(** C23. No accepted arrival is lost: after any further history it is either
    still unreported, or some report made since calls it received. *)
Definition reported (ts : list twcc) (seq : Z) : Prop :=
  exists t base, In t ts /\ t_base t = base mod U16 /\ In seq (received_at base (announced t)).
Theorem C23_no_arrival_lost : forall ops r r' ts seq, reg_ok r -> Forall rop_ok ops ->
  In seq (map fst (unreported r)) -> rrun r ops = Ok (r', ts) ->
  In seq (map fst (unreported r')) \/ reported ts seq.
Proof.
  induction ops as [|[s t|m] ops IH]; intros r r' ts seq Hr Ho Hin E; cbn [rrun] in E.
  - injection E as <- <-. auto.
  - pose proof (Forall_inv Ho) as H0. cbn in H0. apply (IH (update_seq r s t) r' ts seq (update_ok r s t Hr ltac:(lia)) (Forall_inv_tail Ho)); [|exact E].
    clear -Hin. unfold unreported, update_seq in *. destruct (existsb _ _); [exact Hin|].
    match goal with |- context [if ?c then r else _] => destruct c end; [exact Hin|]. cbn [rv_q rv_from].
    set (i := length (filter (fun x => fst x <? s) (rv_q r))). destruct (i <? rv_from r)%nat eqn:Q; [apply Nat.ltb_lt in Q|apply Nat.ltb_ge in Q].
    + rewrite skipn_app. assert (length (firstn i (rv_q r)) <= i)%nat by (rewrite firstn_length; lia). rewrite map_app, in_app_iff. right.
      rewrite in_map_iff in *. destruct Hin as (x & X1 & X2). exists x. split; [exact X1|].
      assert (In x (skipn i (rv_q r))) as X3.
      { replace (rv_from r) with ((rv_from r - i) + i)%nat in X2 by lia. rewrite <- skipn_skipn' in X2. exact (in_skipn _ _ _ X2). }
      assert (i <= length (rv_q r))%nat as Li by (apply filter_len). rewrite firstn_length, Nat.min_l by exact Li. rewrite Nat.sub_diag. right. exact X3.
    + assert (i <= length (rv_q r))%nat as Li by (apply filter_len).
      rewrite skipn_app, firstn_length, Nat.min_l by exact Li. assert (rv_from r - i = 0)%nat as -> by lia. cbn [skipn].
      rewrite in_map_iff in *. destruct Hin as (x & X1 & X2). exists x. split; [exact X1|].
      assert (skipn (rv_from r) (rv_q r) = skipn (rv_from r) (firstn i (rv_q r)) ++ skipn i (rv_q r)) as Sp.
      { rewrite <- (firstn_skipn i (rv_q r)) at 1. rewrite skipn_app, firstn_length, Nat.min_l by exact Li. assert (rv_from r - i = 0)%nat as -> by lia. reflexivity. }
      rewrite Sp in X2. apply in_app_or in X2. apply in_or_app. destruct X2; [auto|right; right; assumption].
  - destruct (build_report r m) as [[o r1]| |] eqn:Eb; cbn [bind] in E; try discriminate.
    destruct (rrun r1 ops) as [[r2 ts2]| |] eqn:Er; cbn [bind] in E; try discriminate. injection E as <- <-.
    pose proof (Forall_inv Ho) as Hm. cbn in Hm.
    destruct o as [t|].
    + destruct (report_facts r m t r1 Hr Hm Eb) as (base & A1 & A2 & A3 & A4 & A5 & A6 & A7 & A8 & A9).
      rewrite <- (firstn_skipn (length (t_deltas t)) (unreported r)), map_app, <- A7 in Hin. apply in_app_or in Hin. destruct Hin as [Hin|Hin].
      * right. exists t, base. split; [left; reflexivity|]. split; [exact A2|]. rewrite A6. exact Hin.
      * destruct (IH r1 r2 ts2 seq A9 (Forall_inv_tail Ho) Hin Er) as [K|(t' & b' & B1 & B2 & B3)]; [auto|].
        right. exists t', b'. split; [right; exact B1|auto].
    + destruct (build_report_spec r m None r1 Hr Eb Hm) as (R1 & Q1 & Q2).
      apply (IH r1 r2 ts2 seq R1 (Forall_inv_tail Ho)); [|exact Er]. unfold unreported in *. rewrite Q1, Q2. exact Hin.
Qed.
(** An arrival that is new and not more than 8.192 s older than the start of
    time becomes unreported. *)
Theorem C23_arrival_accepted : forall r seq t, reg_ok r -> ~ In seq (map fst (remembered r)) ->
  (forall st, rv_start r = Some st -> st - t < 8192000000) ->
  In (seq, t) (unreported (update_seq r seq t)).
Proof.
  intros r seq t Hr Hn Hs. unfold unreported, update_seq, remembered in *.
  destruct (existsb _ _) eqn:E; [apply existsb_seq in E; contradiction|].
  assert (match rv_start r with Some st => 8192000000 <=? Z.max 0 (st - t) | None => false end = false) as ->.
  { destruct (rv_start r) as [st|]; [|reflexivity]. specialize (Hs st eq_refl). lia. }
  cbn [rv_q rv_from]. set (i := length (filter (fun x => fst x <? seq) (rv_q r))).
  assert (i <= length (rv_q r))%nat as Li by (apply filter_len).
  assert (skipn i (firstn i (rv_q r) ++ (seq, t) :: skipn i (rv_q r)) = (seq, t) :: skipn i (rv_q r)) as Sk.
  { rewrite skipn_app, firstn_length, Nat.min_l, Nat.sub_diag by exact Li. rewrite skipn_all2 by (rewrite firstn_length; lia). reflexivity. }
  destruct (i <? rv_from r)%nat eqn:Q; [rewrite Sk; left; reflexivity|]. apply Nat.ltb_ge in Q.
  rewrite skipn_app, firstn_length, Nat.min_l by exact Li. assert (rv_from r - i = 0)%nat as -> by lia. cbn [skipn]. apply in_or_app. right. left. reflexivity.
Qed.

(** C23, partly: with room for everything that is unreported and a range that
    fits the 16-bit count the report is made (the first arrival being within
    the representable time distance).  Without that room it can panic, see below. *)
Theorem C23_no_panic_partial : forall keep ops r ts max_bytes base l, Forall rop_ok ops ->
  rrun (recv_new keep) ops = Ok (r, ts) -> map fst (unreported r) = base :: l ->
  last (base :: l) base - base < 65535 -> 55 + 6 * zlen (unreported r) <= max_bytes <= 10000 ->
  build_report r max_bytes <> Panic.
Proof.
  intros keep ops r ts mx base l Ho Hr Hu Hspan Hmx. pose proof (rrun_ok _ _ _ _ (recv_new_ok keep) Ho Hr) as Rok.
  pose proof Rok as (So & Fr & Nn & Gn). unfold build_report. destruct (10000 <? mx) eqn:E1; [lia|].
  unfold unreported in *. fold (pending_of r) in *.
  destruct (nth_error (rv_q r) (rv_from r)) as [[b t0]|] eqn:En; [|discriminate].
  destruct (skipn_hd _ _ _ En) as [tl Hsk]. fold (pending_of r) in Hsk. assert (b = base) as -> by (rewrite Hsk in Hu; cbn in Hu; congruence).
  pose proof (zlen_nonneg (pending_of r)). destruct (mx <? 20) eqn:E2; [lia|].
  set (start := match rv_start r with Some s => s | None => t0 end). cbv zeta.
  set (ref := (Z.max 0 (t0 - start) / 1000 / 64000) mod U32). fold (pending_of r).
  assert (sorted (pending_of r)) as Sp.
  { unfold pending_of. rewrite <- (firstn_skipn (rv_from r)) in So. apply sorted_app_inv in So. tauto. }
  assert (base = base + 1 \/ exists t, hd_error (pending_of r) = Some (base, t) /\ base = base) as Hb by (right; exists t0; rewrite Hsk; auto).
  assert (Forall (fun x => base <= fst x) (pending_of r)) as Hge.
  { rewrite Hsk. rewrite Hsk in Sp. apply StronglySorted_inv in Sp. destruct Sp as [_ Sp]. cbn [fst] in Sp.
    constructor; [cbn; lia|]. eapply Forall_impl; [|exact Sp]. cbn beta. intros; lia. }
  destruct (interims_spec (pending_of r) base (start + ref * 64000000) base Sp Hb Hge) as (I1 & _).
  destruct (interims_len (pending_of r) base (start + ref * 64000000) base Sp Hb Hge) as (L1 & L2 & L3).
  set (is := build_interims (pending_of r) base (start + ref * 64000000)) in *. clearbody is.
  unfold last_of in *. rewrite Hu in L1, L2. rewrite (weight_eq is I1). pose proof (zlen_nonneg (exs is)).
  destruct (chunks_loop_np (S (Z.to_nat (zlen (exs is)))) (Acc (mx - 20) is 0 [] [] (rv_from r)) I1) as [a Ea]; cbn [a_is a_bytes a_cnt]; [lia| |lia|change U16 with 65536; lia|].
  - lia.
  - rewrite Ea. cbn [bind]. destruct (a_cs a); discriminate.
Qed.

(** ** Examples and refutations *)
(** three arrivals out of order with a gap, a large jump in time *)
Definition ex_ops : list rop := [Arrive 10 1000000; Arrive 13 3000000; Arrive 11 2100000; Arrive 20 500000000].
Definition ex_state : recv := match rrun (recv_new 100) ex_ops with Ok (r, _) => r | _ => recv_new 0 end.
Example C23_ex_report : Forall rop_ok ex_ops /\ rrun (recv_new 100) ex_ops = Ok (ex_state, []) /\ exists t r',
  build_report ex_state 1050 = Ok (Some t, r') /\ t_count t = 11 /\ t_deltas t = [Small 0; Small 4; Small 3; Large 1988] /\ unreported r' = [].
Proof.
  split; [repeat constructor; cbn; unfold U64; lia|]. split; [vm_compute; reflexivity|].
  eexists _, _. split; [vm_compute; reflexivity|]. split; [reflexivity|]. split; reflexivity.
Qed.
Example C23_ex_room : exists base l, map fst (unreported ex_state) = base :: l /\ last (base :: l) base - base < 65535 /\ 55 + 6 * zlen (unreported ex_state) <= 1050.
Proof. eexists _, _. split; [vm_compute; reflexivity|]. split; vm_compute; [reflexivity|discriminate]. Qed.
(** a report too small for everything: the rest comes in the next one *)
Example C23_ex_two_reports : exists t1 t2 r', rrun ex_state [Build 28; Build 28] = Ok (r', [t1; t2]) /\ t_base t1 = 10 /\ t_count t1 = 2 /\ t_base t2 = 13 /\ t_count t2 = 1.
Proof. eexists _, _, _. split; [vm_compute; reflexivity|]. repeat split. Qed.

(** C23 is false without room: with 1050 bytes (an MTU of 1150 less 100) some
    arrival patterns make the register panic. *)
Definition crash_ops : list rop := map (fun i => Arrive i (i * 10000)) (zseq 0 994 ++ zseq 995 26 ++ zseq 1022 1).
Definition crash_state : recv := match rrun (recv_new 100) crash_ops with Ok (r, _) => r | _ => recv_new 0 end.
Theorem C23_report_panics_refuted : exists r, Forall rop_ok crash_ops /\ rrun (recv_new 100) crash_ops = Ok (r, []) /\ build_report r 1050 = Panic.
Proof.
  exists crash_state. split; [apply Forall_forall; intros x Hx; apply in_map_iff in Hx; destruct Hx as (i & <- & Hi); rewrite !in_app_iff in Hi;
    destruct Hi as [Hi|[Hi|Hi]]; apply zseq_in in Hi; cbn; unfold U64; lia|]. split; vm_compute; reflexivity.
Qed.
(** It also panics when the unreported range does not fit the 16-bit count. *)
Theorem C23_count_overflow_refuted : exists r, rrun (recv_new 100) [Arrive 0 0; Arrive 70000 1000] = Ok (r, []) /\ build_report r 1050 = Panic.
Proof. eexists. split; [vm_compute; reflexivity|]. vm_compute; reflexivity. Qed.
(** A gap of 8205 missing packets (13 go in a vector, then a run of 8192) is written with an empty run of
    received packets (the length overflows its 13 bits). *)
Theorem C23_gap_8192_refuted : exists r t r', rrun (recv_new 100) [Arrive 0 0; Arrive 8206 1000] = Ok (r, []) /\
  build_report r 1050 = Ok (Some t, r') /\ In (Run NotReceived 8192) (t_chunks t) /\
  chunk_write (Run NotReceived 8192) = Ok [32; 0] /\ chunk_parse [32; 0] = Ok (Run SmallDelta 0).
Proof. eexists _, _, _. split; [vm_compute; reflexivity|]. split; [vm_compute; reflexivity|]. split; [vm_compute; auto|]. split; vm_compute; reflexivity. Qed.
(** Times drift: arrivals 249 us apart are all reported at the same time. *)
Theorem C23_drift_refuted : exists r t r', rrun (recv_new 100) (map (fun i => Arrive i (i * 249000)) (zseq 0 101)) = Ok (r, []) /\
  build_report r 1050 = Ok (Some t, r') /\ nth_error (times 0 (t_deltas t)) 100 = Some 0 /\ nth_error (unreported r) 100 = Some (100, 24900000).
Proof. eexists _, _, _. split; [vm_compute; reflexivity|]. split; [vm_compute; reflexivity|]. split; vm_compute; reflexivity. Qed.
(** An arrival older than what is remembered makes the next report call
    forgotten (received and reported) packets missing. *)
Theorem C23_forgotten_refuted : exists r t1 t2, rrun (recv_new 1) [Arrive 5 5000000; Arrive 6 6000000; Arrive 7 7000000; Build 1050; Arrive 4 8000000; Build 1050] = Ok (r, [t1; t2]) /\
  t_base t1 = 5 /\ announced t1 = [SmallDelta; SmallDelta; SmallDelta] /\ t_base t2 = 4 /\ announced t2 = [SmallDelta; NotReceived; NotReceived; LargeDelta].
Proof. eexists _, _, _. split; [vm_compute; reflexivity|]. repeat split. Qed.

Print Assumptions C23_report.
Print Assumptions C23_deltas.
Print Assumptions C23_times.
Print Assumptions C23_size.
Print Assumptions C23_wellformed.
Print Assumptions C23_successive.
Print Assumptions C23_no_arrival_lost.
Print Assumptions C23_arrival_accepted.
Print Assumptions C23_no_panic_partial.
Print Assumptions C23_report_panics_refuted.

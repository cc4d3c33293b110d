(** C25: matching TWCC feedback with sent packets. *)
From Verif Require Import Base BaseFacts SeqModel TwccModel TwccSpec TwccProofs TwccProps TwccSendModel TwccSendProofs.

(** A history: packets sent, numbered by a counter from 0 on (session.rs:1001,
    streams/send.rs:620-623), and feedback applied.  Each application gives out
    records; nothing is assumed about the feedback. *)
Inductive sop := Send (now size : Z) | Feedback (t : twcc) (now : Z).
Fixpoint srun (g : sreg) (next : Z) (ops : list sop) : res (sreg * Z * list (list srec)) :=
  match ops with
  | [] => Ok (g, next, [])
  | Send now size :: l => srun (register_seq g next now size) (next + 1) l
  | Feedback t now :: l =>
      do (o, g') <- apply_report g t now ;
      do (r, ys) <- srun g' next l ;
      Ok (r, match o with Some y => y :: ys | None => ys end)
  end.

(** A packet is acknowledged if the peer gave a receive time for it. *)
Definition acked (r : srec) : Prop := sr_remote r <> None.

Definition sinv (g : sreg) (next : Z) : Prop :=
  0 <= next /\ length (sg_q g) = Nat.min (sg_keep g) (Z.to_nat next) /\
  numbered sr_seq (next - Z.of_nat (length (sg_q g))) (sg_q g) /\ counters_ok (sg_counter g) (sg_q g).

Lemma sinv_send g next now size : sinv g next -> sinv (register_seq g next now size) (next + 1).
Proof.
  intros (H0 & HL & HN & HC). unfold register_seq. set (q := sg_q g ++ [SRec next now (size mod U16) None]). 
  assert (length q = S (length (sg_q g))) as Lq by (unfold q; rewrite app_length; cbn; lia).
  assert (numbered sr_seq (next - Z.of_nat (length (sg_q g))) q) as Nq.
  { unfold numbered. rewrite Lq. replace (S (length (sg_q g))) with (length (sg_q g) + 1)%nat by lia. rewrite zseq_app.
    unfold q. rewrite map_app, HN. f_equal. cbn [map sr_seq zseq]. f_equal. lia. }
  split; [lia|]. cbn [sg_q sg_keep sg_counter]. rewrite skipn_length. split; [lia|]. split.
  - pose proof (numbered_skipn sr_seq (length q - sg_keep g) q _ Nq ltac:(lia)) as N. 
    replace (next + 1 - Z.of_nat (length q - (length q - sg_keep g))) with (next - Z.of_nat (length (sg_q g)) + Z.of_nat (length q - sg_keep g)) by lia. exact N.
  - unfold counters_ok. assert (Forall (fun r => match sr_rep r with Some rr => rr_counter rr <= sg_counter g | None => True end) q) as Fq.
    { unfold q. apply Forall_app. split; [exact HC|]. repeat constructor. }
    rewrite <- (firstn_skipn (length q - sg_keep g) q) in Fq. apply Forall_app in Fq. tauto.
Qed.
Lemma after_counter now zero c rs : forall q q', Forall2 (after now zero (c + 1) rs) q q' -> counters_ok c q -> counters_ok (c + 1) q'.
Proof.
  induction 1 as [|r r' q q' H F IH]; intro C; [constructor|]. constructor; [|apply IH; exact (Forall_inv_tail C)].
  pose proof (Forall_inv C) as Cr. cbn beta in Cr. destruct H as [H1 H2]. destruct (in_dec Z.eq_dec (sr_seq r) (map seq3 rs)) as [I|I].
  - apply in_map_iff in I. destruct I as (((s & st) & inst) & Q1 & Q2). cbn [seq3 fst] in Q1. subst s. rewrite (H1 _ _ Q2).
    unfold update_rec. cbn [sr_rep rr_counter]. destruct (sr_rep r) as [[l [x|] k]|]; cbn [rr_remote rr_counter] in *; lia.
  - rewrite (H2 I). destruct (sr_rep r); lia.
Qed.
Lemma after_seq now zero c rs r r' : after now zero c rs r r' -> sr_seq r' = sr_seq r.
Proof.
  intros [H1 H2]. destruct (in_dec Z.eq_dec (sr_seq r) (map seq3 rs)) as [I|I]; [|rewrite (H2 I); reflexivity].
  apply in_map_iff in I. destruct I as (((s & st) & inst) & Q1 & Q2). cbn [seq3 fst] in Q1. subst s. rewrite (H1 _ _ Q2). reflexivity.
Qed.
Lemma after_acked now zero c rs r r' : after now zero c rs r r' -> ackedb r = true -> ackedb r' = true.
Proof.
  intros [H1 H2] A. destruct (in_dec Z.eq_dec (sr_seq r) (map seq3 rs)) as [I|I]; [|rewrite (H2 I); exact A].
  apply in_map_iff in I. destruct I as (((s & st) & inst) & Q1 & Q2). cbn [seq3 fst] in Q1. subst s. rewrite (H1 _ _ Q2).
  unfold ackedb, sr_remote in *. cbn [update_rec sr_rep rr_remote]. unfold sr_remote. destruct (sr_rep r) as [[l [x|] k]|]; cbn [rr_remote] in *; try discriminate. reflexivity.
Qed.

(** an application that succeeds *)
Lemma apply_inv g next t now o g' : sinv g next -> apply_report g t now = Ok (o, g') ->
  sinv g' next /\ length (sg_q g') = length (sg_q g) /\
  Forall2 (fun r r' => sr_seq r' = sr_seq r /\ (ackedb r = true -> ackedb r' = true)) (sg_q g) (sg_q g') /\
  NoDup (map sr_seq (match o with Some l => l | None => [] end)) /\
  (forall r, In r (match o with Some l => l | None => [] end) -> In r (sg_q g') /\ exists r0, In r0 (sg_q g) /\ sr_seq r0 = sr_seq r /\ ackedb r0 = false).
Proof.
  intros (H0 & HL & HN & HC) E.
  destruct (sg_q g) as [|hd tl] eqn:Eq.
  { unfold apply_report in E. rewrite Eq in E. injection E as <- <-. unfold sinv. cbn [sg_q sg_keep sg_counter]. 
    split; [split; [exact H0|split; [exact HL|split; [exact HN|constructor]]]|]. split; [reflexivity|]. split; [constructor|]. split; [constructor|]. intros r []. }
  rewrite <- Eq in *.
  assert (exists rs, titer_run (S (Z.to_nat (t_count t))) (twcc_iter t (sg_last g)) = Ok rs /\ extend_u16 (Some (sg_last g)) (t_base t) + t_count t < U64) as (rs & Er & Ho).
  { unfold apply_report in E. rewrite Eq in E. rewrite <- Eq in E. change (i_last (twcc_iter t (sg_last g))) with (extend_u16 (Some (sg_last g)) (t_base t) + t_count t) in E.
    destruct (U64 <=? _) eqn:Q; [discriminate|]. destruct (titer_run _ _) as [rs| |] eqn:Er; cbn [bind] in E; try discriminate. exists rs. split; [reflexivity|lia]. }
  destruct (apply_spec g t now _ HN HC rs Er Ho) as (o' & g2 & E2 & A1 & A2 & A3 & A4 & A5 & A6 & A7).
  rewrite E in E2. injection E2 as <- <-.
  assert (length (sg_q g') = length (sg_q g)) as Lg by (clear -A5; induction A5; cbn [length]; congruence).
  assert (Forall2 (fun r r' => sr_seq r' = sr_seq r /\ (ackedb r = true -> ackedb r' = true)) (sg_q g) (sg_q g')) as FF.
  { clear -A5. induction A5 as [|r r' q q' H F IH]; constructor; [|exact IH]. split; [exact (after_seq _ _ _ _ _ _ H)|exact (after_acked _ _ _ _ _ _ H)]. }
  assert (map sr_seq (sg_q g') = map sr_seq (sg_q g)) as Ms by (clear -FF; induction FF as [|r r' q q' [H _] F IH]; [reflexivity|cbn [map]; congruence]).
  split.
  { split; [exact H0|]. split; [rewrite Lg, A1; exact HL|]. split; [unfold numbered in *; rewrite Ms, Lg; exact HN|]. rewrite A3. exact (after_counter _ _ _ _ _ _ A5 HC). }
  split; [exact Lg|]. split; [exact FF|]. 
  assert (NoDup (map sr_seq (sg_q g))) as ND.
  { rewrite HN. clear. generalize (next - Z.of_nat (length (sg_q g))). induction (length (sg_q g)) as [|n IH]; intro z; cbn [zseq]; constructor; [|apply IH]. rewrite zseq_in. lia. }
  split.
  { rewrite A6. clear -ND. induction (sg_q g) as [|r q IH]; [constructor|]. cbn [map] in ND. inversion_clear ND. cbn [filter].
    destruct (inb _ _ r && negb (ackedb r)); [|apply IH; assumption]. cbn [map]. constructor; [|apply IH; assumption].
    intro I. apply H. apply in_map_iff in I. destruct I as (x & X1 & X2). apply filter_In in X2. rewrite <- X1. apply in_map. tauto. }
  intros r Hr. split; [exact (A7 r Hr)|]. apply (in_map sr_seq) in Hr. rewrite A6 in Hr. apply in_map_iff in Hr. destruct Hr as (r0 & Q1 & Q2).
  apply filter_In in Q2. destruct Q2 as [Q2 Q3]. exists r0. split; [exact Q2|]. split; [exact Q1|].
  apply andb_prop in Q3. destruct Q3 as [_ Q3]. apply Bool.negb_true_iff in Q3. exact Q3.
Qed.

Lemma nodup_app {A} (l m : list A) : NoDup l -> NoDup m -> (forall x, In x l -> ~ In x m) -> NoDup (l ++ m).
Proof.
  induction l as [|x l IH]; intros H1 H2 H; [exact H2|]. inversion_clear H1. cbn [app]. constructor.
  - intro I. apply in_app_or in I. destruct I as [I|I]; [contradiction|]. apply (H x); [left; reflexivity|exact I].
  - apply IH; [assumption|assumption|]. intros y Hy. apply H. right. exact Hy.
Qed.
(** what is known about the packets acknowledged so far *)
Definition past_ok (g : sreg) (next : Z) (past : list Z) : Prop :=
  forall s, In s past -> s < next - Z.of_nat (length (sg_q g)) \/ exists r, In r (sg_q g) /\ sr_seq r = s /\ ackedb r = true.
Lemma srun_once : forall ops g next past g' next' ys, sinv g next -> past_ok g next past -> srun g next ops = Ok (g', next', ys) ->
  sinv g' next' /\ NoDup (map sr_seq (filter ackedb (concat ys))) /\ (forall s, In s past -> ~ In s (map sr_seq (filter ackedb (concat ys)))).
Proof.
  induction ops as [|[now size|t now] ops IH]; intros g next past g' next' ys Hi Hp E; cbn [srun] in E.
  - injection E as <- <- <-. split; [exact Hi|]. split; [constructor|]. intros s _ [].
  - refine (IH _ _ past _ _ _ (sinv_send g next now size Hi) _ E).
    intros s Hs. destruct Hi as (H0 & HL & HN & HC). unfold register_seq. cbn [sg_q].
    set (q := sg_q g ++ [SRec next now (size mod U16) None]). assert (length q = S (length (sg_q g))) as Lq by (unfold q; rewrite app_length; cbn; lia).
    rewrite skipn_length. destruct (Hp s Hs) as [Hlt|(r & R1 & R2 & R3)]; [left; lia|].
    assert (In r q) as Rq by (unfold q; apply in_or_app; auto).
    rewrite <- (firstn_skipn (length q - sg_keep g) q) in Rq. apply in_app_or in Rq. destruct Rq as [Rq|Rq]; [left|right; exists r; auto].
    assert (numbered sr_seq (next - Z.of_nat (length (sg_q g))) q) as Nq.
    { unfold numbered. rewrite Lq. replace (S (length (sg_q g))) with (length (sg_q g) + 1)%nat by lia. rewrite zseq_app.
      unfold q. rewrite map_app, HN. f_equal. cbn [map sr_seq zseq]. f_equal. lia. }
    pose proof (numbered_in _ _ _ _ (numbered_firstn sr_seq (length q - sg_keep g) q _ Nq) Rq) as B. rewrite firstn_length in B. lia.
  - destruct (apply_report g t now) as [[o g1]| |] eqn:Ea; cbn [bind] in E; try discriminate.
    destruct (srun g1 next ops) as [[[g2 n2] ys2]| |] eqn:Er; cbn [bind] in E; try discriminate. injection E as <- <- <-.
    destruct (apply_inv g next t now o g1 Hi Ea) as (I1 & L1 & F1 & D1 & Y1).
    set (y := match o with Some l => l | None => [] end) in *.
    assert (concat (match o with Some y0 => y0 :: ys2 | None => ys2 end) = y ++ concat ys2) as -> by (destruct o; reflexivity).
    assert (past_ok g1 next (past ++ map sr_seq (filter ackedb y))) as Hp1.
    { intros s Hs. rewrite L1. apply in_app_or in Hs. destruct Hs as [Hs|Hs].
      - destruct (Hp s Hs) as [?|(r & R1 & R2 & R3)]; [auto|]. right.
        clear -F1 R1 R2 R3. induction F1 as [|x x' q q' [H1 H2] F IH]; [contradiction|]. destruct R1 as [->|R1].
        + exists x'. split; [left; reflexivity|]. split; [congruence|auto].
        + destruct (IH R1) as (r' & A & B). exists r'. split; [right; exact A|exact B].
      - right. apply in_map_iff in Hs. destruct Hs as (r & Q1 & Q2). apply filter_In in Q2. destruct Q2 as [Q2 Q3]. exists r. destruct (Y1 r Q2) as [? _]. auto. }
    destruct (IH g1 next _ _ _ _ I1 Hp1 Er) as (I2 & D2 & Dj).
    split; [exact I2|]. rewrite filter_app, map_app. split.
    + assert (NoDup (map sr_seq (filter ackedb y))) as Dy.
      { clear -D1. induction y as [|r y IH]; [constructor|]. cbn [map] in D1. inversion_clear D1. cbn [filter]. destruct (ackedb r); [|auto]. cbn [map]. constructor; [|auto].
        intro I. apply H. apply in_map_iff in I. destruct I as (x & X1 & X2). apply filter_In in X2. rewrite <- X1. apply in_map. tauto. }
      apply nodup_app; [exact Dy|exact D2|]. intros x Hx. apply Dj. apply in_or_app. right. exact Hx.
    + intros s Hs I. apply in_app_or in I. destruct I as [I|I]; [|apply (Dj s); [apply in_or_app; auto|exact I]].
      apply in_map_iff in I. destruct I as (r & Q1 & Q2). apply filter_In in Q2. destruct Q2 as [Q2 Q3].
      destruct (Y1 r Q2) as (_ & r0 & R1 & R2 & R3). destruct Hi as (H0 & HL & HN & HC).
      destruct (Hp s Hs) as [Hlt|(r1 & S1 & S2 & S3)].
      * pose proof (numbered_in _ _ _ _ HN R1). lia.
      * assert (r1 = r0) as -> by (apply (numbered_inj sr_seq (sg_q g) _ _ _ HN S1 R1); congruence). congruence.
Qed.
Lemma sinv_new keep : sinv (sreg_new keep) 0.
Proof. split; [lia|]. split; [cbn; lia|]. split; [reflexivity|constructor]. Qed.

(** C25. Over any history each sent packet is given out as acknowledged at most
    once, however feedback is duplicated, reordered or forged. *)
Theorem C25_acked_once : forall keep ops g next ys, srun (sreg_new keep) 0 ops = Ok (g, next, ys) ->
  NoDup (map sr_seq (filter (fun r => match sr_remote r with Some _ => true | None => false end) (concat ys))).
Proof.
  intros keep ops g next ys E. destruct (srun_once ops _ _ [] _ _ _ (sinv_new keep) ltac:(intros s []) E) as (_ & D & _). exact D.
Qed.

(** C25. The records kept are the latest sent, at most [keep], without gaps. *)
Theorem C25_records : forall keep ops g next ys, srun (sreg_new keep) 0 ops = Ok (g, next, ys) ->
  next = Z.of_nat (length (filter (fun o => match o with Send _ _ => true | _ => false end) ops)) /\
  exists n, n = Nat.min keep (Z.to_nat next) /\ map sr_seq (sg_q g) = zseq (next - Z.of_nat n) n.
Proof.
  intros keep ops g next ys E. destruct (srun_once ops _ _ [] _ _ _ (sinv_new keep) ltac:(intros s []) E) as ((H0 & HL & HN & HC) & _).
  assert (next = Z.of_nat (length (filter (fun o => match o with Send _ _ => true | _ => false end) ops)) /\ sg_keep g = keep) as [N K].
  { clear -E. assert (forall ops g0 n0 g n ys, srun g0 n0 ops = Ok (g, n, ys) -> n = n0 + Z.of_nat (length (filter (fun o => match o with Send _ _ => true | _ => false end) ops)) /\ sg_keep g = sg_keep g0) as G.
    { clear. induction ops as [|[now size|t now] ops IH]; intros g0 n0 g n ys E; cbn [srun] in E.
      - injection E as <- <- <-. cbn. split; [lia|reflexivity].
      - apply IH in E. destruct E as [E1 E2]. cbn [filter length]. split; [lia|exact E2].
      - destruct (apply_report g0 t now) as [[o g1]| |] eqn:Ea; cbn [bind] in E; try discriminate.
        destruct (srun g1 n0 ops) as [[[g2 n2] ys2]| |] eqn:Er; cbn [bind] in E; try discriminate. injection E as <- <- <-.
        apply IH in Er. destruct Er as [E1 E2]. cbn [filter]. split; [exact E1|]. rewrite E2. clear -Ea. unfold apply_report in Ea.
        destruct (sg_q g0) as [|hd tl]; [injection Ea as <- <-; reflexivity|]. destruct (U64 <=? _); [discriminate|].
        destruct (titer_run _ _) as [rs| |]; cbn [bind] in Ea; try discriminate. destruct (skip_while _ rs) as [|[[f st] inst] rest]; [injection Ea as <- <-; reflexivity|].
        destruct (skip_while _ (hd :: tl)) as [|r0 q2]; [injection Ea as <- <-; reflexivity|]. destruct (negb _); [injection Ea as <- <-; reflexivity|].
        destruct (zip_update _ _ _ _ _) as [u| |]; cbn [bind] in Ea; try discriminate. destruct (records _ _ u) as [out| |]; cbn [bind] in Ea; try discriminate.
        injection Ea as <- <-. reflexivity. }
    destruct (G _ _ _ _ _ _ E) as [A B]. split; [lia|exact B]. }
  split; [exact N|]. exists (length (sg_q g)). rewrite <- K. split; [exact HL|exact HN].
Qed.

(** C25. Feedback that parses, has no zero-length runs and whose numbers stay
    below 2^64 is applied without panic after any history.  Given out are
    exactly the records whose number is in the range of the feedback and that
    were not acknowledged before.  A record in the range gets the receive time
    announced unless it had one, other records do not change. *)
Theorem C25_apply : forall keep ops g next ys b t now, srun (sreg_new keep) 0 ops = Ok (g, next, ys) ->
  bytes_ok b -> twcc_parse b = Ok t -> no_empty_run t ->
  let base := extend_u16 (Some (sg_last g)) (t_base t) in
  let zero := match sg_zero g with Some z => z | None => now end in
  let said := results base (t_ref t * 64000) (firstn (Z.to_nat (t_count t)) (statuses (t_chunks t))) (t_deltas t) in
  base + t_count t < U64 ->
  exists out g', apply_report g t now = Ok (out, g') /\
    map sr_seq (match out with Some l => l | None => [] end) =
      map sr_seq (filter (fun r => (base <=? sr_seq r) && (sr_seq r <? base + t_count t) && negb (match sr_remote r with Some _ => true | None => false end)) (sg_q g)) /\
    (forall r, In r (match out with Some l => l | None => [] end) -> In r (sg_q g')) /\
    Forall2 (fun r r' => sr_seq r' = sr_seq r /\ sr_sent r' = sr_sent r /\ sr_size r' = sr_size r /\
       (forall st time, In (sr_seq r, st, time) said ->
          sr_remote r' = match sr_remote r with Some x => Some x | None => option_map (fun x => zero + x) time end /\
          option_map rr_local (sr_rep r') = Some now) /\
       (~ base <= sr_seq r < base + t_count t -> r' = r)) (sg_q g) (sg_q g').
Proof.
  intros keep ops g next ys b t now E Hb Hp Hn base zero said Hov.
  destruct (srun_once ops _ _ [] _ _ _ (sinv_new keep) ltac:(intros s []) E) as ((H0 & HL & HN & HC) & _).
  destruct (C24_iterate b t (sg_last g) Hb Hp Hn) as [It Sq]. fold base in It, Sq. fold said in It, Sq.
  destruct (twcc_parse_inv b t Hb Hp) as (Fl & _). destruct Fl as (_ & _ & _ & Fc & _).
  destruct (apply_spec g t now _ HN HC said It Hov) as (o & g' & Ea & A1 & A2 & A3 & A4 & A5 & A6 & A7). fold base in A6. fold zero in A5.
  assert (Z.of_nat (length said) = t_count t) as Ls.
  { apply (f_equal (@length Z)) in Sq. rewrite map_length, zseq_length in Sq. lia. }
  exists o, g'. split; [exact Ea|]. split; [rewrite A6, Ls; reflexivity|]. split; [exact A7|].
  clear -A5 Sq Fc. induction A5 as [|r r' q q' H F IH]; constructor; [|exact IH]. destruct H as [H1 H2].
  assert (sr_seq r' = sr_seq r /\ sr_sent r' = sr_sent r /\ sr_size r' = sr_size r) as (S1 & S2 & S3).
  { destruct (in_dec Z.eq_dec (sr_seq r) (map seq3 said)) as [I|I]; [|rewrite (H2 I); auto].
    apply in_map_iff in I. destruct I as (((s & st) & inst) & Q1 & Q2). cbn [seq3 fst] in Q1. subst s. rewrite (H1 _ _ Q2). repeat split. }
  split; [exact S1|]. split; [exact S2|]. split; [exact S3|]. split.
  - intros st time I. rewrite (H1 _ _ I). split; reflexivity.
  - intro N. apply H2. unfold seq3. rewrite Sq, zseq_in. lia.
Qed.

(** ** Examples and refutations *)
(** feedback for 0, 2, 3 of four sent packets, twice *)
Definition fb1 : twcc := Twcc 1 2 0 4 0 0 [VDouble 4416 7] [Small 4; Small 8; Small 4].
Definition hist1 : list sop := [Send 0 100; Send 1000 100; Send 2000 100; Send 3000 100; Feedback fb1 50000; Feedback fb1 60000].
Example C25_ex : exists g y1 y2, srun (sreg_new 1000) 0 hist1 = Ok (g, 4, [y1; y2]) /\
  map sr_seq y1 = [0; 1; 2; 3] /\ map sr_remote y1 = [Some 51000; None; Some 53000; Some 54000] /\ map sr_seq y2 = [1].
Proof. eexists _, _, _. split; [vm_compute; reflexivity|]. repeat split. Qed.
Example C25_ex_parsed : exists bs n, twcc_write fb1 = Ok (bs, n) /\ (do b <- from bs 4 ; twcc_parse b) = Ok fb1 /\ no_empty_run fb1.
Proof. eexists _, _. split; [vm_compute; reflexivity|]. split; [vm_compute; reflexivity|]. repeat constructor. Qed.

(** Without the bound on the numbers a peer can make the addition overflow (a
    panic with overflow checks): base 65000 is taken as a number before 0. *)
Definition fb2 : twcc := Twcc 1 2 65000 1000 0 0 [Run NotReceived 1000] [].
Theorem C25_overflow_refuted : exists g ys, srun (sreg_new 1000) 0 [Send 0 100] = Ok (g, 1, ys) /\ apply_report g fb2 1000 = Panic /\
  exists bs n, twcc_write fb2 = Ok (bs, n) /\ (do b <- from bs 4 ; twcc_parse b) = Ok fb2 /\ no_empty_run fb2.
Proof. eexists _, _. split; [vm_compute; reflexivity|]. split; [vm_compute; reflexivity|]. eexists _, _. split; [vm_compute; reflexivity|]. split; [vm_compute; reflexivity|]. repeat constructor. Qed.
(** If the numbers registered had a gap, feedback over it would panic. *)
Theorem C25_gap_refuted : let g := register_seq (register_seq (sreg_new 1000) 0 0 100) 2 0 100 in
  apply_report g fb1 1000 = Panic.
Proof. vm_compute. reflexivity. Qed.

Print Assumptions C25_acked_once.
Print Assumptions C25_records.
Print Assumptions C25_apply.

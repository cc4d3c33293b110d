From Verif Require Import Base BaseFacts SendQueueModel SendQueueSpec.
Section Q.
Context {K : Type}.
Local Notation qpkt := (SendQueueModel.qpkt K). Local Notation sendq := (SendQueueModel.sendq K).
Local Notation qop := (SendQueueModel.qop K). Local Notation qout := (SendQueueModel.qout K).
Local Notation fifo := (SendQueueSpec.fifo (B := K)).

Definition stampable (l : list (qpkt * option Z)) : Prop :=
  exists a b, l = map (fun x => (fst x, Some (snd x))) a ++ map (fun p => (p, None)) b.

Lemma visible_app (a b : list (qpkt * option Z)) : visible (a ++ b) = visible a ++ visible b.
Proof. unfold visible. apply flat_map_app. Qed.
Lemma visible_some (a : list (qpkt * Z)) : visible (map (fun x => (fst x, Some (snd x))) a) = a.
Proof. induction a as [|[p t] a IH]; [reflexivity|]. cbn. unfold visible in IH. rewrite IH. reflexivity. Qed.
Lemma visible_none (b : list qpkt) : visible (map (fun p => (p, None)) b) = [].
Proof. induction b as [|p b IH]; [reflexivity|]. exact IH. Qed.

Lemma sumz_app a b : sumz (a ++ b) = sumz a + sumz b.
Proof. induction a as [|x a IH]; cbn; [reflexivity|]. unfold sumz in *. rewrite IH. lia. Qed.
Lemma sumz_rev a : sumz (rev a) = sumz a.
Proof. induction a as [|x a IH]; [reflexivity|]. cbn [rev]. rewrite sumz_app, IH. cbn. unfold sumz. lia. Qed.
Lemma sumz_shift (a : list (qpkt * Z)) n m : sumz (map (fun x => n - snd x) a) = sumz (map (fun x => m - snd x) a) + (n - m) * zlen a.
Proof.
  induction a as [|x a IH]; [cbn; unfold zlen; cbn; lia|]. cbn [map sumz fold_right]. rewrite zlen_cons.
  unfold sumz in IH. rewrite IH. lia.
Qed.
Lemma sumz_nonneg a : (forall x, In x a -> 0 <= x) -> 0 <= sumz a.
Proof.
  induction a as [|x a IH]; intros H; cbn; [lia|]. pose proof (H x (or_introl eq_refl)).
  unfold sumz in IH. specialize (IH (fun y hy => H y (or_intror hy))). lia.
Qed.

(** invariant relating totals to visible packets *)
Record TI (cur : Z) (v : list (qpkt * Z)) (t : total) : Prop := {
  ti_count : unsent_count t = zlen v;
  ti_size : unsent_size t = sumz (map (fun x => qlen (fst x)) v);
  ti_none : v = [] -> tlast t = None /\ queue_time t = 0;
  ti_some : v <> [] -> exists l, tlast t = Some l /\ l <= cur /\
      queue_time t = sumz (map (fun x => l - snd x) v) /\ forall x, In x v -> snd x <= l;
  ti_pos : forall x, In x v -> 0 <= qlen (fst x) }.

Lemma zlen_pos {A} (l : list A) : l <> [] -> 0 < zlen l.
Proof. destruct l; [congruence|]. intros _. rewrite zlen_cons. pose proof (zlen_nonneg l). lia. Qed.

Lemma mtf_ok cur v t now : TI cur v t -> cur <= now ->
  exists t', move_time_forward t now = Ok t' /\ TI now v t' /\
   (v <> [] -> tlast t' = Some now) /\ queue_time t' = sumz (map (fun x => now - snd x) v).
Proof.
  intros [C S N M P] H. unfold move_time_forward. destruct v as [|x v].
  - destruct (N eq_refl) as [-> ->]. rewrite C, S. cbn. exists t. split; [reflexivity|].
    split; [constructor; auto; congruence|]. split; [congruence|]. destruct (N eq_refl). auto.
  - destruct M as (l & -> & L & Q & B); [discriminate|].
    pose proof (zlen_pos (x :: v) ltac:(discriminate)) as ZP.
    assert (0 <? unsent_count t = true) as -> by lia.
    eexists. split; [reflexivity|].
    assert (queue_time t + Z.max 0 (now - l) * unsent_count t = sumz (map (fun x => now - snd x) (x :: v))) as QQ.
    { rewrite Q, C. rewrite (sumz_shift (x :: v) now l). rewrite Z.max_r by lia. reflexivity. }
    split; [|split; [reflexivity|exact QQ]].
    constructor; cbn [unsent_count unsent_size queue_time tlast]; auto; [discriminate|].
    intros _. exists now. split; [reflexivity|]. split; [lia|]. split; [exact QQ|].
    intros y Hy. specialize (B y Hy). lia.
Qed.

Lemma increase_ok cur v t now p : TI cur v t -> cur <= now -> 0 <= qlen p ->
  exists t', increase t now (qlen p) = Ok t' /\ TI now (v ++ [(p, now)]) t'.
Proof.
  intros H L P. destruct (mtf_ok _ _ _ _ H L) as (t1 & E & [C S N M PP] & _ & Q). unfold increase. rewrite E. cbn [bind].
  eexists. split; [reflexivity|]. constructor; cbn [unsent_count unsent_size queue_time tlast].
  - rewrite zlen_app, C. reflexivity.
  - rewrite map_app, sumz_app, S. cbn. lia.
  - destruct v; discriminate.
  - intros _. exists now. split; [reflexivity|]. split; [lia|]. rewrite map_app, sumz_app, Q. cbn.
    split; [lia|]. intros x Hx. apply in_app_or in Hx as [Hx|[<-|[]]]; [|cbn; lia].
    destruct M as (l & _ & Ll & _ & B); [destruct v; [destruct Hx|discriminate]|]. specialize (B x Hx). lia.
  - intros x Hx. apply in_app_or in Hx as [Hx|[<-|[]]]; auto.
Qed.

(** stamping in reverse order of the unstamped packets *)
Lemma stamp_ok now b : forall cur a t, TI cur a t -> cur <= now -> Forall (fun p => 0 <= qlen p) b ->
  exists t', stamp_rev (map (fun p => (p, None)) b ++ rev (map (fun x => (fst x, Some (snd x))) a)) t now
     = Ok (map (fun p => (p, Some now)) b ++ rev (map (fun x => (fst x, Some (snd x))) a), t') /\
     exists cur', cur <= cur' <= now /\ TI cur' (a ++ map (fun p => (p, now)) b) t'.
Proof.
  induction b as [|p b IH]; intros cur a t H L F; cbn [map app].
  - exists t. split.
    + destruct (rev (map _ a)) as [|[q [s|]] r] eqn:E; try reflexivity.
      exfalso. assert (In (q, @None Z) (rev (map (fun x : qpkt * Z => (fst x, Some (snd x))) a))) as X by (rewrite E; left; reflexivity).
      apply in_rev in X. apply in_map_iff in X as (y & Y & _). discriminate.
    + exists cur. split; [lia|]. rewrite app_nil_r. exact H.
  - inversion F as [|? ? Fp Fb]; subst. destruct (increase_ok _ _ _ _ p H L Fp) as (t1 & E1 & H1).
    cbn [stamp_rev]. rewrite E1. cbn [bind].
    (* the recursive call still sees [a] only; do it through a permuted invariant *)
    assert (forall c1 a1 t1, TI c1 (a1 ++ [(p, now)]) t1 -> c1 <= now -> exists t', stamp_rev (map (fun p => (p, None)) b ++ rev (map (fun x => (fst x, Some (snd x))) a)) t1 now
       = Ok (map (fun p => (p, Some now)) b ++ rev (map (fun x => (fst x, Some (snd x))) a), t') /\
       exists cur', c1 <= cur' <= now /\ TI cur' (a1 ++ [(p, now)] ++ map (fun p => (p, now)) b) t') as G.
    { clear - Fb. intros c1 a1 t1 H1 L1. rewrite app_assoc. generalize dependent (a1 ++ [(p, now)]). intros a2 H2.
      clear a1. revert c1 a2 t1 H2 L1. induction b as [|q b IH]; intros c1 a2 t1 H2 L1; cbn [map app].
      - exists t1. split.
        + destruct (rev (map _ a)) as [|[q [s|]] r] eqn:E; try reflexivity.
          exfalso. assert (In (q, @None Z) (rev (map (fun x : qpkt * Z => (fst x, Some (snd x))) a))) as X by (rewrite E; left; reflexivity).
          apply in_rev in X. apply in_map_iff in X as (y & Y & _). discriminate.
        + exists c1. split; [lia|]. rewrite app_nil_r. exact H2.
      - inversion Fb as [|? ? Fq Fb']; subst. destruct (increase_ok _ _ _ _ q H2 L1 Fq) as (t2 & E2 & H3).
        cbn [stamp_rev]. rewrite E2. cbn [bind].
        destruct (IH Fb' now _ t2 H3 ltac:(lia)) as (t3 & E3 & c3 & C3 & H4). rewrite E3. cbn [bind fst snd].
        exists t3. split; [reflexivity|]. exists c3. split; [lia|]. rewrite <- app_assoc in H4. exact H4. }
    destruct (G now a t1 H1 ltac:(lia)) as (t2 & E2 & c2 & C2 & H2). rewrite E2. cbn [bind fst snd].
    exists t2. split; [reflexivity|]. exists c2. split; [lia|]. exact H2.
Qed.

Lemma TI_perm cur v w t : TI cur v t -> (forall x, In x v <-> In x w) -> zlen v = zlen w ->
  (forall f : qpkt * Z -> Z, sumz (map f v) = sumz (map f w)) -> TI cur w t.
Proof.
  intros [C S N M P] HI HL HS. constructor.
  - lia.
  - rewrite S. apply HS.
  - intros ->. apply N. apply zlen_0. rewrite HL. reflexivity.
  - intros NE. destruct M as (l & A & B & D & E).
    + intros ->. apply NE, zlen_0. rewrite <- HL. reflexivity.
    + exists l. split; [exact A|]. split; [exact B|]. split; [rewrite D; apply HS|]. intros x Hx. apply E, HI, Hx.
  - intros x Hx. apply P, HI, Hx.
Qed.

Record QI (cur : Z) (q : sendq) (f : fifo) : Prop := {
  qi_q : queue q = fst f; qi_le : last_emitted q = snd f;
  qi_st : stampable (fst f); qi_t : TI cur (visible (fst f)) (stotal q);
  qi_ge : forall x, In x (fst f) -> 0 <= qlen (fst x) }.

Lemma first_stamped_visible (l : list (qpkt * option Z)) : first_stamped l = match visible l with [] => None | x :: _ => Some (snd x) end.
Proof. induction l as [|[p [t|]] l IH]; cbn; auto. Qed.

Definition small_count (f : fifo) : Prop := zlen (visible (fst f)) < U32.

Definition op_time (o : qop) (cur : Z) : Z := match o with QTimeout t | QPop t | QSnapshot t => t | _ => cur end.

Lemma step_ok cur q f o : QI cur q f ->
  (match o with QPush p => 0 <= qlen p | QTimeout t | QPop t | QSnapshot t => cur <= t | QClear => True end) ->
  (match o with QSnapshot _ => small_count f | _ => True end) ->
  exists q', qstep q o = Ok (q', snd (fstep f o)) /\ QI (op_time o cur) q' (fst (fstep f o)).
Proof.
  intros [HQ HL (a & b & HS) HT HG] HO SC. destruct o as [p|now|now|now|]; cbn [qstep fstep op_time].
  - eexists. split; [reflexivity|]. constructor; cbn [queue last_emitted fst snd sq_push stotal]; auto.
    + rewrite HQ. reflexivity.
    + exists a, (b ++ [p]). rewrite map_app, app_assoc, <- HS. reflexivity.
    + rewrite visible_app. cbn. rewrite app_nil_r. exact HT.
    + intros x Hx. apply in_app_or in Hx as [Hx|[<-|[]]]; auto.
  - unfold sq_timeout. rewrite HQ.
    assert (rev (fst f) = map (fun p => (p, None)) (rev b) ++ rev (map (fun x => (fst x, Some (snd x))) a)) as ER
      by (rewrite HS, rev_app_distr, <- map_rev; reflexivity).
    rewrite ER.
    assert (visible (fst f) = a) as V by (rewrite HS, visible_app, visible_some, visible_none; apply app_nil_r).
    rewrite V in HT.
    destruct (stamp_ok now (rev b) cur a (stotal q) HT HO) as (t' & E & c' & C' & T').
    { apply Forall_forall. intros p Hp. apply in_rev in Hp. apply (HG (p, None)). rewrite HS. apply in_or_app. right.
      apply (in_map (fun p => (p, None))). exact Hp. }
    rewrite E. cbn [bind fst snd]. eexists. split; [reflexivity|].
    assert (map (fun x => (fst x, match snd x with None => Some now | s => s end)) (fst f)
      = map (fun x => (fst x, Some (snd x))) (a ++ map (fun p => (p, now)) b)) as EM.
    { rewrite HS, !map_app, !map_map. f_equal. }
    constructor; cbn [queue last_emitted fst snd stotal]; auto.
    + rewrite EM. rewrite rev_app_distr, rev_involutive, <- map_rev, rev_involutive, map_app, map_map. reflexivity.
    + exists (a ++ map (fun p => (p, now)) b), []. cbn. rewrite app_nil_r. exact EM.
    + rewrite EM, visible_some.
      assert (TI now (a ++ map (fun p => (p, now)) (rev b)) t') as T2.
      { destruct T' as [X1 X2 X3 X4 X5]. constructor; auto. intro NE. destruct (X4 NE) as (l & ? & ? & ?).
        exists l. split; [assumption|]. split; [lia|assumption]. }
      apply (TI_perm _ _ _ _ T2).
      * intro x. rewrite !in_app_iff, !in_map_iff. split; (intros [?|(y & ? & Hy)]; [auto|right; exists y; split; [assumption|]; apply in_rev; try rewrite rev_involutive; assumption]).
      * rewrite !zlen_app, !zlen_map, zlen_rev. reflexivity.
      * intro g. rewrite !map_app, !sumz_app. f_equal. rewrite map_rev, map_rev, sumz_rev. reflexivity.
    + rewrite EM. intros x Hx. apply in_map_iff in Hx as (y & <- & Hy). cbn [fst].
      apply in_app_or in Hy as [Hy|Hy].
      * apply (HG (fst y, Some (snd y))). rewrite HS. apply in_or_app. left. apply (in_map (fun x => (fst x, Some (snd x)))). exact Hy.
      * apply in_map_iff in Hy as (p & <- & Hp). apply (HG (p, None)). rewrite HS. apply in_or_app. right. apply (in_map (fun p => (p, None))). exact Hp.
  - unfold sq_pop. rewrite HQ. destruct (fst f) as [|[p [ts|]] r] eqn:Ef.
    + cbn [bind fst snd]. eexists. split; [reflexivity|]. constructor; cbn [fst snd]; try rewrite Ef; auto.
      * exists [], []. reflexivity.
      * destruct HT as [X1 X2 X3 X4 X5]. constructor; auto. intro NE. destruct (X4 NE) as (l & ? & ? & ?).
        exists l. split; [assumption|]. split; [lia|assumption].
    + destruct a as [|[p0 t0] a]; [destruct b; discriminate|]. cbn [map app] in HS. injection HS as <- <- Hr.
      cbn [fst snd] in *. cbn [visible flat_map snd fst] in HT. fold (visible r) in HT. cbn [app] in HT.
      destruct (mtf_ok _ _ _ _ HT HO) as (t1 & E & [C S N M P] & L1 & Q). unfold decrease. rewrite E. cbn [bind].
      rewrite C, S, Q. cbn [map sumz fold_right fst snd]. rewrite !zlen_cons. fold (sumz (map (fun x => qlen (fst x)) (visible r))).
      fold (sumz (map (fun x : qpkt * Z => now - snd x) (visible r))).
      assert (forall x, In x (visible r) -> In x ((p, ts) :: visible r)) as SUB by (intros; right; assumption).
      destruct M as (l & Ml & Mn & Mq & MB); [discriminate|].
      assert (ts <= now) as TS by (specialize (MB (p, ts) (or_introl eq_refl)); cbn in MB; lia).
      assert (0 <= sumz (map (fun x => qlen (fst x)) (visible r))) as N1.
      { apply sumz_nonneg. intros y Hy. apply in_map_iff in Hy as (x & <- & Hx). apply (P x). auto. }
      assert (0 <= sumz (map (fun x : qpkt * Z => now - snd x) (visible r))) as N2.
      { apply sumz_nonneg. intros y Hy. apply in_map_iff in Hy as (x & <- & Hx). specialize (MB x (SUB x Hx)). lia. }
      pose proof (zlen_nonneg (visible r)) as N3. rewrite (Z.max_r 0 (now - ts)) by lia.
      destruct ((1 + zlen (visible r) <? 1) || (qlen p + sumz (map (fun x => qlen (fst x)) (visible r)) <? qlen p)
         || (now - ts + sumz (map (fun x : qpkt * Z => now - snd x) (visible r)) <? now - ts)) eqn:G; [exfalso; lia|].
      assert (stampable r) as SR by (exists a, b; exact Hr).
      destruct (1 + zlen (visible r) - 1 =? 0) eqn:Z1.
      * assert (visible r = []) as VN by (apply zlen_0; lia). rewrite VN. cbn [map sumz fold_right].
        assert (qlen p + 0 - qlen p =? 0 = true) as -> by lia. cbn [bind fst snd].
        eexists. split; [reflexivity|]. constructor; cbn [queue last_emitted fst snd stotal]; auto.
        -- rewrite VN. constructor; cbn; auto; congruence.
        -- intros x Hx. apply HG. right. exact Hx.
      * cbn [bind fst snd]. eexists. split; [reflexivity|]. constructor; cbn [queue last_emitted fst snd stotal]; auto.
        -- constructor; cbn [unsent_count unsent_size queue_time tlast].
           ++ lia.
           ++ lia.
           ++ intros V. rewrite V in Z1. exfalso. unfold zlen in Z1. cbn in Z1. lia.
           ++ intros _. exists now. rewrite L1 by discriminate. split; [reflexivity|]. split; [lia|].
              split; [lia|]. intros x Hx. specialize (MB x (SUB x Hx)). lia.
           ++ intros x Hx. apply P. auto.
        -- intros x Hx. apply HG. right. exact Hx.
    + cbn [bind fst snd]. eexists. split; [reflexivity|]. constructor; cbn [fst snd]; try rewrite Ef; auto.
      * exists a, b. exact HS.
      * destruct HT as [X1 X2 X3 X4 X5]. constructor; auto. intro NE. destruct (X4 NE) as (l & ? & ? & ?).
        exists l. split; [assumption|]. split; [lia|assumption].
  - unfold sq_snapshot. destruct (mtf_ok _ _ _ _ HT HO) as (t1 & E & T1 & L1 & Q). rewrite E. cbn [bind fst snd].
    eexists. split.
    + f_equal. f_equal. f_equal. unfold measure. cbn [fst snd]. destruct T1 as [C S _ _ _].
      rewrite C, S, Q, HL, HQ, first_stamped_visible. f_equal.
      * apply Z.mod_small. pose proof (zlen_nonneg (visible (fst f))). unfold small_count in SC. lia.
      * destruct (visible (fst f)) as [|x v]; [reflexivity|]. rewrite zlen_cons. pose proof (zlen_nonneg v). lia.
    + constructor; cbn [queue last_emitted fst snd stotal]; auto. exists a, b. exact HS.
  - eexists. split; [reflexivity|]. constructor; cbn; auto.
    + exists [], []. reflexivity.
    + constructor; cbn; auto; tauto.
    + tauto.
Qed.

Lemma visible_len (l : list (qpkt * option Z)) : zlen (visible l) <= zlen l.
Proof.
  induction l as [|[p [t|]] l IH]; [reflexivity| |]; cbn [visible flat_map snd]; fold (visible l);
  [cbn [app]; rewrite !zlen_cons; lia|]. cbn [app]. rewrite zlen_cons. pose proof (zlen_nonneg l). lia.
Qed.

Lemma run_ok ops : forall cur q f, QI cur q f -> clock cur ops -> never_full f ops ->
  exists q', qrun q ops = Ok (q', snd (frun f ops)) /\ queue q' = fst (fst (frun f ops)).
Proof.
  induction ops as [|o ops IH]; intros cur q f H C N; cbn [qrun frun]; [exists q; split; [reflexivity|apply (qi_q _ _ _ H)]|].
  cbn [never_full] in N. destruct N as [N1 N2].
  destruct (step_ok cur q f o H) as (q1 & E1 & H1).
  { destruct o; cbn [clock] in C; tauto. }
  { destruct o; auto. unfold small_count. pose proof (visible_len (fst f)). lia. }
  rewrite E1. cbn [bind fst snd].
  destruct (IH (op_time o cur) q1 _ H1) as (q2 & E2 & E3); [destruct o; cbn [clock op_time] in *; tauto|exact N2|].
  rewrite E2. cbn [bind fst snd]. exists q2. split; [reflexivity|exact E3].
Qed.

Lemma run_qi ops : forall cur q f, QI cur q f -> clock cur ops -> never_full f ops ->
  exists q' cur' f', qrun q ops = Ok (q', snd (frun f ops)) /\ QI cur' q' f'.
Proof.
  induction ops as [|o ops IH]; intros cur q f H C N; cbn [qrun frun]; [exists q, cur, f; split; [reflexivity|exact H]|].
  cbn [never_full] in N. destruct N as [N1 N2].
  destruct (step_ok cur q f o H) as (q1 & E1 & H1).
  { destruct o; cbn [clock] in C; tauto. }
  { destruct o; auto. unfold small_count. pose proof (visible_len (fst f)). lia. }
  rewrite E1. cbn [bind fst snd].
  destruct (IH (op_time o cur) q1 _ H1) as (q2 & c2 & f2 & E2 & E3); [destruct o; cbn [clock op_time] in *; tauto|exact N2|].
  rewrite E2. cbn [bind fst snd]. exists q2, c2, f2. split; [reflexivity|exact E3].
Qed.

Lemma qi_new cur : QI cur sq_new ([], None).
Proof.
  constructor; cbn; auto.
  - exists [], []. reflexivity.
  - constructor; cbn; auto; tauto.
  - tauto.
Qed.

(** FIFO *)
Lemma fifo_order (ops : list qop) : forall f, ~ In QClear ops ->
  map fst (fst f) ++ pushed ops = popped (snd (frun f ops)) ++ map fst (fst (fst (frun f ops))).
Proof.
  induction ops as [|o ops IH]; intros f N; cbn [frun fst snd pushed]; [apply app_nil_r|].
  assert (~ In QClear ops) as N' by (intro; apply N; right; assumption).
  specialize (IH (fst (fstep f o)) N'). destruct o as [p|now|now|now|]; cbn [fstep fst snd popped] in *.
  - rewrite map_app, <- app_assoc in IH. exact IH.
  - rewrite map_map in IH. exact IH.
  - destruct (fst f) as [|[p [ts|]] r] eqn:Ef; cbn [fst snd popped] in *; try (rewrite Ef in IH; exact IH).
    cbn [map app fst]. f_equal. exact IH.
  - exact IH.
  - exfalso. apply N. left. reflexivity.
Qed.
End Q.

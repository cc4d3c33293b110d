From Coq Require Import QArith Lia Sorted.
From Verif Require Import Base BaseFacts ProbeModel ProbeSpec ProbeProofs ProbeProofs2 ProbeProofs3 ProbeProofs4 ProbeProofs5.
Open Scope Z_scope.

Section P.
Variables (B : Type) (A : arith B) (FAR : Z).
Notation hist := (list (bop B * bout B)).
Notation est := (est B).

(** What the state of a cluster says about the records given to it. *)
Definition tracks (x : est) (l : list srec) : Prop :=
  e_count x = zlen l /\ e_total x = total l /\
  ((l = [] /\ e_fsend x = None /\ e_lsend x = None /\ e_frecv x = None /\ e_lrecv x = None) \/
   exists s1 s2 r1 r2, least r_send l s1 /\ greatest r_send l s2 /\ least recvt l r1 /\ greatest recvt l r2 /\
     e_fsend x = Some (r_send s1) /\ e_lsend x = Some (r_send s2) /\ e_slast x = r_size s2 /\
     e_frecv x = Some (recvt r1) /\ e_lrecv x = Some (recvt r2) /\ e_sfirst x = r_size r1).

Lemma total_app : forall l m, total (l ++ m) = total l + total m.
Proof. induction l as [|r l IH]; intro m; cbn [app total fold_right]; [reflexivity|]. fold (total (l ++ m)). fold (total l). rewrite IH. lia. Qed.
Lemma least_old : forall f l m r, least f l m -> f m <= f r -> least f (l ++ [r]) m.
Proof.
  intros f l m r (I & H) K. split; [apply in_or_app; auto|]. intros x X. apply in_app_or in X as [X|[<-|[]]]; auto.
Qed.
Lemma least_new : forall f l m r, least f l m -> f r <= f m -> least f (l ++ [r]) r.
Proof.
  intros f l m r (I & H) K. split; [apply in_or_app; cbn; auto|]. intros x X. apply in_app_or in X as [X|[<-|[]]]; [|lia].
  specialize (H _ X). lia.
Qed.
Lemma great_old : forall f l m r, greatest f l m -> f r <= f m -> greatest f (l ++ [r]) m.
Proof.
  intros f l m r (I & H) K. split; [apply in_or_app; auto|]. intros x X. apply in_app_or in X as [X|[<-|[]]]; auto.
Qed.
Lemma great_new : forall f l m r, greatest f l m -> f m <= f r -> greatest f (l ++ [r]) r.
Proof.
  intros f l m r (I & H) K. split; [apply in_or_app; cbn; auto|]. intros x X. apply in_app_or in X as [X|[<-|[]]]; [|lia].
  specialize (H _ X). lia.
Qed.
Lemma one : forall f r, least f [r] r /\ greatest f [r] r.
Proof. intros. split; split; cbn; auto; intros x [<-|[]]; lia. Qed.

Lemma tracks_new : forall g now, tracks (est_new FAR g now) [].
Proof. intros. split; [reflexivity|]. split; [reflexivity|]. left. repeat split. Qed.
Lemma upd_cfg : forall (x : est) r, e_cfg (fst (est_update x r)) = e_cfg x.
Proof.
  intros x r. unfold est_update. destruct (r_recv r); [|reflexivity].
  repeat match goal with |- context [let '(_, _) := (if ?b then _ else _) in _] => destruct b end; reflexivity.
Qed.
Lemma tracks_step : forall x l r rt, tracks x l -> r_recv r = Some rt -> tracks (fst (est_update x r)) (l ++ [r]).
Proof.
  intros x l r rt (Hc & Ht & H) Er. assert (Er' : recvt r = rt) by (unfold recvt; rewrite Er; reflexivity).
  unfold tracks. rewrite total_app. cbn [total fold_right]. rewrite Z.add_0_r.
  assert (Zl : zlen (l ++ [r]) = zlen l + 1) by (unfold zlen; rewrite app_length; cbn [length]; lia). rewrite Zl.
  unfold est_update. rewrite Er. destruct H as [(-> & -> & -> & -> & ->)|(s1 & s2 & r1 & r2 & H1 & H2 & H3 & H4 & -> & -> & E3 & -> & -> & E6)].
  - rewrite !Z.leb_refl. cbn [fst e_count e_total e_fsend e_lsend e_slast e_frecv e_lrecv e_sfirst].
    split; [lia|]. split; [lia|]. right. exists r, r, r, r. cbn [app].
    destruct (one r_send r), (one recvt r). rewrite Er'. repeat (split; [assumption || reflexivity|]). reflexivity.
  - assert (W1 : exists q, least r_send (l ++ [r]) q /\ Z.min (r_send s1) (r_send r) = r_send q).
    { destruct (Z.leb_spec (r_send s1) (r_send r)); [exists s1|exists r]; (split; [|lia]); [apply least_old|eapply least_new]; eauto; lia. }
    assert (W4 : exists q, greatest recvt (l ++ [r]) q /\ Z.max (recvt r2) rt = recvt q).
    { rewrite <- Er'. destruct (Z.leb_spec (recvt r) (recvt r2)); [exists r2|exists r]; (split; [|lia]); [apply great_old|eapply great_new]; eauto; lia. }
    destruct W1 as (q1 & W1 & E1). destruct W4 as (q4 & W4 & E4). rewrite E1, E4. rewrite <- Er' in *.
    destruct (Z.leb_spec (r_send s2) (r_send r)) as [K|K], (Z.leb_spec (recvt r) (recvt r1)) as [K'|K'];
      cbn [fst e_count e_total e_fsend e_lsend e_slast e_frecv e_lrecv e_sfirst];
      (split; [lia|]); (split; [lia|]); right.
    + exists q1, r, r, q4. pose proof (great_new _ _ _ _ H2 K). pose proof (least_new _ _ _ _ H3 K').
      repeat (split; [assumption || reflexivity|]). reflexivity.
    + exists q1, r, r1, q4. pose proof (great_new _ _ _ _ H2 K). pose proof (least_old _ _ _ r H3 ltac:(lia)).
      repeat (split; [assumption || reflexivity|]). exact E6.
    + exists q1, s2, r, q4. pose proof (great_old _ _ _ r H2 ltac:(lia)). pose proof (least_new _ _ _ _ H3 K').
      repeat (split; [assumption || reflexivity|]). reflexivity.
    + exists q1, s2, r1, q4. pose proof (great_old _ _ _ r H2 ltac:(lia)). pose proof (least_old _ _ _ r H3 ltac:(lia)).
      repeat (split; [assumption || reflexivity|]). exact E6.
Qed.
Lemma rate_measured : forall x l b, tracks x l -> est_rate A x = Some b -> measured A (e_cfg x) l b.
Proof.
  intros x l b (Hc & Ht & H) E. unfold est_rate in E. rewrite Hc, Ht in E.
  destruct (Z.ltb_spec (zlen l) 4) as [|N4]; [discriminate|]. destruct (zlen l <? 5 * 80 / 100); [discriminate|].
  destruct (Z.ltb_spec (total l) (min_bytes A (c_rate (e_cfg x)))) as [|Nb]; [discriminate|].
  destruct H as [(-> & _)|(s1 & s2 & r1 & r2 & H1 & H2 & H3 & H4 & E1 & E2 & E3 & E4 & E5 & E6)].
  { exfalso. change (zlen (@nil srec)) with 0 in N4. lia. }
  rewrite E1, E2, E3, E4, E5, E6 in E.
  assert (S1 : since (r_send s2) (r_send s1) = r_send s2 - r_send s1).
  { unfold since. pose proof (proj2 H1 _ (proj1 H2)). lia. }
  assert (S2 : since (recvt r2) (recvt r1) = recvt r2 - recvt r1).
  { unfold since. pose proof (proj2 H3 _ (proj1 H4)). lia. }
  rewrite S1, S2 in E.
  assert (P1 : 0 <= r_send s2 - r_send s1) by (pose proof (proj2 H1 _ (proj1 H2)); lia).
  assert (P2 : 0 <= recvt r2 - recvt r1) by (pose proof (proj2 H3 _ (proj1 H4)); lia).
  destruct (Z.eqb_spec (r_send s2 - r_send s1) 0); [discriminate|].
  destruct (Z.ltb_spec SEC (r_send s2 - r_send s1)); [discriminate|].
  destruct (Z.eqb_spec (recvt r2 - recvt r1) 0); [discriminate|]. cbn [orb] in E.
  destruct (Z.ltb_spec SEC (recvt r2 - recvt r1)); [discriminate|].
  destruct (Z.leb_spec (Z.max 0 (total l - r_size s2)) 0); [discriminate|]. cbn [orb] in E.
  destruct (Z.leb_spec (Z.max 0 (total l - r_size r1)) 0); [discriminate|].
  rewrite (Z.max_r 0 (total l - r_size s2)), (Z.max_r 0 (total l - r_size r1)) in E by lia.
  split; [exact N4|]. split; [exact Nb|]. exists s1, s2, r1, r2.
  split; [exact H1|]. split; [exact H2|]. split; [exact H3|]. split; [exact H4|]. cbv zeta.
  split; [split; [lia|assumption]|]. split; [split; [lia|assumption]|]. split; [lia|]. split; [lia|].
  destruct (ratio_gt2 A _ _); [discriminate|]. split; [reflexivity|].
  destruct (lt A _ _); injection E as <-; reflexivity.
Qed.

(** * Feedback *)
Definition eid (x : est) : Z := c_id (e_cfg x).
Definition grow (rs : list srec) (x x' : est) : Prop :=
  e_cfg x' = e_cfg x /\ forall l, tracks x l -> tracks x' (l ++ heard (eid x) rs).
Lemma grow_none : forall rs x, heard (eid x) rs = [] -> grow rs x x.
Proof. intros rs x H. split; [reflexivity|]. intros l T. rewrite H, app_nil_r. exact T. Qed.
Lemma heard_one : forall id r, heard id [r] = match r_cluster r, r_recv r with Some i, Some _ => if i =? id then [r] else [] | _, _ => [] end.
Proof. intros. cbn [heard filter]. destruct (r_cluster r), (r_recv r); reflexivity. Qed.
Lemma F2_same : forall (R : est -> est -> Prop) l, (forall x, In x l -> R x x) -> Forall2 R l l.
Proof. induction l; intros H; constructor; [apply H; left; reflexivity|]. apply IHl. intros. apply H. right. assumption. Qed.
Lemma find_none : forall (l : list est) id, find_est l id = None -> forall x, In x l -> eid x <> id.
Proof.
  induction l as [|y l IH]; intros id H x X; [destruct X|]. cbn [find_est] in H. destruct (Z.eqb_spec (c_id (e_cfg y)) id); [discriminate|].
  destruct X as [<-|X]; [exact n|exact (IH _ H _ X)].
Qed.
Lemma put_grow : forall (l : list est) id r, NoDup (map eid l) -> r_cluster r = Some id ->
  Forall2 (grow [r]) l (put_est l id (fun s => fst (est_update s r))).
Proof.
  induction l as [|y l IH]; intros id r N Hr; cbn [put_est]; [constructor|]. cbn [map] in N. inversion N as [|? ? N1 N2]; subst.
  destruct (Z.eqb_spec (c_id (e_cfg y)) id) as [E|E].
  - constructor.
    + split; [apply upd_cfg|]. intros q T. rewrite heard_one, Hr. unfold eid. rewrite E, Z.eqb_refl.
      destruct (r_recv r) eqn:Er; [eapply tracks_step; eauto|]. unfold est_update. rewrite Er. rewrite app_nil_r. exact T.
    + apply F2_same. intros x X. apply grow_none. rewrite heard_one, Hr. destruct (r_recv r); [|reflexivity].
      destruct (Z.eqb_spec id (eid x)) as [E'|]; [|reflexivity]. exfalso. apply N1. apply in_map_iff. exists x. unfold eid in *. split; [congruence|exact X].
  - constructor; [|apply IH; assumption]. apply grow_none. rewrite heard_one, Hr. destruct (r_recv r); [|reflexivity].
    destruct (Z.eqb_spec id (eid y)) as [E'|]; [|reflexivity]. unfold eid in E'. congruence.
Qed.
Lemma grow_ids : forall rs l l', Forall2 (grow rs) l l' -> map e_cfg l' = map e_cfg l.
Proof. induction 1 as [|x x' l l' (H & _) F IH]; cbn [map]; [reflexivity|]. rewrite H, IH. reflexivity. Qed.
Lemma eids : forall l l', map e_cfg l' = map e_cfg l -> map eid l' = map eid l.
Proof. intros l l' H. unfold eid. rewrite <- !(map_map e_cfg c_id), H. reflexivity. Qed.
Lemma grow_trans : forall r rs l l1 l2, Forall2 (grow [r]) l l1 -> Forall2 (grow rs) l1 l2 -> Forall2 (grow (r :: rs)) l l2.
Proof.
  intros r rs l l1 l2 F. revert l2. induction F as [|x x1 l l1 (H1 & H2) F IH]; intros l2 F2; inversion F2 as [|? x2 ? ? (G1 & G2) F3]; subst; constructor.
  - split; [congruence|]. intros q T. specialize (G2 _ (H2 _ T)). unfold eid in *. rewrite H1 in G2. rewrite <- app_assoc in G2.
    change (r :: rs) with ([r] ++ rs). unfold heard in *. rewrite filter_app. exact G2.
  - apply IH. exact F3.
Qed.
Lemma records_grow : forall rs l did, NoDup (map eid l) -> Forall2 (grow rs) l (fst (est_records l did rs)).
Proof.
  induction rs as [|r rs IH]; intros l did N; cbn [est_records].
  - apply F2_same. intros x _. apply grow_none. reflexivity.
  - destruct (r_cluster r) as [id|] eqn:Er.
    + destruct (find_est l id) as [s|] eqn:Ef.
      * pose proof (put_grow l id r N Er) as G. eapply grow_trans; [exact G|]. apply IH. rewrite (eids l); [exact N|]. eapply grow_ids; exact G.
      * eapply grow_trans; [|apply IH; exact N]. apply F2_same. intros x X. apply grow_none. rewrite heard_one, Er.
        destruct (r_recv r); [|reflexivity]. destruct (Z.eqb_spec id (eid x)); [|reflexivity]. exfalso. eapply find_none; eauto.
    + eapply grow_trans; [|apply IH; exact N]. apply F2_same. intros x X. apply grow_none. rewrite heard_one, Er. reflexivity.
Qed.
Lemma find_in : forall (l : list est) id s, find_est l id = Some s -> In s l.
Proof.
  induction l as [|y l IH]; intros id s H; cbn [find_est] in H; [discriminate|]. destruct (_ =? _); [injection H as <-; left; reflexivity|].
  right. eauto.
Qed.
Lemma results_in : forall l rs l1 res g b, est_feedback A l rs = (l1, res) -> In (g, b) res ->
  l1 = fst (est_records l [] rs) /\ exists s, In s l1 /\ est_rate A s = Some b /\ e_cfg s = g.
Proof.
  intros l rs l1 res g b H I. unfold est_feedback in H. destruct (est_records l [] rs) as [l2 did] eqn:E. injection H as <- <-.
  split; [reflexivity|]. apply in_flat_map in I as (id & _ & I). destruct (find_est l2 id) as [s|] eqn:Ef; [|destruct I].
  destruct (est_rate A s) eqn:Er; [|destruct I]. destruct I as [I|[]]. injection I as <- <-. exists s. split; [eapply find_in; eauto|auto].
Qed.
Lemma F2_back : forall (R : est -> est -> Prop) l l', Forall2 R l l' -> forall y, In y l' -> exists x, In x l /\ R x y.
Proof. induction 1; intros q Q; [destruct Q|]. destruct Q as [<-|Q]; [exists x; cbn; auto|]. destruct (IHForall2 _ Q) as (z & Z1 & Z2). exists z; cbn; auto. Qed.

(** * The run *)
Definition begun (h : hist) (x : est) : Prop :=
  exists ha t alr e c hb, h = ha ++ (BTimeout t true alr e c, OProbe (Some (e_cfg x)) true) :: hb
    /\ Forall (fun x => ~ off x) hb /\ tracks x (heard (eid x) (fed hb)).
Definition einv (h : hist) (l : list est) : Prop :=
  NoDup (map eid l) /\ Forall (fun x => In (e_cfg x) (P B h)) l /\ Forall (begun h) l.
Lemma begun_snoc : forall h x o x', begun h x -> ~ off o -> grow (fed [o]) x x' -> begun (h ++ [o]) x'.
Proof.
  intros h x o x' (ha & t & alr & e & c & hb & E & F & T) No (G1 & G2).
  exists ha, t, alr, e, c, (hb ++ [o]). rewrite G1. split; [rewrite E, <- app_assoc; reflexivity|].
  split; [apply Forall_app; auto|]. unfold eid in *. rewrite G1. specialize (G2 _ T).
  unfold fed in *. rewrite flat_map_app. unfold heard in *. rewrite filter_app. exact G2.
Qed.
Lemma P_keep : forall h o (g : cfg B), fst o <> BReset -> In g (P B h) -> In g (P B (h ++ [o])).
Proof. intros h [o y] g N I. rewrite P_snoc. cbn [fst] in *. destruct o; try congruence; apply in_or_app; auto. Qed.
Lemma begun_end : forall h x f c, begun h x -> begun h (mkE (e_cfg x) c f (e_fsend x) (e_lsend x) (e_slast x) (e_frecv x) (e_lrecv x) (e_sfirst x) (e_total x) (e_count x)).
Proof. intros h x f c (ha & t & alr & e & cc & hb & E & F & T). exists ha, t, alr, e, cc, hb. auto. Qed.

Lemma nodup_filter : forall (f : est -> bool) l, NoDup (map eid l) -> NoDup (map eid (filter f l)).
Proof.
  induction l as [|x l IH]; intros N; [constructor|]. cbn [map] in N. inversion N; subst. cbn [filter]. destruct (f x); [|auto].
  cbn [map]. constructor; [|auto]. intro X. apply H1. apply in_map_iff in X as (y & E & Y). apply in_map_iff. exists y. split; [exact E|].
  apply filter_In in Y. apply Y.
Qed.
Lemma einv_filter : forall h f l, einv h l -> einv h (filter f l).
Proof.
  intros h f l (N & F1 & F2). split; [apply nodup_filter; exact N|].
  rewrite Forall_forall in F1, F2. split; apply Forall_forall; intros x X; apply filter_In in X as (X & _); auto.
Qed.
Lemma einv_step : forall h l o, einv h l -> ~ off o -> (forall r, In r (fed [o]) -> False) -> einv (h ++ [o]) l.
Proof.
  intros h l o (N & F1 & F2) No Hf. split; [exact N|]. rewrite Forall_forall in F1, F2. split; apply Forall_forall; intros x X.
  - apply P_keep; [|auto]. intro E. apply No. unfold off. rewrite E. exact I.
  - eapply begun_snoc; [apply F2; exact X|exact No|]. apply grow_none. destruct (fed [o]) as [|r q]; [reflexivity|]. destruct (Hf r (or_introl eq_refl)).
Qed.
Lemma run_order : forall h0 (g : cfg B) q, StronglySorted Z.lt (map c_id (P B h0)) -> P B h0 = q ++ [g] -> forall g', In g' q -> c_id g' < c_id g.
Proof.
  intros h0 g q S E. rewrite E in S. clear E. induction q as [|a q IH]; intros g' I; [destruct I|]. cbn [app map] in S. inversion S; subst.
  destruct I as [<-|I]; [|auto]. rewrite Forall_forall in H2. apply H2. apply in_map. apply in_or_app. cbn. auto.
Qed.
Lemma est_step : forall h s o s' y, einv h (b_est s) -> bwe_step A FAR s o = (s', y) ->
  StronglySorted Z.lt (map c_id (P B (h ++ [(o, y)]))) ->
  einv (h ++ [(o, y)]) (b_est s') /\
  match o, y with BUpdate fb _ _ _, OResults l => forall g b, In (g, b) l -> due_result A h fb g b | _, _ => True end.
Proof.
  intros h s o s' y I H S. destruct o as [v|now probe alr e c|fb pr e c|now id|].
  - injection H as <- <-. split; [|exact Logic.I]. apply einv_step; [exact I|cbn; auto|cbn; auto].
  - split; [|exact Logic.I]. cbn [bwe_step] in H. unfold bwe_timeout in H.
    match type of H with context [propagate A ?x e c] => set (s0 := x) in H end.
    assert (E : b_est (propagate A s0 e c) = est_timeout (b_est s) now).
    { unfold propagate. destruct e as [w|]; [|reflexivity]. destruct (beq_opt A (b_upd s0) (Some w)); reflexivity. }
    assert (I0 : einv h (est_timeout (b_est s) now)) by (apply einv_filter; exact I).
    rewrite <- E in I0. destruct (pc_timeout A FAR _ now) as [p3 og] eqn:Ep. apply pc_cases in Ep.
    destruct probe.
    + assert (K : forall y, einv (h ++ [(BTimeout now true alr e c, y)]) (b_est (propagate A s0 e c))).
      { intro y'. apply einv_step; [exact I0|cbn; auto|cbn; auto]. }
      destruct og as [g|]; [|injection H as <- <-; apply K].
      assert (K2 : forall y f, einv (h ++ [(BTimeout now true alr e c, y)]) (filter f (b_est (propagate A s0 e c)))).
      { intros y' f. apply einv_filter. apply K. }
      assert (K3 : forall l, einv (h ++ [(BTimeout now true alr e c, OProbe (Some g) true)]) l -> Forall (fun x => In (e_cfg x) (P B h)) l ->
        StronglySorted Z.lt (map c_id (P B (h ++ [(BTimeout now true alr e c, OProbe (Some g) true)]))) ->
        einv (h ++ [(BTimeout now true alr e c, OProbe (Some g) true)]) (l ++ [est_new FAR g now])).
      { intros l (N & F1 & F2) F3 Sg. assert (Pe : P B (h ++ [(BTimeout now true alr e c, OProbe (Some g) true)]) = P B h ++ [g]) by (rewrite P_snoc; reflexivity).
        split; [|split].
        - rewrite map_app. cbn [map eid est_new e_cfg]. apply NoDup_Add with (a := c_id g) (l := map eid l).
          + change (map eid [est_new FAR g now]) with [c_id g]. pose proof (Add_app (c_id g) (map eid l) []) as Ad. rewrite app_nil_r in Ad. exact Ad.
          + split; [exact N|]. intro X. apply in_map_iff in X as (x & Ex & X). rewrite Forall_forall in F3.
            pose proof (run_order _ _ _ Sg Pe _ (F3 _ X)) as Lt. unfold eid in Ex. lia.
        - apply Forall_app. split; [exact F1|]. constructor; [|constructor]. cbn [est_new e_cfg]. rewrite Pe. apply in_or_app. cbn. auto.
        - apply Forall_app. split; [exact F2|]. constructor; [|constructor]. exists h, now, alr, e, c, []. split; [reflexivity|]. split; [constructor|].
          apply tracks_new. }
      assert (F0 : forall f, Forall (fun x => In (e_cfg x) (P B h)) (filter f (b_est (propagate A s0 e c)))).
      { intro f. destruct (einv_filter h f _ I0) as (_ & F & _). exact F. }
      unfold probe_start in H. destruct (20 <=? zlen (b_est (propagate A s0 e c))).
      * match type of H with context [filter ?f _] => set (fl := filter f (b_est (propagate A s0 e c))) in H end.
        destruct (20 <=? zlen fl); injection H as <- <-; cbn [b_est]; [apply K2|]. apply K3; [apply K2|apply F0|exact S].
      * injection H as <- <-. cbn [b_est]. apply K3; [apply K|apply I0|exact S].
    + destruct og as [g|].
      * exfalso. pose proof (proj1 (enable_spec B FAR (b_pc (propagate A s0 e c)) false)) as En. cbv zeta in En.
        inversion Ep; congruence.
      * injection H as <- <-. cbn [b_est]. split; [constructor|]. split; constructor.
  - cbn [bwe_step] in H. destruct (est_feedback A (b_est s) fb) as [l res] eqn:Ef. injection H as <- <-.
    destruct I as (N & F1 & F2).
    assert (El : l = fst (est_records (b_est s) [] fb)).
    { unfold est_feedback in Ef. destruct (est_records (b_est s) [] fb). injection Ef as <- _. reflexivity. }
    pose proof (records_grow fb (b_est s) [] N) as G. rewrite <- El in G.
    assert (Hf : fed [(BUpdate fb pr e c, OResults res)] = fb) by (cbn; apply app_nil_r).
    rewrite Forall_forall in F1, F2. split.
    + assert (Eb : b_est (if pr then propagate A (mkB (b_desired s) (b_pc s) l (b_upd s)) e c else mkB (b_desired s) (b_pc s) l (b_upd s)) = l).
      { destruct pr; [|reflexivity]. unfold propagate. destruct e as [w|]; [|reflexivity]. destruct (beq_opt _ _ _); reflexivity. }
      rewrite Eb. split; [rewrite (eids (b_est s)); [exact N|eapply grow_ids; exact G]|]. split; apply Forall_forall; intros x' X'.
      * destruct (F2_back _ _ _ G _ X') as (x & X & Gx). rewrite (proj1 Gx). apply P_keep; [discriminate|auto].
      * destruct (F2_back _ _ _ G _ X') as (x & X & Gx). eapply begun_snoc; [apply F2; exact X|cbn; auto|]. rewrite Hf. exact Gx.
    + intros g b I. destruct (results_in _ _ _ _ _ _ Ef I) as (_ & x' & X' & Er & <-).
      destruct (F2_back _ _ _ G _ X') as (x & X & G1 & G2). destruct (F2 _ X) as (ha & t & alr & e' & c' & hb & E & F & T).
      exists ha, t, alr, e', c', hb. rewrite G1. split; [exact E|]. split; [exact F|]. rewrite <- G1. apply rate_measured; [|exact Er].
      rewrite G1. specialize (G2 _ T). unfold heard, eid in *. rewrite filter_app. exact G2.
  - injection H as <- <-. split; [|exact Logic.I]. cbn [b_est].
    assert (I' : einv (h ++ [(BEnd now id, OUnit)]) (b_est s)) by (apply einv_step; [exact I|cbn; auto|cbn; auto]).
    revert I'. generalize (b_est s). generalize (h ++ [(BEnd now id, OUnit)]). clear. intros h l (N & F1 & F2).
    assert (Em : map e_cfg (end_probe l now id) = map e_cfg l).
    { unfold end_probe. induction l as [|x l IH]; [reflexivity|]. cbn [put_est]. destruct (_ =? _); [reflexivity|]. cbn [map]. rewrite IH; auto.
      all: (inversion N; assumption) || (inversion F1; assumption) || (inversion F2; assumption). }
    split; [rewrite (eids l _ Em); exact N|]. split.
    + rewrite Forall_forall in F1. apply Forall_forall. intros x X. apply (in_map e_cfg) in X. rewrite Em in X. apply in_map_iff in X as (z & E & Z). rewrite <- E. auto.
    + clear Em N F1. unfold end_probe. induction l as [|x l IH]; [constructor|]. inversion F2; subst. cbn [put_est]. destruct (_ =? _).
      * constructor; [apply begun_end; assumption|assumption].
      * constructor; [assumption|apply IH; assumption].
  - injection H as <- <-. split; [|exact Logic.I]. cbn [b_est]. split; [constructor|]. split; constructor.
Qed.
Hypothesis L : laws A.
Definition rok (h : hist) (o : bop B) (y : bout B) : Prop :=
  match o, y with BUpdate fb _ _ _, OResults l => forall g b, In (g, b) l -> due_result A h fb g b | _, _ => True end.
Lemma est_run : forall ops h s s' h', inv B A h s -> idv B h (b_pc s) -> einv h (b_est s) ->
  2 * (zlen h + zlen ops) < 2 ^ 64 -> bwe_run A FAR s ops = (s', h') ->
  forall h1 o y h2, h' = h1 ++ (o, y) :: h2 -> rok (h ++ h1) o y.
Proof.
  induction ops as [|o ops IH]; intros h s s' h' I V Ei Hb H h1 o' y' h2 E; cbn [bwe_run] in H.
  - injection H as <- <-. destruct h1; discriminate.
  - rewrite zlen_cons in Hb. pose proof (zlen_nonneg ops) as Ho.
    destruct (bwe_step A FAR s o) as [s1 y] eqn:Es. destruct (bwe_run A FAR s1 ops) as [s2 hr] eqn:Er. injection H as <- <-.
    destruct (other_step B A FAR L _ _ _ _ _ I Es) as (_ & I1).
    assert (V1 : idv B (h ++ [(o, y)]) (b_pc s1)).
    { apply (idv_run B A FAR L [o] h s s1 [(o, y)] I V); [unfold zlen in *; cbn [length]; lia|]. cbn [bwe_run]. rewrite Es. reflexivity. }
    pose proof V1 as (Sd & _). rewrite map_app in Sd. apply sorted_prefix in Sd.
    destruct (est_step _ _ _ _ _ Ei Es Sd) as (Ei1 & R).
    destruct h1 as [|p h1]; cbn [app] in E.
    + injection E as <- <- <-. rewrite app_nil_r. exact R.
    + injection E as <- E. replace (h ++ (o, y) :: h1) with ((h ++ [(o, y)]) ++ h1) by (rewrite <- app_assoc; reflexivity).
      eapply IH; [exact I1|exact V1|exact Ei1| |exact Er|exact E]. rewrite zs. lia.
Qed.
Lemma result_run : forall ops h1 fb p e c l h2 g b, 2 * zlen ops < 2 ^ 64 ->
  snd (bwe_run A FAR (bwe_new A FAR) ops) = h1 ++ (BUpdate fb p e c, OResults l) :: h2 -> In (g, b) l -> due_result A h1 fb g b.
Proof.
  intros ops h1 fb p e c l h2 g b Hb H X. destruct (bwe_run A FAR (bwe_new A FAR) ops) as [s' h'] eqn:E. cbn [snd] in H.
  assert (V : idv B [] (b_pc (bwe_new A FAR))) by (repeat split; try constructor; cbn; lia).
  assert (Ei : einv [] (b_est (bwe_new A FAR))) by (split; [constructor|]; split; constructor).
  assert (Hb' : 2 * (zlen (@nil (bop B * bout B)) + zlen ops) < 2 ^ 64) by (change (zlen (@nil (bop B * bout B))) with 0; rewrite Z.add_0_l; exact Hb).
  exact (est_run _ _ _ _ _ (inv_new B A FAR) V Ei Hb' E _ _ _ _ H g b X).
Qed.

(** * At most twenty clusters *)
Lemma put_len : forall (l : list est) id f, zlen (put_est l id f) = zlen l.
Proof. induction l as [|x l IH]; intros; cbn [put_est]; [reflexivity|]. destruct (_ =? _); rewrite !zlen_cons; [reflexivity|]. rewrite IH. reflexivity. Qed.
Lemma rec_len : forall rs (l : list est) did, zlen (fst (est_records l did rs)) = zlen l.
Proof.
  induction rs as [|r rs IH]; intros; cbn [est_records]; [reflexivity|]. destruct (r_cluster r); [|apply IH].
  destruct (find_est l z); [|apply IH]. rewrite IH. apply put_len.
Qed.
Lemma filter_len : forall (f : est -> bool) l, zlen (filter f l) <= zlen l.
Proof. induction l as [|x l IH]; cbn [filter]; [lia|]. destruct (f x); rewrite ?zlen_cons; lia. Qed.
Lemma prop_est : forall s e c, b_est (propagate A s e c) = b_est s.
Proof. intros. unfold propagate. destruct e; [|reflexivity]. destruct (beq_opt _ _ _); reflexivity. Qed.
Lemma len_step : forall s o, zlen (b_est s) <= 20 -> zlen (b_est (fst (bwe_step A FAR s o))) <= 20.
Proof.
  intros s o H. destruct o as [v|now probe alr e c|fb pr e c|now id|]; cbn [bwe_step].
  - exact H.
  - unfold bwe_timeout. cbv zeta.
    destruct (pc_timeout A FAR _ now) as [p3 og].
    match goal with |- context [if probe then b_est ?x else []] => assert (K : zlen (if probe then b_est x else []) <= 20) end.
    { destruct probe; [|cbn; lia]. rewrite prop_est. cbn [b_est]. unfold est_timeout. pose proof (filter_len (fun s => now <? e_final s) (b_est s)). lia. }
    revert K. match goal with |- zlen ?x <= 20 -> _ => generalize x end. intros l K.
    destruct og as [g|]; [|exact K]. unfold probe_start. destruct (Z.leb_spec 20 (zlen l)).
    + match goal with |- context [filter ?f l] => pose proof (filter_len f l); destruct (Z.leb_spec 20 (zlen (filter f l))) end; cbn [fst b_est]; [lia|].
      unfold zlen in *. rewrite app_length. cbn [length]. lia.
    + cbn [fst b_est]. unfold zlen in *. rewrite app_length. cbn [length]. lia.
  - destruct (est_feedback A (b_est s) fb) as [l res] eqn:Ef.
    assert (El : zlen l = zlen (b_est s)).
    { unfold est_feedback in Ef. pose proof (rec_len fb (b_est s) []) as R. destruct (est_records (b_est s) [] fb). injection Ef as <- _. exact R. }
    cbn [fst]. destruct pr; [rewrite prop_est|]; cbn [b_est]; lia.
  - cbn [fst b_est]. unfold end_probe. rewrite put_len. exact H.
  - cbn. lia.
Qed.
Lemma len_run : forall ops s, zlen (b_est s) <= 20 -> zlen (b_est (fst (bwe_run A FAR s ops))) <= 20.
Proof.
  induction ops as [|o ops IH]; intros s H; [exact H|]. cbn [bwe_run]. pose proof (len_step s o H) as K.
  destruct (bwe_step A FAR s o) as [s1 y]. specialize (IH s1 K). destruct (bwe_run A FAR s1 ops). exact IH.
Qed.
End P.

(** Proofs about the TWCC sender register. *)
From Verif Require Import Base BaseFacts SeqModel TwccModel TwccSpec TwccProofs TwccSendModel.

Definition seq3 (x : Z * status * option Z) : Z := fst (fst x).

(** lists numbered consecutively *)
Definition numbered {A} (f : A -> Z) (b : Z) (l : list A) : Prop := map f l = zseq b (length l).
Lemma numbered_cons {A} (f : A -> Z) b x l : numbered f b (x :: l) -> f x = b /\ numbered f (b + 1) l.
Proof. unfold numbered. cbn [map length zseq]. intro H. injection H as H1 H2. auto. Qed.
Lemma numbered_skip {A} (f : A -> Z) : forall l b h, numbered f b l ->
  skip_while (fun x => f x <? h) l = skipn (Z.to_nat (h - b)) l /\ take_while (fun x => f x <? h) l = firstn (Z.to_nat (h - b)) l.
Proof.
  induction l as [|x l IH]; intros b h H; [rewrite skipn_nil, firstn_nil; split; reflexivity|].
  apply numbered_cons in H. destruct H as [H1 H2]. cbn [skip_while take_while]. rewrite H1. destruct (b <? h) eqn:E.
  - replace (Z.to_nat (h - b)) with (S (Z.to_nat (h - (b + 1)))) by lia. cbn [skipn firstn]. destruct (IH (b + 1) h H2) as [-> ->]. split; reflexivity.
  - replace (Z.to_nat (h - b)) with O by lia. split; reflexivity.
Qed.
Lemma numbered_skipn {A} (f : A -> Z) : forall k l b, numbered f b l -> (k <= length l)%nat -> numbered f (b + Z.of_nat k) (skipn k l).
Proof.
  induction k as [|k IH]; intros l b H L; [rewrite Z.add_0_r; exact H|]. destruct l as [|x l]; [cbn in L; lia|].
  apply numbered_cons in H. destruct H as [_ H]. cbn [skipn]. replace (b + Z.of_nat (S k)) with (b + 1 + Z.of_nat k) by lia. apply IH; [exact H|cbn in L; lia].
Qed.
Lemma numbered_firstn {A} (f : A -> Z) : forall k l b, numbered f b l -> numbered f b (firstn k l).
Proof.
  induction k as [|k IH]; intros [|x l] b H; try reflexivity. apply numbered_cons in H. destruct H as [H1 H2].
  unfold numbered. cbn [firstn map length zseq]. rewrite H1. f_equal. apply IH. exact H2.
Qed.
Lemma numbered_in {A} (f : A -> Z) l b x : numbered f b l -> In x l -> b <= f x < b + Z.of_nat (length l).
Proof. intros H I. apply (in_map f) in I. rewrite H in I. apply zseq_in in I. exact I. Qed.
Lemma numbered_inj {A} (f : A -> Z) : forall l b x y, numbered f b l -> In x l -> In y l -> f x = f y -> x = y.
Proof.
  induction l as [|z l IH]; intros b x y H Hx Hy E; [contradiction|]. apply numbered_cons in H. destruct H as [H1 H2].
  destruct Hx as [<-|Hx], Hy as [<-|Hy]; [reflexivity| | |exact (IH _ _ _ H2 Hx Hy E)].
  - pose proof (numbered_in _ _ _ _ H2 Hy). lia.
  - pose proof (numbered_in _ _ _ _ H2 Hx). lia.
Qed.

(** [r'] is what becomes of record [r] when feedback [rs] arrives *)
Definition after (now zero counter : Z) (rs : list (Z * status * option Z)) (r r' : srec) : Prop :=
  (forall st inst, In (sr_seq r, st, inst) rs -> r' = update_rec now r (option_map (fun x => zero + x) inst) counter) /\
  (~ In (sr_seq r) (map seq3 rs) -> r' = r).

Lemma update_seq_same now r i c : sr_seq (update_rec now r i c) = sr_seq r. Proof. reflexivity. Qed.

Lemma zip_spec now zero counter : forall rs q b, numbered seq3 b rs -> numbered sr_seq b q ->
  exists upd, zip_update now zero counter rs q = Ok upd /\ numbered sr_seq b upd /\ length upd = length q /\
    Forall2 (after now zero counter rs) q upd.
Proof.
  induction rs as [|[[s st] inst] rs IH]; intros q b Hr Hq.
  - exists q. cbn [zip_update]. split; [reflexivity|]. split; [exact Hq|]. split; [reflexivity|].
    clear. induction q as [|r q IH]; constructor; [|exact IH]. split; [intros ? ? []|auto].
  - apply numbered_cons in Hr. destruct Hr as [E1 Hr]. cbn [seq3 fst] in E1. subst s. destruct q as [|r q].
    + exists []. cbn [zip_update]. split; [reflexivity|]. split; [reflexivity|]. split; [reflexivity|constructor].
    + pose proof Hq as Hq0. apply numbered_cons in Hq. destruct Hq as [E2 Hq]. cbn [zip_update].
      assert (sr_seq r =? b = true) as -> by lia. cbn [negb]. destruct (IH q (b + 1) Hr Hq) as (u & Eu & Nu & Lu & Fu). rewrite Eu. cbn [bind].
      eexists. split; [reflexivity|]. split.
      { unfold numbered. cbn [map length zseq]. rewrite update_seq_same, E2. f_equal. exact Nu. }
      split; [cbn [length]; lia|]. constructor.
      * split.
        { intros st' inst' [Q|Q]; [injection Q as _ <- <-; reflexivity|]. exfalso. apply (in_map seq3) in Q. cbn [seq3 fst] in Q. rewrite Hr in Q. apply zseq_in in Q. lia. }
        { intro N. exfalso. apply N. left. cbn [seq3 fst]. symmetry. exact E2. }
      * clear -Fu Hq. assert (forall x, In x q -> b < sr_seq x) as G by (intros x Hx; pose proof (numbered_in _ _ _ _ Hq Hx); lia). clear Hq.
        induction Fu as [|x y q u A F IH]; constructor; [|apply IH; intros; apply G; right; assumption].
        pose proof (G x (or_introl eq_refl)). destruct A as [A1 A2]. split.
        { intros st' inst' [Q|Q]; [injection Q as Q _ _; lia|exact (A1 _ _ Q)]. }
        { intro N. apply A2. intro Q. apply N. right. exact Q. }
Qed.
Lemma records_spec : forall n b q, numbered sr_seq b q -> (n <= length q)%nat -> records n b q = Ok (firstn n q).
Proof.
  induction n as [|n IH]; intros b q H L; [reflexivity|]. destruct q as [|r q]; [cbn in L; lia|].
  apply numbered_cons in H. destruct H as [E H]. cbn [records firstn]. assert (sr_seq r =? b = true) as -> by lia. cbn [negb].
  rewrite IH by (try exact H; cbn in L; lia). reflexivity.
Qed.
Lemma last_zseq : forall n b d, last (zseq b n) d = if (n =? 0)%nat then d else b + Z.of_nat n - 1.
Proof.
  induction n as [|n IH]; intros b d; [reflexivity|]. cbn [zseq]. destruct n as [|n]; [cbn; lia|].
  change (last (b :: zseq (b + 1) (S n)) d) with (last (zseq (b + 1) (S n)) d). rewrite IH. cbn [Nat.eqb]. lia.
Qed.

(** the records acknowledged before *)
Definition ackedb (r : srec) : bool := match sr_remote r with Some _ => true | None => false end.
Definition inb (base count : Z) (r : srec) : bool := (base <=? sr_seq r) && (sr_seq r <? base + count).

Definition counters_ok (c : Z) (q : list srec) : Prop :=
  Forall (fun r => match sr_rep r with Some rr => rr_counter rr <= c | None => True end) q.

(** whatever the feedback, its results are numbered consecutively *)
Lemma titer_numbered : forall n it rs, titer_run n it = Ok rs -> numbered seq3 (i_base it + i_idx it) rs.
Proof.
  induction n as [|n IH]; intros it rs E; cbn [titer_run] in E; [injection E as <-; reflexivity|].
  destruct (titer_next it) as [[[x|] it']| |] eqn:En; cbn [bind] in E; try discriminate; [|injection E as <-; reflexivity].
  destruct (titer_run n it') as [rs'| |] eqn:Er; cbn [bind] in E; try discriminate. injection E as <-.
  assert (seq3 x = i_base it + i_idx it /\ i_base it' + i_idx it' = i_base it + i_idx it + 1) as [A B].
  { clear -En. unfold titer_next in En. destruct (i_base it + i_idx it =? i_last it); [discriminate|]. destruct (i_chunks it) as [|head tl]; [discriminate|].
    destruct (match head with Run s n => _ | VSingle v n => _ | VDouble v n => _ end) as [[st amount]| |]; cbn [bind] in En; try discriminate.
    cbv zeta in En.
    destruct st; [|destruct (i_deltas it) as [|[v|v] ds]; try discriminate|destruct (i_deltas it) as [|[v|v] ds]; try discriminate|];
      injection En as <- <-; (split; [reflexivity|]); destruct (i_idx it + 1 =? amount) eqn:Q; cbn [i_base i_idx]; lia. }
  specialize (IH it' rs' Er). rewrite B in IH. unfold numbered in *. cbn [map length zseq]. rewrite A, IH. reflexivity.
Qed.

Lemma apply_spec g t now a : numbered sr_seq a (sg_q g) -> counters_ok (sg_counter g) (sg_q g) ->
  let base := extend_u16 (Some (sg_last g)) (t_base t) in
  let zero := match sg_zero g with Some z => z | None => now end in
  forall rs, titer_run (S (Z.to_nat (t_count t))) (twcc_iter t (sg_last g)) = Ok rs -> base + t_count t < U64 ->
  exists o g', apply_report g t now = Ok (o, g') /\
    sg_keep g' = sg_keep g /\ sg_zero g' = Some zero /\ sg_counter g' = sg_counter g + 1 /\ sg_last g' = sg_last g /\
    Forall2 (after now zero (sg_counter g + 1) rs) (sg_q g) (sg_q g') /\
    map sr_seq (match o with Some l => l | None => [] end) = map sr_seq (filter (fun r => inb base (Z.of_nat (length rs)) r && negb (ackedb r)) (sg_q g)) /\
    (forall r, In r (match o with Some l => l | None => [] end) -> In r (sg_q g')).
Proof.
  intros Hq Hc base zero rs Hrun Hov.
  assert (numbered seq3 base rs) as Nr by (pose proof (titer_numbered _ _ _ Hrun) as N; unfold twcc_iter in N; cbn [i_base i_idx] in N; rewrite Z.add_0_r in N; exact N).
  assert (map seq3 rs = zseq base (Z.to_nat (Z.of_nat (length rs)))) as Hseq by (rewrite Nat2Z.id; exact Nr).
  assert (length rs = Z.to_nat (Z.of_nat (length rs))) as Lrs by (rewrite Nat2Z.id; reflexivity).
  remember (Z.of_nat (length rs)) as cnt eqn:Hcnt0. assert (0 <= cnt) as Hcnt by lia. clear Hcnt0.
  assert (forall q, (forall r, In r q -> ~ In (sr_seq r) (map seq3 rs)) ->
     Forall2 (after now zero (sg_counter g + 1) rs) q q /\ filter (fun r => inb base (cnt) r && negb (ackedb r)) q = []) as Out.
  { induction q as [|r q IH]; intro H; [split; [constructor|reflexivity]|].
    destruct IH as [A B]; [intros x Hx; apply H; right; exact Hx|]. pose proof (H r (or_introl eq_refl)) as N. split.
    - constructor; [|exact A]. split; [|auto]. intros st inst Q. exfalso. apply N. apply (in_map seq3) in Q. exact Q.
    - cbn [filter]. assert (inb base (cnt) r = false) as ->; [|exact B].
      unfold inb. destruct ((base <=? sr_seq r) && (sr_seq r <? base + cnt)) eqn:E; [|reflexivity]. exfalso. apply N. rewrite Hseq. apply zseq_in. lia. }
  unfold apply_report. fold zero. destruct (sg_q g) as [|hd tlq] eqn:Eq.
  { eexists _, _. split; [reflexivity|]. cbn [sg_keep sg_zero sg_counter sg_last sg_q]. repeat split; try constructor. intros r []. }
  rewrite <- Eq. rewrite <- Eq in Hq, Hc.
  assert (sr_seq hd = a) as Ea by (rewrite Eq in Hq; apply numbered_cons in Hq; tauto).
  assert (i_last (twcc_iter t (sg_last g)) = base + t_count t) as Il by reflexivity. rewrite Il.
  destruct (U64 <=? base + t_count t) eqn:Eo; [lia|]. rewrite Hrun. cbn [bind]. rewrite Ea.
  destruct (numbered_skip seq3 rs base a Nr) as [Sk _]. unfold seq3 in Sk at 1. rewrite Sk. clear Sk.
  set (n1 := Z.to_nat (a - base)). 
  destruct (skipn n1 rs) as [|[[first st] inst] rest] eqn:Esk.
  { (* everything in the report is older than the records *)
    eexists _, _. split; [reflexivity|]. cbn [sg_keep sg_zero sg_counter sg_last sg_q].
    assert (length rs <= n1)%nat as Ln. { pose proof (f_equal (@length _) Esk) as L. rewrite skipn_length in L. cbn in L. lia. }
    destruct (Out (sg_q g)) as [A B].
    { intros r Hr. rewrite Hseq, zseq_in. pose proof (numbered_in _ _ _ _ Hq Hr). unfold n1 in Ln. lia. }
    rewrite B. repeat split; auto. intros r []. }
  assert (n1 < length rs)%nat as Ln. { pose proof (f_equal (@length _) Esk) as L. rewrite skipn_length in L. cbn [length] in L. lia. }
  pose proof (numbered_skipn seq3 n1 rs base Nr ltac:(lia)) as Nr2. rewrite Esk in Nr2.
  pose proof (numbered_cons _ _ _ _ Nr2) as [Ef Nr3]. cbn [seq3 fst] in Ef. subst first.
  set (first := base + Z.of_nat n1) in *.
  destruct (numbered_skip sr_seq (sg_q g) a first Hq) as [Skq Tkq]. rewrite Skq, Tkq. set (n2 := Z.to_nat (first - a)) in *.
  assert (a <= first) as Haf by (unfold first, n1; lia).
  assert (first = Z.max a base) as Fm by (unfold first, n1; lia).
  destruct (skipn n2 (sg_q g)) as [|r0 q2] eqn:Esq.
  { eexists _, _. split; [reflexivity|]. cbn [sg_keep sg_zero sg_counter sg_last sg_q].
    assert (length (sg_q g) <= n2)%nat as Ln2. { pose proof (f_equal (@length _) Esq) as L. rewrite skipn_length in L. cbn in L. lia. }
    destruct (Out (sg_q g)) as [A B].
    { intros r Hr. rewrite Hseq, zseq_in. pose proof (numbered_in _ _ _ _ Hq Hr). unfold n2 in Ln2. lia. }
    rewrite B. repeat split; auto. intros r []. }
  assert (n2 < length (sg_q g))%nat as Ln2. { pose proof (f_equal (@length _) Esq) as L. rewrite skipn_length in L. cbn [length] in L. lia. }
  pose proof (numbered_skipn sr_seq n2 (sg_q g) a Hq ltac:(lia)) as Nq2. rewrite Esq in Nq2.
  replace (a + Z.of_nat n2) with first in Nq2 by (unfold n2; lia).
  pose proof (numbered_cons _ _ _ _ Nq2) as [E0 Nq3]. rewrite E0, Z.eqb_refl. cbn [negb].
  destruct (zip_spec now zero (sg_counter g + 1) _ _ first Nr2 Nq2) as (upd & Eu & Nu & Lu & Fu). rewrite Eu. cbn [bind].
  (* the last one *)
  set (k := Nat.min (length ((first, st, inst) :: rest)) (length (r0 :: q2))).
  assert (last_zipped first rest q2 = first + Z.of_nat k - 1) as Lz.
  { unfold last_zipped. change (fun x : Z * status * option Z => fst (fst x)) with seq3.
    pose proof (numbered_firstn seq3 (length q2) rest (first + 1) Nr3) as N4. rewrite N4, firstn_length, last_zseq.
    unfold k. cbn [length]. destruct (Nat.min (length q2) (length rest) =? 0)%nat eqn:E; [apply Nat.eqb_eq in E|apply Nat.eqb_neq in E]; lia. }
  rewrite Lz. replace (Z.to_nat (first + Z.of_nat k - 1 - first + 1)) with k by lia.
  rewrite (records_spec k first upd Nu) by (rewrite Lu; unfold k; lia). cbn [bind].
  eexists _, _. split; [reflexivity|]. cbn [sg_keep sg_zero sg_counter sg_last sg_q]. split; [reflexivity|]. split; [reflexivity|]. split; [reflexivity|]. split; [reflexivity|].
  (* records in front are older than the report *)
  destruct (Out (firstn n2 (sg_q g))) as [A1 B1].
  { intros r Hr. rewrite Hseq, zseq_in. pose proof (numbered_firstn sr_seq n2 _ _ Hq) as Nf. pose proof (numbered_in _ _ _ _ Nf Hr) as R. rewrite firstn_length in R. unfold n2 in R. lia. }
  split.
  { rewrite <- (firstn_skipn n2 (sg_q g)) at 1. rewrite Esq. apply Forall2_app; [exact A1|].
    assert (forall r r', after now zero (sg_counter g + 1) ((first, st, inst) :: rest) r r' -> first <= sr_seq r -> after now zero (sg_counter g + 1) rs r r') as Mon.
    { intros r r' [M1 M2] Hf. rewrite <- (firstn_skipn n1 rs), Esk. pose proof (numbered_firstn seq3 n1 _ _ Nr) as Nf.
      assert (~ In (sr_seq r) (map seq3 (firstn n1 rs))) as NI. { rewrite Nf, zseq_in, firstn_length. unfold first in Hf. lia. }
      split.
      - intros st' inst' Q. apply in_app_or in Q. destruct Q as [Q|Q]; [exfalso; apply NI; apply (in_map seq3) in Q; exact Q|exact (M1 _ _ Q)].
      - intro N. apply M2. intro Q. apply N. rewrite map_app. apply in_or_app. right. exact Q. }
    assert (Forall (fun r => first <= sr_seq r) (r0 :: q2)) as Ge.
    { apply Forall_forall. intros r Hr. pose proof (numbered_in _ _ _ _ Nq2 Hr). lia. }
    clear -Fu Mon Ge. induction Fu as [|x y l u H F IH]; constructor; [apply Mon; [exact H|exact (Forall_inv Ge)]|apply IH; exact (Forall_inv_tail Ge)]. }
  split.
  2:{ intros r Hr. apply filter_In in Hr. destruct Hr as [Hr _]. apply in_or_app. right. rewrite <- (firstn_skipn k upd). apply in_or_app. left. exact Hr. }
  rewrite <- (firstn_skipn n2 (sg_q g)), filter_app, B1, Esq. cbn [app].
  assert (counters_ok (sg_counter g) (r0 :: q2)) as Cq.
  { unfold counters_ok in *. rewrite <- (firstn_skipn n2 (sg_q g)) in Hc. apply Forall_app in Hc. destruct Hc as [_ Hc]. rewrite Esq in Hc. exact Hc. }
  (* what is in range is the first k *)
  assert (base + cnt = first + Z.of_nat (length ((first, st, inst) :: rest))) as Be.
  { pose proof (f_equal (@length _) Esk) as L. rewrite skipn_length in L. rewrite Lrs in L. rewrite <- L. unfold first. lia. }
  assert (forall (rs2 : list (Z*status*option Z)) q u b, numbered sr_seq b q -> base <= b -> base + cnt = b + Z.of_nat (length rs2) -> numbered seq3 b rs2 ->
     counters_ok (sg_counter g) q -> Forall2 (after now zero (sg_counter g + 1) rs2) q u ->
     map sr_seq (filter (fun r => match sr_rep r with Some rr => rr_counter rr =? sg_counter g + 1 | None => false end) (firstn (Nat.min (length rs2) (length q)) u)) =
     map sr_seq (filter (fun r => inb base (cnt) r && negb (ackedb r)) q)) as G.
  { clear. intros rs2 q u b Nq Hb He Nr Cq F. 
    assert (forall q u b, numbered sr_seq b q -> base <= b -> forall m, base + cnt = b + Z.of_nat m -> 
       counters_ok (sg_counter g) q -> Forall2 (fun r r' => (sr_seq r < base + cnt -> exists i, r' = update_rec now r i (sg_counter g + 1))) q u ->
       map sr_seq (filter (fun r => match sr_rep r with Some rr => rr_counter rr =? sg_counter g + 1 | None => false end) (firstn (Nat.min m (length q)) u)) =
       map sr_seq (filter (fun r => inb base (cnt) r && negb (ackedb r)) q)) as G.
    { clear. induction q as [|r q IH]; intros u b Nq Hb m He Cq F; [inversion F; subst; rewrite Nat.min_0_r; reflexivity|].
      inversion F as [|? r' ? u' H1 H2]; subst. apply numbered_cons in Nq. destruct Nq as [Er Nq]. destruct m as [|m].
      - cbn [Nat.min firstn filter map]. assert (inb base (cnt) r = false) as -> by (unfold inb; lia). cbn [andb].
        clear -Nq He Er. assert (forall x, In x q -> inb base (cnt) x = false) as N by (intros x Hx; pose proof (numbered_in _ _ _ _ Nq Hx); unfold inb; lia).
        clear -N. induction q as [|x q IH]; [reflexivity|]. cbn [filter]. rewrite (N x) by (left; reflexivity). cbn [andb]. apply IH. intros; apply N; right; assumption.
      - cbn [length Nat.min firstn filter]. destruct (H1 ltac:(lia)) as [i ->].
        assert (inb base (cnt) r = true) as -> by (unfold inb; lia). cbn [andb].
        pose proof (IH u' (b + 1) Nq ltac:(lia) m ltac:(lia) (Forall_inv_tail Cq) H2) as IH'. pose proof (Forall_inv Cq) as Cr. cbn beta in Cr.
        unfold update_rec, ackedb, sr_remote. cbn [sr_rep rr_counter]. destruct (sr_rep r) as [[l [x|] c]|]; cbn [rr_remote rr_counter negb] in *.
        + assert (c =? sg_counter g + 1 = false) as -> by lia. exact IH'.
        + rewrite Z.eqb_refl. cbn [map sr_seq]. f_equal. exact IH'.
        + rewrite Z.eqb_refl. cbn [map sr_seq]. f_equal. exact IH'. }
    apply (G q u b Nq Hb (length rs2) He Cq).
    assert (Forall (fun r => b <= sr_seq r) q) as Ge. { apply Forall_forall. intros r Hr. pose proof (numbered_in _ _ _ _ Nq Hr). lia. }
    clear -F Nr He Ge. induction F as [|r r' q u H F IH]; constructor; [|apply IH; exact (Forall_inv_tail Ge)].
    intro L. destruct H as [H1 _]. assert (In (sr_seq r) (map seq3 rs2)) as I. { rewrite Nr. apply zseq_in. pose proof (Forall_inv Ge) as G0. cbn beta in G0. lia. }
    apply in_map_iff in I. destruct I as (((s & st) & inst) & Q1 & Q2). cbn [seq3 fst] in Q1. subst s. eexists. exact (H1 _ _ Q2). }
  exact (G _ _ _ first Nq2 ltac:(lia) Be Nr2 Cq Fu).
Qed.

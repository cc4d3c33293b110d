From Verif Require Import Base BaseFacts SeqModel SeqProofs NackModel NackSpec NackProofs NackProofs2.

Lemma asks_named x p : asks_for x p = named x p. Proof. reflexivity. Qed.

Definition opfed (ops : list nop) : list Z :=
  flat_map (fun op => match op with Recv q => [q] | Report => [] end) ops.

Lemma nrun_gh ops : forall n A C, Forall (fun q => 0 <= q) (opfed ops) -> Gh n A C ->
  let '(n', outs) := nrun n ops in
  Gh n' (fun x => A x \/ In x (opfed ops)) (fun p => C p + Z.of_nat (asked_count p outs)).
Proof.
  induction ops as [|o ops IH]; intros n A C HF HG; cbn [nrun].
  - eapply gh_ext; [| |exact HG]; cbn; intros; [tauto|lia].
  - destruct o as [q|].
    + change (opfed (Recv q :: ops)) with (q :: opfed ops) in *.
      inversion HF as [|? ? Hq HF' X]; subst.
      pose proof (update_gh n A C q Hq HG) as HG1. cbn [nstep].
      destruct (update n q) as [n1 b]. cbn [fst] in HG1.
      specialize (IH n1 _ _ HF' HG1). destruct (nrun n1 ops) as [n2 outs].
      eapply gh_ext; [| |exact IH]; cbn; intros; [|reflexivity].
      split; [intros [[?|?]|?]|intros [?|[?|?]]]; auto.
    + change (opfed (Report :: ops)) with (opfed ops) in *.
      pose proof (report_gh n A C HG) as HG1.
      destruct (nstep n Report) as [n1 x]. cbn [fst snd] in HG1.
      specialize (IH n1 _ _ HF HG1). destruct (nrun n1 ops) as [n2 outs].
      eapply gh_ext; [| |exact IH]; cbn; intros; [reflexivity|].
      unfold asked_count; cbn [filter]. change (asks_for x p) with (named x p). destruct (named x p); cbn [b2z length]; lia.
Qed.

Lemma fed_split o ops : fed o ops = (match o with Some q => [q] | None => [] end) ++ opfed ops.
Proof. reflexivity. Qed.

Lemma run_gh o ops : unsigned o ops ->
  let '(n, outs) := nrun (new_reg o) ops in
  Gh n (fun x => In x (fed o ops)) (fun p => Z.of_nat (asked_count p outs)).
Proof.
  unfold unsigned. rewrite fed_split. intro U. apply Forall_app in U as [U1 U2].
  pose proof (nrun_gh ops (new_reg o) _ _ U2 (new_gh o ltac:(intros q ->; inversion U1; assumption))) as H.
  destruct (nrun (new_reg o) ops) as [n outs].
  eapply gh_ext; [| |exact H]; cbn; intros; [|lia].
  rewrite in_app_iff. destruct o; cbn; split; intros [X|X]; auto; try discriminate; try tauto.
  - left; left; congruence.
  - destruct X as [->|[]]; auto.
Qed.

Lemma gh_active n A C : Gh n A C -> (active n = None <-> forall q, ~ A q).
Proof.
  intros [_ HG]. destruct (active n) as [[s e]|].
  - split; [discriminate|]. intro H. exfalso. apply (H e). tauto.
  - split; [intros _; tauto|reflexivity].
Qed.

Lemma accepts_sound n A C q : Gh n A C -> accepts n q = true -> ~ A q.
Proof.
  intros HG Ha. destruct (active n) as [[s e]|] eqn:EA.
  - eapply accepts_gh in Ha; eauto. tauto.
  - apply (proj1 (gh_active n A C HG) EA).
Qed.

(** accepted at most once *)
Lemma accepted_count_cons q x outs :
  accepted_count q (x :: outs) =
  ((match x with OAccepted q' true => if Z.eqb q' q then 1 else 0 | _ => 0 end) + accepted_count q outs)%nat.
Proof.
  unfold accepted_count; cbn [filter]. destruct x as [q' [|]|]; [|reflexivity|reflexivity].
  destruct (q' =? q); reflexivity.
Qed.

Lemma accepted_once_gen ops : forall n A C q, Forall (fun q => 0 <= q) (opfed ops) -> Gh n A C ->
  let '(n', outs) := nrun n ops in
  (accepted_count q outs <= 1)%nat /\ (A q -> accepted_count q outs = 0%nat).
Proof.
  induction ops as [|o ops IH]; intros n A C q HF HG; cbn [nrun].
  - cbn. split; [lia|reflexivity].
  - destruct o as [x|].
    + change (opfed (Recv x :: ops)) with (x :: opfed ops) in *.
      inversion HF as [|? ? Hq HF' X]; subst.
      pose proof (update_gh n A C x Hq HG) as HG1.
      pose proof (update_result n A C x HG) as HR. cbn [nstep].
      destruct (update n x) as [n1 b]. cbn [fst snd] in *.
      specialize (IH n1 _ _ q HF' HG1). destruct (nrun n1 ops) as [n2 outs].
      destruct IH as [I1 I2]. rewrite accepted_count_cons.
      destruct b.
      * symmetry in HR. apply (accepts_sound n A C) in HR; [|exact HG].
        destruct (x =? q) eqn:Q.
        -- assert (x = q) as -> by lia. rewrite I2 by auto. split; [lia|]. tauto.
        -- split; [lia|]. intro Ha. rewrite I2 by auto. lia.
      * split; [lia|]. intro Ha. rewrite I2 by auto. lia.
    + change (opfed (Report :: ops)) with (opfed ops) in *.
      pose proof (report_gh n A C HG) as HG1. cbn [nstep] in *.
      destruct (nack_reports n) as [n1 x]. cbn [fst snd] in HG1.
      specialize (IH n1 _ _ q HF HG1). destruct (nrun n1 ops) as [n2 outs].
      rewrite accepted_count_cons. exact IH.
Qed.

Lemma accepted_once o ops q : unsigned o ops ->
  let '(_, outs) := nrun (new_reg o) ops in
  (accepted_count q outs <= 1)%nat /\ (o = Some q -> accepted_count q outs = 0%nat).
Proof.
  unfold unsigned. rewrite fed_split. intro U. apply Forall_app in U as [U1 U2].
  pose proof (accepted_once_gen ops (new_reg o) _ _ q U2 (new_gh o ltac:(intros x ->; inversion U1; assumption))) as H.
  destruct (nrun (new_reg o) ops) as [n outs]. split; [tauto|]. intros ->. apply H. reflexivity.
Qed.

(** the answer of an update is what [accepts] announced, and it is false for anything fed before *)
Lemma update_accepts n q : snd (update n q) = accepts n q.
Proof.
  unfold update, accepts. destruct (active n) as [[s e]|]; [|reflexivity].
  destruct (q <? s); reflexivity.
Qed.

Lemma run_accepts_sound o ops q : unsigned o ops ->
  accepts (fst (nrun (new_reg o) ops)) q = true -> ~ In q (fed o ops).
Proof.
  intros U. pose proof (run_gh o ops U) as H. destruct (nrun (new_reg o) ops) as [n outs]. cbn [fst].
  apply (accepts_sound _ _ _ _ H).
Qed.

(** top *)
Lemma top_of_ge l : forall f, f <= top_of f l /\ forall q, In q l -> q <= top_of f l.
Proof.
  unfold top_of. induction l as [|x l IH]; intros f; cbn [fold_left In]; [split; [lia|tauto]|].
  destruct (IH (Z.max f x)) as [I1 I2]. split; [lia|]. intros q [->|Hq]; [lia|auto].
Qed.
Lemma top_of_in l : forall f, top_of f l = f \/ In (top_of f l) l.
Proof.
  unfold top_of. induction l as [|x l IH]; intros f; cbn [fold_left In]; [auto|].
  destruct (IH (Z.max f x)) as [I|I]; [|auto]. rewrite I.
  destruct (Z.max_spec f x) as [[_ ->]|[_ ->]]; auto.
Qed.

Lemma gh_top n A C s e f l : Gh n A C -> active n = Some (s, e) ->
  (forall x, A x <-> x = f \/ In x l) -> e = top_of f l.
Proof.
  intros [_ HG] EA HA. rewrite EA in HG. destruct HG as (G0 & G1 & _).
  destruct (top_of_ge l f) as [T1 T2]. destruct (top_of_in l f) as [T3|T3].
  - apply Z.le_antisymm.
    + apply HA in G0 as [->|G0]; auto.
    + apply G1, HA. auto.
  - apply Z.le_antisymm.
    + apply HA in G0 as [->|G0]; auto.
    + apply G1, HA. auto.
Qed.

Lemma run_max_seq o ops f l : unsigned o ops -> fed o ops = f :: l ->
  max_seq (fst (nrun (new_reg o) ops)) = Some (top_of f l).
Proof.
  intros U E. pose proof (run_gh o ops U) as H. destruct (nrun (new_reg o) ops) as [n outs]. cbn [fst].
  unfold max_seq. destruct (active n) as [[s e]|] eqn:EA.
  - rewrite (gh_top n _ _ s e f l H EA); [reflexivity|]. intro x. rewrite E. cbn. split; intros [?|?]; auto.
  - exfalso. apply (proj1 (gh_active _ _ _ H) EA f). rewrite E. left; reflexivity.
Qed.

(** only missing numbers within the window are asked for, at most five times *)
Lemma asked_bound o ops p : unsigned o ops ->
  (asked_count p (snd (nrun (new_reg o) ops)) <= 5)%nat.
Proof.
  intros U. pose proof (run_gh o ops U) as H. destruct (nrun (new_reg o) ops) as [n outs]. cbn [snd].
  destruct H as [HI HG]. destruct (active n) as [[s e]|].
  - destruct HG as (_ & _ & _ & _ & _ & G5). specialize (G5 p). unfold MAX_NACKS in G5. lia.
  - destruct HG as [_ G]. specialize (G p). lia.
Qed.

Lemma zseq_S a k : zseq a (S k) = zseq a k ++ [a + Z.of_nat k].
Proof. replace (S k) with (k + 1)%nat by lia. rewrite zseq_app. reflexivity. Qed.

Lemma report_exact o ops : unsigned o ops ->
  forall n outs, nrun (new_reg o) ops = (n, outs) ->
  forall top, max_seq n = Some top ->
  flat_map entry_seqs16 (snd (nack_reports n)) =
  map (fun p => p mod U16)
    (filter (fun p => accepts n p && (Z.of_nat (asked_count p outs) <? 5)) (zseq (top - 100) 100)).
Proof.
  intros U n outs E top Ht. pose proof (run_gh o ops U) as H. rewrite E in H.
  unfold max_seq in Ht. destruct (active n) as [[s e]|] eqn:EA; [|discriminate].
  inversion Ht; subst e.
  pose proof (nack_reports_spec n s top (proj1 H) EA) as HS. destruct (nack_reports n) as [n' l].
  destruct HS as (_ & _ & HS). cbn [snd]. rewrite HS. f_equal.
  pose proof (proj1 H) as HI. unfold Inv in HI. rewrite EA in HI. destruct HI as (H1 & H2 & H3 & _).
  replace (Z.to_nat (top + 1 - s)) with (S (Z.to_nat (top - s))) by lia.
  rewrite zseq_S, filter_app. cbn [filter].
  replace (needs (packets n) (s + Z.of_nat (Z.to_nat (top - s)))) with false.
  2:{ replace (s + Z.of_nat (Z.to_nat (top - s))) with top by lia. unfold needs, needs_nack. rewrite H3; reflexivity. }
  rewrite app_nil_r.
  replace 100%nat with (Z.to_nat (100 - (top - s)) + Z.to_nat (top - s))%nat by lia.
  rewrite (zseq_app (Z.to_nat (100 - (top - s)))), filter_app.
  rewrite (filter_all_false _ (zseq (top - 100) _)).
  - cbn [app]. replace (top - 100 + Z.of_nat (Z.to_nat (100 - (top - s)))) with s by lia.
    apply filter_ext_in. intros x Hx. apply zseq_in in Hx.
    pose proof (needs_gh n _ _ s top x H EA ltac:(lia)) as NG.
    pose proof (accepts_gh n _ _ x s top H EA) as AG.
    unfold MAX_NACKS in NG.
    apply eq_true_iff_eq. rewrite NG, andb_true_iff, AG.
    split; [intros [N1 N2]; split; [split; [lia|exact N1]|lia]|intros [[N1 N2] N3]; split; [exact N2|lia]].
  - intros x Hx. apply zseq_in in Hx. unfold accepts. rewrite EA. destruct (x <? s) eqn:X; [reflexivity|lia].
Qed.

(** completeness under small jumps *)
Definition Full (n : nreg) (A : Z -> Prop) (f : Z) : Prop :=
  match active n with
  | None => False
  | Some (s, e) => f <= s /\ forall p, f <= p -> e - 100 <= p < s -> A p
  end.

Lemma full_update n A C f q : Gh n A C -> Full n A f -> 0 <= f ->
  (forall s e, active n = Some (s, e) -> q <= e + 101) ->
  Full (fst (update n q)) (fun x => A x \/ x = q) f.
Proof.
  intros HG HF Hf HJ. unfold Full in HF. destruct (active n) as [[s e]|] eqn:EA; [|contradiction].
  destruct HF as [F1 F2]. specialize (HJ s e eq_refl).
  destruct (Z.lt_ge_cases q s) as [L|G].
  - rewrite (update_old n q s e EA L). cbn [fst]. unfold Full. rewrite EA. split; [exact F1|]. auto.
  - pose proof (up_skip n s e q EA (proj1 HG) G A C HG HJ) as US.
    pose proof (up_t n s e q EA (proj1 HG) G) as UT.
    rewrite (update_unfold n s e q EA G). cbv zeta in US, UT. unfold Full. cbn [fst active].
    set (e' := Z.max e q) in *. set (a := Z.max s (Z.max 0 (e' - MAX_MISORDER))) in *.
    set (t := scan (packets n) q a (Z.to_nat (e' - a))) in *. clearbody t.
    destruct UT as (T1 & T2 & _). split; [lia|]. intros p Hp1 Hp2.
    destruct (Z.lt_ge_cases p a) as [La|Ga]; [|apply US; lia].
    left. apply F2; [exact Hp1|]. unfold a, e', MAX_MISORDER in La. subst e'. lia.
Qed.

Lemma full_run ops : forall n A C f top, Gh n A C -> Full n A f -> 0 <= f ->
  max_seq n = Some top -> Forall (fun q => 0 <= q) (opfed ops) -> small_jumps top (opfed ops) ->
  Full (fst (nrun n ops)) (fun x => A x \/ In x (opfed ops)) f.
Proof.
  induction ops as [|o ops IH]; intros n A C f top HG HF Hf HT HU HJ; cbn [nrun].
  - cbn [fst]. unfold Full in *. destruct (active n) as [[s e]|]; [|contradiction]. split; [tauto|]. intros p H1 H2.
    left. apply (proj2 HF); assumption.
  - unfold max_seq in HT. destruct (active n) as [[s e]|] eqn:EA; [|discriminate]. inversion HT; subst e. clear HT.
    destruct o as [q|].
    + change (opfed (Recv q :: ops)) with (q :: opfed ops) in *. destruct HJ as [HJ1 HJ2].
      inversion HU as [|? ? Hq HU' X]; subst.
      pose proof (update_gh n A C q Hq HG) as HG1.
      pose proof (full_update n A C f q HG HF Hf ltac:(intros s0 e0 E; rewrite EA in E; inversion E; subst; exact HJ1)) as HF1.
      assert (max_seq (fst (update n q)) = Some (Z.max top q)) as HM.
      { destruct (Z.lt_ge_cases q s) as [L|G].
        - rewrite (update_old n q s top EA L). unfold max_seq. cbn [fst]. rewrite EA. f_equal.
          pose proof (proj1 HG) as HI. unfold Inv in HI. rewrite EA in HI. lia.
        - rewrite (update_unfold n s top q EA G). reflexivity. }
      cbn [nstep]. destruct (update n q) as [n1 b]. cbn [fst] in *.
      specialize (IH n1 _ _ f _ HG1 HF1 Hf HM HU' HJ2). destruct (nrun n1 ops) as [n2 outs]. cbn [fst] in *.
      unfold Full in *. destruct (active n2) as [[s2 e2]|]; [|contradiction].
      split; [tauto|]. intros p H1 H2. destruct (proj2 IH p H1 H2) as [[?|?]|?]; cbn; auto.
    + change (opfed (Report :: ops)) with (opfed ops) in *.
      pose proof (report_gh n A C HG) as HG1.
      assert (active (fst (nstep n Report)) = Some (s, top)) as EA1.
      { cbn [nstep]. pose proof (nack_reports_spec n s top (proj1 HG) EA) as HS.
        destruct (nack_reports n). cbn. rewrite <- EA. tauto. }
      destruct (nstep n Report) as [n1 x]. cbn [fst snd] in *.
      assert (Full n1 A f) as HF1. { unfold Full in *. rewrite EA1. rewrite EA in HF. exact HF. }
      assert (max_seq n1 = Some top) as HM by (unfold max_seq; rewrite EA1; reflexivity).
      specialize (IH n1 _ _ f _ HG1 HF1 Hf HM HU HJ). destruct (nrun n1 ops) as [n2 outs]. exact IH.
Qed.

Lemma accepts_complete o ops f l : unsigned o ops -> fed o ops = f :: l -> small_jumps f l ->
  forall q, accepts (fst (nrun (new_reg o) ops)) q = true <->
    ~ In q (fed o ops) /\ f <= q /\ top_of f l - 100 <= q.
Proof.
  intros U E J q. pose proof (run_gh o ops U) as HG0. pose proof (run_max_seq o ops f l U E) as HM.
  assert (Full (fst (nrun (new_reg o) ops)) (fun x => In x (fed o ops)) f) as HF.
  { clear HG0 HM. unfold unsigned in U. destruct o as [x|].
    - change (fed (Some x) ops) with (x :: opfed ops) in *. inversion E; subst.
      inversion U as [|? ? Hq HU' X]; subst.
      pose proof (full_run ops (new_reg (Some f)) _ _ f f (new_gh (Some f) ltac:(intros q0 X; inversion X; lia))) as H.
      assert (Full (new_reg (Some f)) (fun x => Some x = Some f) f) as H0.
      { unfold Full; cbn. split; [lia|]. intros; lia. }
      specialize (H H0 Hq eq_refl HU' J). unfold Full in *.
      destruct (active (fst (nrun (new_reg (Some f)) ops))) as [[s e]|]; [|contradiction].
      split; [tauto|]. intros p H1 H2. destruct (proj2 H p H1 H2) as [X|X]; [left; congruence|right; exact X].
    - change (fed None ops) with (opfed ops) in *.
      revert E J U. induction ops as [|o ops IH]; intros E J U; [discriminate|].
      destruct o as [x|].
      + change (opfed (Recv x :: ops)) with (x :: opfed ops) in *. inversion E; subst x l.
        inversion U as [|? ? Hq HU' X]; subst.
        cbn [nrun nstep]. rewrite update_none by reflexivity.
        pose proof (init_gh (fun _ => default_slot) f Hq ltac:(reflexivity)) as HG.
        pose proof (full_run ops (init_with_seq (fun _ => default_slot) f) _ _ f f HG) as H.
        assert (Full (init_with_seq (fun _ => default_slot) f) (fun x => x = f) f) as H0.
        { unfold Full; cbn. split; [lia|]. intros; lia. }
        specialize (H H0 Hq eq_refl HU' J).
        change (packets (new_reg None)) with (fun _ : Z => default_slot).
        destruct (nrun (init_with_seq (fun _ => default_slot) f) ops) as [n2 outs]. cbn [fst] in *.
        unfold Full in *. destruct (active n2) as [[s2 e2]|]; [|contradiction].
        split; [tauto|]. intros p H1 H2. destruct (proj2 H p H1 H2) as [X|X]; [left; congruence|right; exact X].
      + change (opfed (Report :: ops)) with (opfed ops) in *.
        specialize (IH E J U). cbn [nrun nstep]. rewrite nack_reports_none by reflexivity.
        destruct (nrun (new_reg None) ops) as [n2 outs]. exact IH. }
  destruct (nrun (new_reg o) ops) as [n outs]. cbn [fst] in *.
  unfold max_seq in HM. unfold Full in HF. destruct (active n) as [[s e]|] eqn:EA; [|discriminate].
  inversion HM; subst e.
  rewrite (accepts_gh n _ _ q s _ HG0 EA). destruct HF as [F1 F2].
  pose proof (proj1 HG0) as HI. unfold Inv in HI. rewrite EA in HI.
  split.
  - intros [H1 H2]. split; [exact H2|]. lia.
  - intros (H1 & H2 & H3). split; [|exact H1].
    destruct (Z.lt_ge_cases q s) as [L|G]; [|lia]. exfalso. apply H1, F2; lia.
Qed.

Lemma entry_named en x : (In x (entry_seqs16 en) <->
  x = pid en \/ exists i, 0 <= i < 16 /\ Z.testbit (blp en) i = true /\ x = (pid en + i + 1) mod 65536).
Proof.
  unfold entry_seqs16. cbn [In]. rewrite in_map_iff. split.
  - intros [H|(i & H & Hi)]; [left; auto|right]. apply filter_In in Hi as [Hi Hb]. apply in_seq in Hi.
    exists (Z.of_nat i). split; [lia|]. rewrite land_bit in Hb by lia. split; [exact Hb|]. symmetry; exact H.
  - intros [H|(i & Hi & Hb & H)]; [left; auto|right]. exists (Z.to_nat i).
    rewrite Z2Nat.id by lia. split; [symmetry; exact H|]. apply filter_In.
    split; [apply in_seq; lia|]. rewrite Z2Nat.id by lia. rewrite land_bit by lia. exact Hb.
Qed.

Lemma flat_map_into_iter l q : flat_map (fun en => entry_into_iter en q) l =
  map (fun s => extend_u16 (Some q) s) (flat_map entry_seqs16 l).
Proof.
  induction l as [|en l IH]; cbn [flat_map map]; [reflexivity|].
  rewrite map_app, IH. reflexivity.
Qed.

Lemma report_received o ops : unsigned o ops ->
  forall n outs, nrun (new_reg o) ops = (n, outs) ->
  forall top, max_seq n = Some top ->
  forall sent, 100 <= top < 2 ^ 64 -> 0 <= sent < 2 ^ 64 ->
    top <= sent + 100 -> sent < top - 100 + 32768 ->
  flat_map (fun en => entry_into_iter en sent) (snd (nack_reports n)) =
  filter (fun p => accepts n p && (Z.of_nat (asked_count p outs) <? 5)) (zseq (top - 100) 100).
Proof.
  intros U n outs E top HT sent H1 H2 H3 H4. rewrite flat_map_into_iter.
  rewrite (report_exact o ops U n outs E top HT), map_map.
  rewrite <- (map_id (filter _ _)) at 2.
  apply map_ext_in. intros p Hp. apply filter_In in Hp as [Hp _]. apply zseq_in in Hp.
  apply (extend_exact 16 sent p); [unfold width; tauto|exact H2|change (2^64) with U64 in *; lia|].
  change (2 ^ 16 / 2) with 32768. lia.
Qed.

Lemma window_size o ops p : unsigned o ops ->
  let '(n, _) := nrun (new_reg o) ops in
  forall top, max_seq n = Some top -> accepts n p = true -> top - 100 <= p.
Proof.
  intros U. pose proof (run_gh o ops U) as H. destruct (nrun (new_reg o) ops) as [n outs].
  intros top HT Ha. unfold max_seq in HT. destruct (active n) as [[s e]|] eqn:EA; [|discriminate].
  inversion HT; subst. apply (accepts_gh n _ _ p s top H EA) in Ha.
  pose proof (proj1 H) as HI. unfold Inv in HI. rewrite EA in HI. lia.
Qed.

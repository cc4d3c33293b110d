From Verif Require Import Base BaseFacts SeqModel NackModel NackSpec NackProofs NackProofs2 NackProofs3
  RegisterModel RegisterSpec.

Lemma mem_In p l : mem p l = true <-> In p l.
Proof.
  unfold mem. rewrite existsb_exists. split.
  - intros (x & Hx & E). assert (p = x) by lia. subst; assumption.
  - intro H. exists p. split; [assumption|lia].
Qed.

Lemma filter_split_len {A} (f : A -> bool) l :
  zlen (filter f l) + zlen (filter (fun x => negb (f x)) l) = zlen l.
Proof.
  induction l as [|x l IH]; cbn [filter]; [reflexivity|].
  destruct (f x); cbn [negb]; rewrite !zlen_cons; lia.
Qed.

Lemma count_members l D : NoDup l -> NoDup D -> incl D l ->
  zlen (filter (fun p => mem p D) l) = zlen D.
Proof.
  intros Hl HD Hi. unfold zlen. f_equal. apply Nat.le_antisymm.
  - apply NoDup_incl_length; [apply NoDup_filter; assumption|].
    intros x Hx. apply filter_In in Hx as [_ Hx]. apply mem_In; assumption.
  - apply NoDup_incl_length; [assumption|]. intros x Hx. apply filter_In. split; [auto|apply mem_In; assumption].
Qed.

Lemma missing_spec f top D : f <= top + 1 -> NoDup D -> (forall q, In q D -> f <= q <= top) ->
  missing f top D = top - f + 1 - zlen D.
Proof.
  intros H HD HI. unfold missing.
  pose proof (filter_split_len (fun p => mem p D) (zseq f (Z.to_nat (top - f + 1)))) as S.
  rewrite count_members in S; [|apply zseq_NoDup|assumption|].
  - unfold zlen in *. rewrite zseq_length in S. lia.
  - intros x Hx. apply zseq_in. specialize (HI x Hx). lia.
Qed.

(** invariant relating the register to the history *)
Record RI (r : rreg) (L D : list Z) : Prop := {
  ri_gh : exists C, Gh (rnack r) (fun x => In x L) C;
  ri_first : first r = hd_error L;
  ri_count : count r = zlen D;
  ri_nodup : NoDup D;
  ri_start : forall s e, active (rnack r) = Some (s, e) -> forall f, hd_error L = Some f -> f <= s;
  ri_range : forall q f, In q D -> hd_error L = Some f -> f <= q;
  ri_in : incl D L }.

Lemma ri_init : RI (rnew None) [] [].
Proof.
  constructor; cbn; try discriminate; try reflexivity; try constructor; try tauto.
  - pose proof (new_gh None ltac:(discriminate)) as H. exists (fun _ => 0).
    eapply gh_ext; [| |exact H]; cbn; [|reflexivity]. intro; split; [discriminate|tauto].
  - intros x [].
Qed.

Lemma hd_error_app (L : list Z) q : hd_error (L ++ [q]) = match hd_error L with Some f => Some f | None => Some q end.
Proof. destruct L; reflexivity. Qed.

Lemma ri_recv r L D q : 0 <= q -> RI r L D ->
  RI (fst (rupdate r q)) (L ++ [q]) (if snd (rupdate r q) then D ++ [q] else D).
Proof.
  intros Hq [[C HG] HF HC HN HS HR HI].
  pose proof (update_gh (rnack r) _ C q Hq HG) as HG1.
  pose proof (update_accepts (rnack r) q) as HA.
  unfold rupdate.
  assert (forall s e, active (fst (update (rnack r) q)) = Some (s, e) -> forall f, hd_error (L ++ [q]) = Some f -> f <= s) as HS'.
  { intros s' e' EA' f Hf. rewrite hd_error_app in Hf.
    destruct (active (rnack r)) as [[s e]|] eqn:EA.
    - destruct (hd_error L) as [f0|] eqn:EL.
      2:{ destruct L; [|discriminate]. exfalso. destruct HG as [_ HG]. rewrite EA in HG. cbn in HG. tauto. }
      inversion Hf; subst f0. specialize (HS s e eq_refl f eq_refl).
      destruct (Z.lt_ge_cases q s) as [Lq|Gq].
      + rewrite (update_old _ q s e EA Lq) in EA'. cbn [fst] in EA'. rewrite EA in EA'. inversion EA'; subst; lia.
      + pose proof (up_t (rnack r) s e q EA (proj1 HG) Gq) as UT. cbv zeta in UT.
        rewrite (update_unfold _ s e q EA Gq) in EA'. cbn [fst active] in EA'. inversion EA' as [[E1 E2]]. 
        rewrite E1 in UT. lia.
    - rewrite update_none in EA' by assumption. cbn in EA'. inversion EA'; subst s' e'.
      destruct (hd_error L) as [f0|] eqn:EL; [|inversion Hf; subst; lia].
      exfalso. destruct HG as [_ HG]. rewrite EA in HG. apply (proj1 HG f0).
      destruct L; inversion EL; subst; left; reflexivity. }
  destruct (update (rnack r) q) as [nk new] eqn:EU. cbn [fst snd rnack first count expected_prior received_prior] in *.
  assert (new = true -> ~ In q L /\ (forall f, hd_error L = Some f -> f <= q)) as HNew.
  { intros ->. symmetry in HA. split; [exact (accepts_sound _ _ _ _ HG HA)|].
    intros f Hf. destruct (active (rnack r)) as [[s e]|] eqn:EA.
    - apply (accepts_gh _ _ _ q s e HG EA) in HA. specialize (HS s e eq_refl f Hf). lia.
    - exfalso. destruct HG as [_ HG]. rewrite EA in HG. apply (proj1 HG f).
      destruct L; inversion Hf; subst; left; reflexivity. }
  constructor; cbn [rnack first count].
  - exists C. eapply gh_ext; [| |exact HG1]; cbn; [|reflexivity].
    intro x. rewrite in_app_iff. cbn. split; [intros [?|?]|intros [?|[?|[]]]]; auto.
  - rewrite HF, hd_error_app. destruct (hd_error L); reflexivity.
  - destruct new; [rewrite zlen_app, zlen_cons, zlen_nil; lia|assumption].
  - destruct new; [|assumption]. specialize (HNew eq_refl) as [HNew _].

    apply NoDup_rev in HN. rewrite <- (rev_involutive (D ++ [q])). apply NoDup_rev. rewrite rev_app_distr. cbn.
    constructor; [|assumption]. rewrite <- in_rev. intro X. apply HNew, HI, X.
  - exact HS'.
  - intros x f Hx Hf. rewrite hd_error_app in Hf.
    assert (forall y, In y D -> f <= y) as HD.
    { intros y Hy. destruct (hd_error L) as [f0|] eqn:EL.
      - inversion Hf; subst. eapply HR; eauto.
      - destruct L; [|discriminate]. destruct (HI y Hy). }
    destruct new; [|auto]. apply in_app_or in Hx as [Hx|[<-|[]]]; [auto|].
    destruct (hd_error L) as [f0|] eqn:EL; inversion Hf; subst; [apply HNew; auto|lia].
  - destruct new; intros x Hx; apply in_or_app.
    + apply in_app_or in Hx as [Hx|Hx]; auto.
    + auto.
Qed.

Lemma ri_nack r L D : RI r L D -> RI (fst (rstep r RNack)) L D.
Proof.
  intros [[C HG] HF HC HN HS HR HI]. pose proof (report_gh (rnack r) _ C HG) as HG1.
  cbn [nstep rstep] in *.
  assert (active (fst (nack_reports (rnack r))) = active (rnack r)) as EA.
  { destruct (active (rnack r)) as [[s e]|] eqn:EA.
    - pose proof (nack_reports_spec _ s e (proj1 HG) EA) as X. destruct (nack_reports (rnack r)); cbn.
      destruct X as [X _]. rewrite X. exact EA.
    - rewrite nack_reports_none by assumption. exact EA. }
  destruct (nack_reports (rnack r)) as [n l]. cbn [fst snd rnack first count] in *.
  constructor; cbn [rnack first count]; auto.
  - eexists. exact HG1.
  - rewrite EA. exact HS.
Qed.

Lemma ri_report r L D : RI r L D -> RI (fst (reception_report r)) L D.
Proof.
  intros H. unfold reception_report. destruct (first r) as [f|] eqn:EF; [|exact H].
  destruct (rmax_seq r) as [l|]; [|exact H]. destruct (expected f l) as [ex| |]; [|exact H|exact H].
  destruct H as [HG HF HC HN HS HR HI]. constructor; cbn [fst rnack first count]; auto. congruence.
Qed.

Lemma news_cons x outs : news (x :: outs) = (match x with RNew q true => [q] | _ => [] end) ++ news outs.
Proof. reflexivity. Qed.

Lemma ri_run ops : forall r L D, Forall (fun q => 0 <= q) (recvs ops) -> RI r L D ->
  let '(r', outs) := rrun r ops in RI r' (L ++ recvs ops) (D ++ news outs).
Proof.
  induction ops as [|o ops IH]; intros r L D HU H; cbn [rrun].
  - cbn. rewrite !app_nil_r. exact H.
  - destruct o as [q| |].
    + change (recvs (RRecv q :: ops)) with (q :: recvs ops) in *. inversion HU as [|? ? Hq HU' X]; subst.
      pose proof (ri_recv r L D q Hq H) as H1. cbn [rstep]. destruct (rupdate r q) as [r1 b]. cbn [fst snd] in H1.
      specialize (IH r1 _ _ HU' H1). destruct (rrun r1 ops) as [r2 outs]. rewrite news_cons.
      rewrite <- app_assoc in IH. destruct b; [rewrite <- app_assoc in IH|]; exact IH.
    + change (recvs (RNack :: ops)) with (recvs ops) in *. pose proof (ri_nack r L D H) as H1.
      cbn [rstep] in *. destruct (nack_reports (rnack r)) as [n l]. cbn [fst] in H1.
      specialize (IH _ _ _ HU H1). destruct (rrun _ ops) as [r2 outs]. exact IH.
    + change (recvs (RReport :: ops)) with (recvs ops) in *. pose proof (ri_report r L D H) as H1.
      cbn [rstep] in *. destruct (reception_report r) as [r1 x]. cbn [fst] in H1.
      specialize (IH _ _ _ HU H1). destruct (rrun _ ops) as [r2 outs]. exact IH.
Qed.

Definition small (l : list Z) : Prop := Forall (fun q => 0 <= q < 2 ^ 54) l.
Lemma small_nonneg l : small l -> Forall (fun q => 0 <= q) l.
Proof. apply Forall_impl. lia. Qed.

Lemma ri_facts r f l D : RI r (f :: l) D -> small (f :: l) ->
  first r = Some f /\ rmax_seq r = Some (highest (f :: l)) /\
  f <= highest (f :: l) < 2 ^ 54 /\ 0 <= f /\
  (forall q, In q D -> f <= q <= highest (f :: l)) /\ NoDup D /\ count r = zlen D.
Proof.
  intros [[C HG] HF HC HN HS HR HI] SM.
  assert (rmax_seq r = Some (top_of f l)) as HM.
  { unfold rmax_seq, max_seq. destruct (active (rnack r)) as [[s e]|] eqn:EA.
    - f_equal. eapply gh_top; [exact HG|exact EA|]. intro x; cbn. split; intros [?|?]; auto.
    - exfalso. apply (proj1 (gh_active _ _ _ HG) EA f). left; reflexivity. }
  change (highest (f :: l)) with (top_of f l) in *.
  destruct (top_of_ge l f) as [T1 T2].
  assert (top_of f l < 2 ^ 54) as HB.
  { inversion SM as [|? ? Hx SM' X]; subst. destruct (top_of_in l f) as [->|Hi]; [lia|].
    unfold small in *. rewrite Forall_forall in SM'. apply SM' in Hi. lia. }
  inversion SM; subst.
  split; [exact HF|]. split; [exact HM|]. split; [lia|]. split; [lia|]. split; [|auto].
  intros q Hq. split; [eapply HR; [exact Hq|reflexivity]|].
  destruct (HI q Hq) as [<-|Hq2]; auto.
Qed.

Lemma wrap_small x : - 2 ^ 63 <= x < 2 ^ 63 -> wrap_i64 x = x.
Proof. intro H. unfold wrap_i64. rewrite Z.mod_small; lia. Qed.

Lemma expected_ok f l : 0 <= f <= l -> l < 2 ^ 54 -> expected f l = Ok (l - f + 1).
Proof.
  intros H1 H2. unfold expected. destruct (l <? f) eqn:E; [lia|].
  rewrite wrap_small by lia. f_equal. lia.
Qed.

(** expected/received priors: those of the last report *)
Lemma prior_step ops : forall r, 
  let '(r', outs) := rrun r ops in
  ~ In RReport ops -> expected_prior r' = expected_prior r /\ received_prior r' = received_prior r.
Proof.
  induction ops as [|o ops IH]; intros r; cbn [rrun]; [auto|].
  destruct o as [q| |]; cbn [rstep].
  - pose proof (IH (fst (rupdate r q))) as I. destruct (rupdate r q) as [r1 b] eqn:E. cbn [fst] in I.
    destruct (rrun r1 ops) as [r2 outs]. intro N. cbn in N. specialize (I ltac:(tauto)).
    unfold rupdate in E. destruct (update (rnack r) q). inversion E; subst r1. cbn in I. exact I.
  - destruct (nack_reports (rnack r)) as [n l].
    pose proof (IH (mkRreg n (first r) (count r) (expected_prior r) (received_prior r))) as I.
    destruct (rrun _ ops) as [r2 outs]. intro N. cbn in N. specialize (I ltac:(tauto)). exact I.
  - destruct (reception_report r) as [r1 x]. destruct (rrun r1 ops). intro N. exfalso. apply N. left; reflexivity.
Qed.

Lemma rrun_app a : forall r b, rrun r (a ++ b) =
  let (r1, o1) := rrun r a in let (r2, o2) := rrun r1 b in (r2, o1 ++ o2).
Proof.
  induction a as [|x a IH]; intros r b; cbn [rrun app].
  - destruct (rrun r b); reflexivity.
  - destruct (rstep r x) as [r1 o]. rewrite IH. destruct (rrun r1 a) as [r2 o1].
    destruct (rrun r2 b) as [r3 o2]. reflexivity.
Qed.

Lemma recvs_app a b : recvs (a ++ b) = recvs a ++ recvs b.
Proof. apply flat_map_app. Qed.

Lemma small_app a b : small (a ++ b) <-> small a /\ small b.
Proof. apply Forall_app. Qed.

Lemma run_none ops : small (recvs ops) ->
  let '(r, outs) := rrun (rnew None) ops in RI r (recvs ops) (news outs).
Proof. intros S. pose proof (ri_run ops _ _ _ (small_nonneg _ S) ri_init) as H. exact H. Qed.

(** the report after any history *)
Lemma report_gen ops : small (recvs ops) -> recvs ops <> [] ->
  let '(r, outs) := rrun (rnew None) ops in
  exists fr, snd (reception_report r) =
    Ok (mkReport fr (Z.min (missing (lowest_first (recvs ops)) (highest (recvs ops)) (news outs)) 8388607)
          (highest (recvs ops) mod U32)) /\ 0 <= fr <= 255 /\
    fr = fraction_lost (expected_prior r) (received_prior r) (expect (recvs ops)) (zlen (news outs)).
Proof.
  intros S NE. pose proof (run_none ops S) as H. destruct (rrun (rnew None) ops) as [r outs].
  destruct (recvs ops) as [|f l] eqn:E; [congruence|].
  destruct (ri_facts r f l _ H S) as (F1 & F2 & F3 & F4 & F5 & F6 & F7).
  unfold reception_report. rewrite F1, F2, expected_ok by lia. cbn [snd].
  unfold lowest_first. cbn [hd]. rewrite missing_spec by (auto; lia).
  change (expect (f :: l)) with (highest (f :: l) - f + 1).
  eexists. split; [|split; [|reflexivity]].
  - rewrite F7. f_equal. f_equal. unfold packets_lost.
    assert (zlen (news outs) <= highest (f :: l) - f + 1) as HL.
    { pose proof (missing_spec f (highest (f :: l)) (news outs) ltac:(lia) F6 F5) as M.
      unfold missing in M. pose proof (zlen_nonneg (filter (fun p => negb (mem p (news outs))) (zseq f (Z.to_nat (highest (f :: l) - f + 1))))). lia. }
    destruct (8388607 <? highest (f :: l) - f + 1 - zlen (news outs)) eqn:X; [lia|].
    destruct (highest (f :: l) - f + 1 - zlen (news outs) <? -8388607) eqn:Y; [lia|].
    unfold U32. rewrite Z.mod_small; lia.
  - unfold fraction_lost. match goal with |- context [if ?c then _ else _] => destruct c end; [lia|].
    pose proof (Z.mod_pos_bound (Z.quot (wrap_i64
     ((highest (f :: l) - f + 1 - expected_prior r - (zlen (news outs) - received_prior r)) * 256))
      (highest (f :: l) - f + 1 - expected_prior r)) 256). lia.
Qed.

(** fraction since the previous report *)
Lemma fraction_ok ep rp ex rc : 0 <= ex - ep < 2 ^ 54 -> 0 <= rc - rp <= ex - ep -> (0 < ex - ep -> 0 < rc - rp) ->
  fraction_lost ep rp ex rc = if ex - ep =? 0 then 0 else 256 * ((ex - ep) - (rc - rp)) / (ex - ep).
Proof.
  intros H1 H2 H3. unfold fraction_lost.
  destruct ((ex - ep =? 0) || (ex - ep - (rc - rp) =? 0)) eqn:E.
  - destruct (ex - ep =? 0) eqn:E0.
    + reflexivity.
    + assert (ex - ep - (rc - rp) = 0) as -> by (cbn in E; lia). rewrite Z.mul_0_r, Z.div_0_l by lia. reflexivity.
  - destruct (ex - ep =? 0) eqn:E0; [discriminate|]. rewrite wrap_small by lia. rewrite (Z.mul_comm _ 256).
    rewrite Z.quot_div_nonneg by lia. apply Z.mod_small. split.
    + apply Z.div_pos; lia.
    + apply Z.div_lt_upper_bound; lia.
Qed.

Lemma highest_app L M : L <> [] -> highest L <= highest (L ++ M) /\ hd 0 (L ++ M) = hd 0 L.
Proof.
  destruct L as [|f L]; [congruence|]. intros _. split; [|reflexivity].
  unfold highest; cbn [app]. rewrite fold_left_app.
  destruct (top_of_ge M (fold_left Z.max L f)) as [T _]. exact T.
Qed.

Lemma run_report_step r f l D : RI r (f :: l) D -> small (f :: l) ->
  let r1 := fst (reception_report r) in
  expected_prior r1 = expect (f :: l) /\ received_prior r1 = zlen D.
Proof.
  intros H S. destruct (ri_facts r f l D H S) as (F1 & F2 & F3 & F4 & F5 & F6 & F7).
  unfold reception_report. rewrite F1, F2, expected_ok by lia. cbn. auto.
Qed.

(** packets newly accepted raise the count whenever the highest grows *)
Lemma grows_counts r ops L D : RI r L D -> small (L ++ recvs ops) -> L <> [] ->
  let '(r', outs) := rrun r ops in
  highest L < highest (L ++ recvs ops) -> news outs <> [].
Proof.
  revert r L D. induction ops as [|o ops IH]; intros r L D H S NE; cbn [rrun].
  - cbn. rewrite app_nil_r. lia.
  - destruct o as [q| |].
    + change (recvs (RRecv q :: ops)) with (q :: recvs ops) in *.
      assert (0 <= q) as Hq. { apply small_app in S as [_ S]. inversion S; subst; lia. }
      pose proof (ri_recv r L D q Hq H) as H1.
      assert (highest L < q -> snd (rupdate r q) = true) as HT.
      { intros LT. destruct L as [|f l]; [congruence|]. apply small_app in S as [S _].
        destruct (ri_facts r f l D H S) as (F1 & F2 & _).
        unfold rmax_seq, max_seq in F2. unfold rupdate. pose proof (update_accepts (rnack r) q) as UA.
        destruct (update (rnack r) q) as [n b]. cbn [snd] in *. subst b. unfold accepts.
        destruct H as [[C [HI _]] _ _ _ _ _ _]. unfold Inv in HI.
        destruct (active (rnack r)) as [[s e]|]; [|discriminate]. assert (e = highest (f :: l)) as Ee by congruence.
        destruct (q <? s) eqn:X; [lia|]. destruct (e <? q) eqn:Y; [apply orb_true_r|lia]. }
      cbn [rstep]. destruct (rupdate r q) as [r1 b]. cbn [fst snd] in *.
      destruct b.
      * destruct (rrun r1 ops) as [r2 outs]. intros _. rewrite news_cons. discriminate.
      * assert (L ++ [q] <> []) as NE2 by (destruct L; discriminate).
        replace (L ++ q :: recvs ops) with ((L ++ [q]) ++ recvs ops) in * by (rewrite <- app_assoc; reflexivity).
        specialize (IH r1 _ _ H1 S NE2). destruct (rrun r1 ops) as [r2 outs]. intro LT. rewrite news_cons. cbn [app].
        apply IH. destruct (Z.lt_ge_cases (highest L) q) as [X|X]; [discriminate (HT X)|].
        destruct L as [|f l]; [congruence|].
        replace (highest ((f :: l) ++ [q])) with (highest (f :: l)); [exact LT|].
        unfold highest; cbn [app] in *. rewrite fold_left_app. cbn [fold_left].
        change (fold_left Z.max l f) with (highest (f :: l)) in *. lia.
    + pose proof (ri_nack r L D H) as H1. cbn [rstep] in *.
      destruct (nack_reports (rnack r)) as [n l]. cbn [fst] in *.
      specialize (IH _ _ _ H1 S NE). destruct (rrun _ ops) as [r2 outs]. exact IH.
    + pose proof (ri_report r L D H) as H1. cbn [rstep] in *.
      destruct (reception_report r) as [r1 x]. cbn [fst] in *.
      specialize (IH _ _ _ H1 S NE). destruct (rrun _ ops) as [r2 outs]. exact IH.
Qed.

Lemma expect_nonneg_mono L M : L <> [] -> expect L <= expect (L ++ M).
Proof.
  intros NE. destruct (highest_app L M NE) as [H _]. destruct L as [|f l]; [congruence|].
  unfold expect. cbn [app] in *. lia.
Qed.

Lemma fraction_since_last ops1 ops2 : small (recvs (ops1 ++ RReport :: ops2)) ->
  recvs ops1 <> [] -> ~ In RReport ops2 ->
  let '(r1, outs1) := rrun (rnew None) ops1 in
  let '(r, outs) := rrun (rnew None) (ops1 ++ RReport :: ops2) in
  let dE := expect (recvs (ops1 ++ RReport :: ops2)) - expect (recvs ops1) in
  let dR := zlen (news outs) - zlen (news outs1) in
  dR <= dE ->
  exists rep, snd (reception_report r) = Ok rep /\ fraction rep = if dE =? 0 then 0 else 256 * (dE - dR) / dE.
Proof.
  intros S NE NR. pose proof (report_gen _ S) as RG. rewrite rrun_app in *.
  rewrite recvs_app in S, RG. pose proof S as S0. apply small_app in S as [S1 S2].
  pose proof (run_none ops1 S1) as H1. destruct (rrun (rnew None) ops1) as [r1 outs1].
  rewrite !recvs_app.
  change (recvs (RReport :: ops2)) with (recvs ops2) in *.
  destruct (recvs ops1) as [|f l] eqn:EL; [congruence|].
  pose proof (run_report_step r1 f l _ H1 S1) as HP. pose proof (ri_report r1 _ _ H1) as H2.
  cbn [rrun rstep] in *. destruct (reception_report r1) as [r2 x] eqn:ER. cbn [fst] in *. cbv zeta in HP.
  pose proof (grows_counts r2 ops2 _ _ H2 S0 NE) as GC.
  pose proof (prior_step ops2 r2) as PS.
  pose proof (ri_run ops2 r2 _ _ (small_nonneg _ S2) H2) as H3.
  destruct (rrun r2 ops2) as [r outs2]. specialize (PS NR). destruct PS as [P1 P2]. destruct HP as [Q1 Q2].
  destruct (RG ltac:(discriminate)) as (fr & R1 & R2 & R3). cbv zeta. intro HD.
  eexists. split; [exact R1|]. cbn [fraction]. rewrite R3, P1, P2, Q1, Q2.
  assert (zlen (news (outs1 ++ RRep x :: outs2)) = zlen (news outs1) + zlen (news outs2)) as HN.
  { unfold news. rewrite flat_map_app. cbn [flat_map app]. apply zlen_app. }
  rewrite HN in *. pose proof (zlen_nonneg (news outs2)).
  assert (expect (f :: l) <= expect ((f :: l) ++ recvs ops2)) as EM by (apply expect_nonneg_mono; discriminate).
  assert (expect ((f :: l) ++ recvs ops2) < 2 ^ 54 + 1 /\ 0 <= expect (f :: l)) as [EB1 EB2].
  { change ((f :: l) ++ recvs ops2) with (f :: (l ++ recvs ops2)) in *.
    destruct (ri_facts r f _ _ H3 S0) as (_ & _ & B3 & B4 & _).
    destruct (ri_facts r2 f _ _ H2 S1) as (_ & _ & B5 & B6 & _).
    unfold expect. lia. }
  apply fraction_ok; [|lia|].
  - split; [lia|]. assert (1 <= expect (f :: l)); [|lia].
    destruct (ri_facts r2 f _ _ H2 S1) as (_ & _ & B5 & B6 & _). unfold expect. lia.
  - intro LT. assert (news outs2 <> []) as NN.
    { apply GC. unfold expect in LT. cbn [app] in *. lia. }
    destruct (news outs2); [congruence|]. rewrite zlen_cons. pose proof (zlen_nonneg l0). lia.
Qed.

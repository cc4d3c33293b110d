From Verif Require Import Base BaseFacts SeqModel SeqProofs NackModel NackProofs.

Definition needs (r : ring) (p : Z) : bool := needs_nack (packet r p).

Lemma find_needs_spec r n : forall a,
  match find_needs r a n with
  | None => forall p, a <= p < a + Z.of_nat n -> needs r p = false
  | Some t => a <= t < a + Z.of_nat n /\ needs r t = true /\ forall p, a <= p < t -> needs r p = false
  end.
Proof.
  induction n as [|n IH]; intros a; cbn [find_needs]; [lia|].
  destruct (needs_nack (packet r a)) eqn:E.
  - split; [lia|]. split; [exact E|]. lia.
  - specialize (IH (a + 1)). destruct (find_needs r (a + 1) n) as [t|].
    + destruct IH as (H1 & H2 & H3). split; [lia|]. split; [exact H2|].
      intros p Hp. destruct (Z.eq_dec p a) as [->|]; [exact E|apply H3; lia].
    + intros p Hp. destruct (Z.eq_dec p a) as [->|]; [exact E|apply IH; lia].
Qed.

(** [bump r r' lo hi]: slots of positions in [lo,hi) that need a nack are incremented, everything
    else within the window is as before. *)
Definition bump (r r' : ring) (lo hi : Z) : Prop :=
  (forall p, lo <= p < hi -> packet r' p = if needs r p then inc_nack (packet r p) else packet r p) /\
  (forall i, (forall p, lo <= p < hi -> p mod BUFFER_SIZE <> i) -> r' i = r i).

Lemma bump_refl r a : bump r r a a.
Proof. split; [lia|reflexivity]. Qed.

Lemma bump_out r r' lo hi p : bump r r' lo hi -> hi <= lo + 101 ->
  (hi <= p < lo + 101 \/ hi - 101 <= p < lo) -> packet r' p = packet r p.
Proof.
  intros [_ B] H Hp. unfold packet. apply B. intros x Hx. apply mod_ne. lia.
Qed.

Lemma bump_trans r r1 r2 a b c : bump r r1 a b -> bump r1 r2 b c -> a <= b <= c -> c <= a + 101 ->
  bump r r2 a c.
Proof.
  intros B1 B2 H1 H2. split.
  - intros p Hp. destruct (Z.lt_ge_cases p b) as [L|G].
    + rewrite (bump_out r1 r2 b c p B2) by lia. apply (proj1 B1). lia.
    + rewrite (proj1 B2) by lia. unfold needs. rewrite (bump_out r r1 a b p B1) by lia. reflexivity.
  - intros i Hi. rewrite (proj2 B2), (proj2 B1); [reflexivity| |]; intros; apply Hi; lia.
Qed.

Lemma bump_one r p : needs r p = true -> bump r (set_packet r p (inc_nack (packet r p))) p (p + 1).
Proof.
  intros N. split.
  - intros x Hx. replace x with p by lia. rewrite packet_same, N. reflexivity.
  - intros i Hi. unfold set_packet. destruct (i =? p mod BUFFER_SIZE) eqn:E; [|reflexivity].
    exfalso; apply (Hi p); lia.
Qed.
Lemma bump_none r p : needs r p = false -> bump r r p (p + 1).
Proof.
  intros N. split; [|reflexivity]. intros x Hx. replace x with p by lia. rewrite N; reflexivity.
Qed.
Lemma bump_skip r a b : (forall p, a <= p < b -> needs r p = false) -> bump r r a b.
Proof. intros N. split; [|reflexivity]. intros x Hx. rewrite N by assumption. reflexivity. Qed.

Lemma shiftl_pow2 i : 0 <= i -> Z.shiftl 1 i = 2 ^ i.
Proof. intros. rewrite Z.shiftl_mul_pow2 by assumption. lia. Qed.

Lemma blp_loop_spec n : forall r next i b, 0 <= i -> (n <= 16)%nat ->
  let '(r', b') := blp_loop r next i b n in
  bump r r' next (next + Z.of_nat n) /\
  forall j, 0 <= j -> Z.testbit b' j =
     Z.testbit b j || ((i <=? j) && (j <? i + Z.of_nat n) && needs r (next + (j - i))).
Proof.
  induction n as [|n IH]; intros r next i b Hi Hn; cbn [blp_loop].
  - rewrite Z.add_0_r. split; [apply bump_refl|]. intros j Hj.
    destruct (i <=? j) eqn:E1, (j <? i + Z.of_nat 0) eqn:E2; try lia; rewrite ?andb_false_l, ?andb_false_r, ?orb_false_r; reflexivity.
  - fold (needs r next). destruct (needs r next) eqn:E.
    + set (r1 := set_packet r next (inc_nack (packet r next))).
      specialize (IH r1 (next + 1) (i + 1) (Z.lor b (Z.shiftl 1 i)) ltac:(lia) ltac:(lia)).
      destruct (blp_loop r1 (next + 1) (i + 1) (Z.lor b (Z.shiftl 1 i)) n) as [r' b'].
      destruct IH as [B IH]. split.
      * eapply bump_trans; [apply bump_one; exact E| |lia|lia].
        replace (next + Z.of_nat (S n)) with (next + 1 + Z.of_nat n) by lia. exact B.
      * intros j Hj. rewrite IH by assumption. rewrite Z.lor_spec, shiftl_pow2 by assumption.
        rewrite Z.pow2_bits_eqb by assumption.
        destruct (Z.eq_dec i j) as [->|Ne].
        -- rewrite Z.eqb_refl, Z.sub_diag, Z.add_0_r, E. rewrite orb_true_r. cbn [orb].
           destruct (j <=? j) eqn:X; [|lia]. destruct (j <? j + Z.of_nat (S n)) eqn:Y; [|lia].
           rewrite orb_true_r. reflexivity.
        -- destruct (i =? j) eqn:X; [lia|]. rewrite orb_false_r. f_equal.
           destruct (i + 1 <=? j) eqn:Y1, (i <=? j) eqn:Y2; try lia; try reflexivity.
           replace (i + 1 + Z.of_nat n) with (i + Z.of_nat (S n)) by lia.
           destruct (j <? i + Z.of_nat (S n)) eqn:Y3; [|reflexivity]. cbn [andb].
           replace (next + 1 + (j - (i + 1))) with (next + (j - i)) by lia.
           unfold needs. f_equal. apply packet_other. lia.
    + specialize (IH r (next + 1) (i + 1) b ltac:(lia) ltac:(lia)).
      destruct (blp_loop r (next + 1) (i + 1) b n) as [r' b'].
      destruct IH as [B IH]. split.
      * eapply bump_trans; [apply bump_none; exact E| |lia|lia].
        replace (next + Z.of_nat (S n)) with (next + 1 + Z.of_nat n) by lia. exact B.
      * intros j Hj. rewrite IH by assumption. f_equal.
        destruct (Z.eq_dec i j) as [->|Ne].
        -- rewrite Z.sub_diag, Z.add_0_r, E, andb_false_r. destruct (j + 1 <=? j) eqn:X; [lia|reflexivity].
        -- destruct (i + 1 <=? j) eqn:Y1, (i <=? j) eqn:Y2; try lia; try reflexivity.
           replace (i + 1 + Z.of_nat n) with (i + Z.of_nat (S n)) by lia.
           destruct (j <? i + Z.of_nat (S n)) eqn:Y3; [|reflexivity]. cbn [andb].
           replace (next + 1 + (j - (i + 1))) with (next + (j - i)) by lia. reflexivity.
Qed.

Lemma land_bit i b : 0 <= i -> (0 <? Z.land (Z.shiftl 1 i) b) = Z.testbit b i.
Proof.
  intro H. rewrite shiftl_pow2 by assumption.
  destruct (Z.testbit b i) eqn:E.
  - assert (Z.land (2 ^ i) b = 2 ^ i) as ->.
    { apply Z.bits_inj_iff'. intros j Hj. rewrite Z.land_spec, Z.pow2_bits_eqb by assumption.
      destruct (i =? j) eqn:X; [|reflexivity]. replace j with i by lia. rewrite E; reflexivity. }
    pose proof (Z.pow_pos_nonneg 2 i). lia.
  - assert (Z.land (2 ^ i) b = 0) as ->; [|reflexivity].
    apply Z.bits_inj_iff'. intros j Hj. rewrite Z.land_spec, Z.pow2_bits_eqb, Z.bits_0 by assumption.
    destruct (i =? j) eqn:X; [|reflexivity]. replace j with i by lia. rewrite E; reflexivity.
Qed.

Lemma filter_bits_zseq (f : nat -> bool) (g : Z -> bool) n : forall k a,
  (forall j, (k <= j < k + n)%nat -> f j = g (a + (Z.of_nat j - Z.of_nat k))) ->
  map (fun i => a + (Z.of_nat i - Z.of_nat k)) (filter f (seq k n)) = filter g (zseq a n).
Proof.
  induction n as [|n IH]; intros k a H; cbn [seq zseq filter map]; [reflexivity|].
  rewrite (H k) by lia. rewrite Z.sub_diag, Z.add_0_r.
  assert (map (fun i => a + (Z.of_nat i - Z.of_nat k)) (filter f (seq (S k) n)) = filter g (zseq (a + 1) n)) as E.
  { rewrite <- (IH (S k) (a + 1)).
    - apply map_ext. intro. lia.
    - intros j Hj. rewrite H by lia. f_equal. lia. }
  destruct (g a); cbn [map]; rewrite E; [rewrite Z.sub_diag, Z.add_0_r|]; reflexivity.
Qed.

Lemma entry_expand p b n r : (n <= 16)%nat ->
  (forall j, 0 <= j -> Z.testbit b j = ((0 <=? j) && (j <? Z.of_nat n) && needs r (p + 1 + j))) ->
  entry_seqs16 (mkEntry (p mod U16) b) =
  map (fun x => x mod U16) (p :: filter (needs r) (zseq (p + 1) n)).
Proof.
  intros Hn Hb. unfold entry_seqs16. cbn [pid blp map]. f_equal.
  rewrite <- (filter_bits_zseq (fun i => Z.testbit b (Z.of_nat i)) (needs r) n 0%nat (p + 1)).
  2:{ intros j Hj. rewrite Hb by lia. rewrite Z.sub_0_r.
      destruct (0 <=? Z.of_nat j) eqn:X; [|lia]. destruct (Z.of_nat j <? Z.of_nat n) eqn:Y; [reflexivity|lia]. }
  replace (filter (fun i : nat => 0 <? Z.land (Z.shiftl 1 (Z.of_nat i)) b) (seq 0 16))
     with (filter (fun i : nat => Z.testbit b (Z.of_nat i)) (seq 0 n)).
  - rewrite map_map. apply map_ext. intro i. unfold U16. rewrite Z.sub_0_r.
    replace (p mod 65536 + Z.of_nat i + 1) with (p mod 65536 + (Z.of_nat i + 1)) by ring.
    rewrite Zplus_mod_idemp_l. f_equal. lia.
  - replace 16%nat with (n + (16 - n))%nat by lia. rewrite seq_app, filter_app.
    rewrite (filter_all_false _ (seq (0 + n) (16 - n))).
    + rewrite app_nil_r. apply filter_ext. intro. symmetry. apply land_bit. lia.
    + intros x Hx. apply in_seq in Hx. rewrite land_bit by lia. rewrite Hb by lia.
      destruct (Z.of_nat x <? Z.of_nat n) eqn:Y; [lia|]. rewrite andb_false_r. reflexivity.
Qed.

Lemma nack_iter_spec fuel : forall r next e, (Z.to_nat (e + 1 - next) <= fuel)%nat ->
  e <= next + 100 -> needs r e = false ->
  let '(r', l) := nack_iter fuel r next e in
  (next <= e + 1 -> bump r r' next (e + 1)) /\ (e + 1 < next -> r' = r) /\
  flat_map entry_seqs16 l = map (fun x => x mod U16) (filter (needs r) (zseq next (Z.to_nat (e + 1 - next)))).
Proof.
  induction fuel as [|f IH]; intros r next e Hf Hw He; cbn [nack_iter].
  - replace (Z.to_nat (e + 1 - next)) with 0%nat by lia. cbn. repeat split; try reflexivity; lia.
  - unfold nack_next. pose proof (find_needs_spec r (Z.to_nat (e + 1 - next)) next) as HF.
    destruct (find_needs r next (Z.to_nat (e + 1 - next))) as [p|].
    2:{ split; [intro; apply bump_skip; intros; apply HF; lia|]. split; [reflexivity|].
        rewrite filter_all_false; [reflexivity|]. intros x Hx. apply zseq_in in Hx. apply HF. lia. }
    destruct HF as (P1 & P2 & P3).
    assert (p < e) as Pe. { destruct (Z.eq_dec p e) as [->|]; [congruence|lia]. }
    set (r1 := set_packet r p (inc_nack (packet r p))).
    set (n := Z.min (Z.max 0 (e - (p + 1))) 16).
    pose proof (blp_loop_spec (Z.to_nat n) r1 (p + 1) 0 0 ltac:(lia) ltac:(lia)) as HB.
    destruct (blp_loop r1 (p + 1) 0 0 (Z.to_nat n)) as [r2 b]. destruct HB as [B2 Hb].
    assert (bump r r2 p (p + 1 + n)) as B02.
    { eapply bump_trans; [apply bump_one; exact P2|fold r1|lia|lia].
      replace n with (Z.of_nat (Z.to_nat n)) by lia. exact B2. }
    assert (bump r r2 next (p + 1 + n)) as B03.
    { eapply bump_trans; [apply bump_skip; exact P3|exact B02|lia|lia]. }
    specialize (IH r2 (p + 1 + n) e ltac:(lia) ltac:(lia)).
    assert (needs r2 e = false) as He2.
    { destruct (Z.lt_ge_cases e (p + 1 + n)) as [L|G]; [lia|].
      unfold needs. rewrite (bump_out r r2 next (p + 1 + n) e B03) by lia. exact He. }
    specialize (IH He2).
    destruct (nack_iter f r2 (p + 1 + n) e) as [r3 l]. destruct IH as (I1 & I2 & I3).
    split; [|split].
    + intros _. eapply bump_trans; [exact B03|apply I1; lia|lia|lia].
    + lia.
    + cbn [flat_map]. rewrite I3.
      rewrite (entry_expand p b (Z.to_nat n) r).
      2: lia.
      2:{ intros j Hj. rewrite Hb by assumption. rewrite Z.bits_0, Z.sub_0_r. cbn [orb].
          rewrite Z.add_0_l. destruct (0 <=? j) eqn:X; [|lia].
          destruct (j <? Z.of_nat (Z.to_nat n)) eqn:Y; [|reflexivity]. cbn [andb].
          unfold needs, r1. f_equal. apply packet_other. lia. }
      rewrite <- map_app. f_equal.
      replace (Z.to_nat (e + 1 - next)) with
        (Z.to_nat (p - next) + (1 + (Z.to_nat n + Z.to_nat (e + 1 - (p + 1 + n)))))%nat by lia.
      rewrite zseq_app, filter_app.
      rewrite (filter_all_false (needs r) (zseq next (Z.to_nat (p - next)))).
      2:{ intros x Hx. apply zseq_in in Hx. apply P3. lia. }
      cbn [app]. rewrite (zseq_app 1). cbn [zseq app filter].
      replace (next + Z.of_nat (Z.to_nat (p - next))) with p by lia. rewrite P2. cbn [app]. f_equal.
      rewrite zseq_app, filter_app. f_equal.
      replace (p + Z.of_nat 1 + Z.of_nat (Z.to_nat n)) with (p + 1 + n) by lia.
      apply filter_ext_in. intros x Hx. apply zseq_in in Hx.
      unfold needs. rewrite (bump_out r r2 next (p + 1 + n) x B03) by lia. reflexivity.
Qed.

(** whole report *)
Lemma nack_reports_spec n s e : Inv n -> active n = Some (s, e) ->
  let '(n', l) := nack_reports n in
  active n' = active n /\ bump (packets n) (packets n') s (e + 1) /\
  flat_map entry_seqs16 l =
    map (fun x => x mod U16) (filter (needs (packets n)) (zseq s (Z.to_nat (e + 1 - s)))).
Proof.
  intros HI EA. unfold nack_reports. rewrite EA. unfold Inv in HI; rewrite EA in HI.
  destruct HI as (H1 & H2 & H3 & H4 & H5).
  pose proof (find_needs_spec (packets n) (Z.to_nat (e + 1 - s)) s) as HF.
  destruct (find_needs (packets n) s (Z.to_nat (e + 1 - s))) as [s'|].
  - destruct HF as (P1 & P2 & P3).
    assert (needs (packets n) e = false) as He by (unfold needs, needs_nack; rewrite H3; reflexivity).
    pose proof (nack_iter_spec (Z.to_nat (e + 1 - s')) (packets n) s' e ltac:(lia) ltac:(lia) He) as HN.
    destruct (nack_iter (Z.to_nat (e + 1 - s')) (packets n) s' e) as [r l].
    destruct HN as (I1 & I2 & I3). cbn [active packets]. split; [reflexivity|]. split.
    + eapply bump_trans; [apply bump_skip; exact P3|apply I1; lia|lia|lia].
    + rewrite I3. replace (Z.to_nat (e + 1 - s)) with (Z.to_nat (s' - s) + Z.to_nat (e + 1 - s'))%nat by lia.
      rewrite zseq_app, filter_app, (filter_all_false _ (zseq s _)).
      2:{ intros x Hx. apply zseq_in in Hx. apply P3. lia. }
      cbn [app]. replace (s + Z.of_nat (Z.to_nat (s' - s))) with s' by lia. reflexivity.
  - cbn. split; [exact EA|]. split; [apply bump_skip; intros; apply HF; lia|].
    rewrite filter_all_false; [reflexivity|]. intros x Hx. apply zseq_in in Hx. apply HF. lia.
Qed.

Lemma nack_reports_none n : active n = None -> nack_reports n = (n, []).
Proof. intro H. unfold nack_reports. rewrite H. reflexivity. Qed.

(** history: counting requests *)
Definition named (o : nout) (p : Z) : bool :=
  match o with
  | ONack (Some top) l =>
      (top - 100 <=? p) && (p <? top) &&
      existsb (fun x => x =? p mod U16) (flat_map entry_seqs16 l)
  | _ => false
  end.

Lemma needs_gh n A C s e p : Gh n A C -> active n = Some (s, e) -> s <= p <= e ->
  (needs (packets n) p = true <-> ~ A p /\ C p < MAX_NACKS).
Proof.
  intros [HI HG] EA Hp. rewrite EA in HG. destruct HG as (G0 & G1 & G2 & G3 & G4 & G5).
  unfold needs, needs_nack. rewrite <- (G3 p Hp). specialize (G2 p Hp).
  destruct (received (packet (packets n) p)); cbn [negb andb].
  - split; [discriminate|]. intros [N _]. exfalso; apply N, G2; reflexivity.
  - split.
    + intro L. split; [|lia]. intro Ha. apply G2 in Ha. discriminate.
    + intros [_ L]. lia.
Qed.

Lemma report_named n A C : Gh n A C -> forall p,
  named (snd (nstep n Report)) p = true <->
  exists s e, active n = Some (s, e) /\ s <= p < e /\ ~ A p /\ C p < MAX_NACKS.
Proof.
  intros HG p. cbn [nstep]. destruct (active n) as [[s e]|] eqn:EA.
  - pose proof (nack_reports_spec n s e (proj1 HG) EA) as HS.
    destruct (nack_reports n) as [n' l]. destruct HS as (_ & _ & HS).
    unfold max_seq. rewrite EA. cbn [snd named]. rewrite HS.
    pose proof (proj1 HG) as HI. unfold Inv in HI. rewrite EA in HI. destruct HI as (H1 & H2 & _).
    pose proof (proj2 HG) as HG2. rewrite EA in HG2. destruct HG2 as (G0 & _).
    rewrite !andb_true_iff, existsb_exists. split.
    + intros [[L1 L2] (x & Hx & Hm)]. apply in_map_iff in Hx as (y & Hy & Hy2).
      apply filter_In in Hy2 as [Hy2 Hy3]. apply zseq_in in Hy2.
      assert (y = p) as ->. { unfold U16 in *. dlia. }
      apply (needs_gh n A C s e) in Hy3; [|exact HG|exact EA|lia].
      exists s, e. split; [reflexivity|]. split; [lia|]. exact Hy3.
    + intros (s0 & e0 & E & Hp & HN). inversion E; subst s0 e0. split; [lia|].
      exists (p mod U16). split; [|lia]. apply in_map_iff. exists p. split; [reflexivity|].
      apply filter_In. split; [apply zseq_in; lia|]. apply (needs_gh n A C s e); auto. lia.
  - rewrite nack_reports_none by assumption. unfold max_seq. rewrite EA. cbn.
    split; [discriminate|]. intros (s & e & E & _). discriminate.
Qed.

Lemma report_gh n A C : Gh n A C ->
  Gh (fst (nstep n Report)) A (fun p => C p + b2z (named (snd (nstep n Report)) p)).
Proof.
  intros HG. pose proof (report_named n A C HG) as RN.
  remember (snd (nstep n Report)) as out eqn:Eo. clear Eo.
  cbn [nstep]. destruct (active n) as [[s e]|] eqn:EA.
  - pose proof (nack_reports_spec n s e (proj1 HG) EA) as HS.
    destruct (nack_reports n) as [n' l]. destruct HS as (HA & HB & _). cbn [fst].
    destruct HG as [HI HG']. pose proof (conj HI HG') as HG. change (Gh n A C) in HG.
    pose proof HI as HI0. unfold Inv in HI. rewrite EA in *. destruct HI as (H1 & H2 & H3 & H4 & H5).
    destruct HG' as (G0 & G1 & G2 & G3 & G4 & G5).
    assert (forall p, s <= p <= e -> received (packet (packets n') p) = received (packet (packets n) p)) as HR.
    { intros p Hp. rewrite (proj1 HB) by lia. destruct (needs (packets n) p); reflexivity. }
    split.
    + unfold Inv. rewrite HA.
      split; [lia|]. split; [lia|]. split; [rewrite HR by lia; exact H3|].
      split; [intro; rewrite HR by lia; auto|].
      intros i Hi. rewrite (proj2 HB); [apply H5; exact Hi|]. intros; apply Hi; lia.
    + rewrite HA. split; [exact G0|]. split; [exact G1|].
      split; [intros p Hp; rewrite HR by lia; auto|].
      split; [|split].
      * intros p Hp. rewrite (proj1 HB) by lia. specialize (RN p).
        pose proof (needs_gh n A C s e p HG EA Hp) as NG. specialize (G3 p Hp).
        destruct (needs (packets n) p) eqn:EN.
        -- assert (named out p = true) as ->.
           { apply RN. exists s, e. destruct (proj1 NG eq_refl) as [N1 N2].
             split; [reflexivity|]. split; [|auto].
             destruct (Z.eq_dec p e) as [->|]; [tauto|lia]. }
           cbn. lia.
        -- assert (named out p = false) as ->.
           { destruct (named out p) eqn:X; [|reflexivity]. exfalso.
             destruct (proj1 RN eq_refl) as (s0 & e0 & E & _ & N). inversion E; subst.
             apply NG in N. discriminate. }
           cbn. lia.
      * intros p Hp. rewrite G4 by assumption. destruct (named out p) eqn:X; [|reflexivity]. exfalso.
        destruct (proj1 (RN p) X) as (s0 & e0 & E & N1 & N). inversion E; subst. lia.
      * intros p. specialize (G5 p). destruct (named out p) eqn:X; [|cbn; lia].
        destruct (proj1 (RN p) X) as (s0 & e0 & E & N1 & N). cbn; lia.
  - rewrite nack_reports_none by assumption. cbn [fst].
    eapply gh_ext; [intro; reflexivity| |exact HG]. intro p.
    destruct (named out p) eqn:X; [|cbn; lia].
    destruct (proj1 (RN p) X) as (s0 & e0 & E & N1 & N). discriminate.
Qed.

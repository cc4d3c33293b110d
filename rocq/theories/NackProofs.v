From Verif Require Import Base BaseFacts SeqModel SeqProofs NackModel.

Lemma mod_ne p q : 0 < Z.abs (p - q) <= 100 -> p mod BUFFER_SIZE <> q mod BUFFER_SIZE.
Proof. unfold BUFFER_SIZE, MAX_MISORDER. intros. dlia. Qed.

Lemma packet_same r p s : packet (set_packet r p s) p = s.
Proof. unfold packet, set_packet. rewrite Z.eqb_refl. reflexivity. Qed.
Lemma packet_other r p q s : 0 < Z.abs (p - q) <= 100 -> packet (set_packet r p s) q = packet r q.
Proof.
  intro H. unfold packet, set_packet. pose proof (mod_ne p q H).
  destruct (q mod BUFFER_SIZE =? p mod BUFFER_SIZE) eqn:E; [lia|reflexivity].
Qed.

Lemma scan_spec r q n : forall a,
  let t := scan r q a n in
  a <= t <= a + Z.of_nat n /\
  (forall p, a <= p < t -> received (packet r p) = true \/ p = q) /\
  (t < a + Z.of_nat n -> received (packet r t) = false /\ t <> q).
Proof.
  induction n as [|n IH]; intros a; cbn [scan].
  - repeat split; lia.
  - destruct (negb (received (packet r a)) && negb (a =? q)) eqn:E.
    + apply andb_true_iff in E as [E1 E2]. repeat split; try lia.
    + destruct (IH (a + 1)) as (H1 & H2 & H3). split; [lia|]. split.
      * intros p Hp. destruct (Z.eq_dec p a) as [->|]; [|apply H2; lia].
        destruct (received (packet r a)); [left; reflexivity|right; cbn in E; lia].
      * intro; apply H3; lia.
Qed.

Lemma reset_loop_spec n : forall r s i,
  (exists k, 0 <= k < Z.of_nat n /\ (s + k) mod BUFFER_SIZE = i) /\ reset_loop r s n i = default_slot \/
  ~ (exists k, 0 <= k < Z.of_nat n /\ (s + k) mod BUFFER_SIZE = i) /\ reset_loop r s n i = r i.
Proof.
  induction n as [|n IH]; intros r s i; cbn [reset_loop].
  - right. split; [|reflexivity]. intros (k & Hk & _). lia.
  - destruct (IH (set_packet r s default_slot) (s + 1) i) as [[(k & Hk & Hi) E]|[N E]].
    + left. split; [|exact E]. exists (k + 1). split; [lia|]. rewrite <- Hi. f_equal; lia.
    + rewrite E. unfold set_packet. destruct (i =? s mod BUFFER_SIZE) eqn:Q.
      * left. split; [|reflexivity]. exists 0. rewrite Z.add_0_r. split; lia.
      * right. split; [|reflexivity]. intros (k & Hk & Hi). destruct (Z.eq_dec k 0) as [->|].
        -- rewrite Z.add_0_r in Hi. lia.
        -- apply N. exists (k - 1). split; [lia|]. rewrite <- Hi. f_equal; lia.
Qed.

(** State invariant. *)
Definition outside_default (r : ring) (s e : Z) : Prop :=
  forall i, (forall p, s <= p <= e -> p mod BUFFER_SIZE <> i) -> r i = default_slot.

Definition Inv (n : nreg) : Prop :=
  match active n with
  | None => forall i, packets n i = default_slot
  | Some (s, e) =>
      0 <= s <= e /\ e <= s + 100 /\ received (packet (packets n) e) = true /\
      (s < e -> received (packet (packets n) s) = false) /\
      outside_default (packets n) s e
  end.

(** Ghost history: [A q] = q was fed (or given as start), [C p] = times requested. *)
Definition Gh (n : nreg) (A : Z -> Prop) (C : Z -> Z) : Prop :=
  Inv n /\
  match active n with
  | None => (forall q, ~ A q) /\ (forall p, C p = 0)
  | Some (s, e) =>
      A e /\
      (forall q, A q -> q <= e) /\
      (forall p, s <= p <= e -> (received (packet (packets n) p) = true <-> A p)) /\
      (forall p, s <= p <= e -> C p = nack_count (packet (packets n) p)) /\
      (forall p, e < p -> C p = 0) /\
      (forall p, 0 <= C p <= MAX_NACKS)
  end.

Lemma packet_outside r s e p : outside_default r s e ->
  (forall q, s <= q <= e -> p mod BUFFER_SIZE <> q mod BUFFER_SIZE) -> packet r p = default_slot.
Proof. intros H N. unfold packet. apply H. intros q Hq Hm. apply (N q Hq). auto. Qed.

Lemma init_inv r q : 0 <= q -> (forall i, r i = default_slot) -> Inv (init_with_seq r q).
Proof.
  intros Hq H. unfold Inv, init_with_seq; cbn [active packets].
  repeat split; try lia.
  - rewrite packet_same. reflexivity.
  - intros i Hi. unfold set_packet. specialize (Hi q). destruct (i =? q mod BUFFER_SIZE) eqn:E.
    + exfalso; apply Hi; lia.
    + apply H.
Qed.

Lemma init_gh r q : 0 <= q -> (forall i, r i = default_slot) ->
  Gh (init_with_seq r q) (fun x => x = q) (fun _ => 0).
Proof.
  intros Hq H. split; [apply init_inv; assumption|].
  unfold init_with_seq; cbn [active packets]. repeat split; try lia; intros.
  - replace p with q by lia. rewrite packet_same. reflexivity.
  - replace p with q by lia. rewrite packet_same. unfold packet. rewrite H. reflexivity.
  - unfold MAX_NACKS; lia.
Qed.

Lemma new_gh o : (forall q, o = Some q -> 0 <= q) ->
  Gh (new_reg o) (fun x => Some x = o) (fun _ => 0).
Proof.
  intros H. destruct o as [q|]; cbn [new_reg].
  - destruct (init_gh (fun _ => default_slot) q) as [HI HG]; [auto|auto|].
    split; [exact HI|]. unfold init_with_seq in *; cbn [active packets] in *.
    destruct HG as (a & b & c & d & e & f). split; [reflexivity|].
    split; [intros x Hx; inversion Hx; lia|].
    split; [intros p Hp; rewrite c by assumption; split; congruence|]. auto.
  - split; [unfold Inv; cbn; reflexivity|]. cbn. split; [discriminate|reflexivity].
Qed.

Ltac llia := repeat match goal with x := _ |- _ => clearbody x end; lia.
Section Update.
  Variables (n : nreg) (s e q : Z).
  Hypothesis (HA : active n = Some (s, e)) (HI : Inv n) (Hq : s <= q).
  Let r := packets n.
  Let e' := Z.max e q.
  Let a := Z.max s (Z.max 0 (e' - MAX_MISORDER)).
  Let t := scan r q a (Z.to_nat (e' - a)).
  Let r1 := reset_loop r s (Z.to_nat (Z.min (t - s) (BUFFER_SIZE + 2))).
  Let r2 := if (t <=? q) && (q <=? e') then set_packet r1 q (mark_received (packet r1 q)) else r1.

  Lemma update_unfold : update n q =
    (mkNreg r2 (Some (t, e')), negb (received (packet r q)) || (e <? q)).
  Proof.
    unfold update. rewrite HA. destruct (q <? s) eqn:E; [lia|]. reflexivity.
  Qed.

  Lemma up_facts : 0 <= s <= e /\ e <= s + 100 /\ received (packet r e) = true /\
      (s < e -> received (packet r s) = false) /\ outside_default r s e.
  Proof. unfold Inv in HI. rewrite HA in HI. exact HI. Qed.

  Lemma up_t : a <= t <= e' /\ s <= t /\ e' <= t + 100 /\
     (forall p, a <= p < t -> received (packet r p) = true \/ p = q) /\
     (t < e' -> received (packet r t) = false /\ t <> q).
  Proof.
    pose proof up_facts as (F1 & F2 & _).
    destruct (scan_spec r q (Z.to_nat (e' - a)) a) as (S1 & S2 & S3). fold t in S1, S2, S3.
    assert (a <= e') by (subst a e'; unfold MAX_MISORDER; lia).
    split; [lia|]. split; [subst a; lia|]. split; [subst a; unfold MAX_MISORDER in *; lia|].
    split; [exact S2|]. intro; apply S3. lia.
  Qed.

  Lemma up_r1_live p : t <= p <= e -> packet r1 p = packet r p.
  Proof.
    pose proof up_facts as (F1 & F2 & F3 & F4 & F5). pose proof up_t as (T1 & T2 & T3 & T4 & T5).
    intros Hp. unfold packet, r1.
    destruct (reset_loop_spec (Z.to_nat (Z.min (t - s) (BUFFER_SIZE + 2))) r s (p mod BUFFER_SIZE))
      as [[(k & Hk & Hm) _]|[_ E]]; [|exact E].
    exfalso. apply (mod_ne (s + k) p); [|exact Hm].
    assert (s + k < t) by (clear -Hk; lia). clear -F1 F2 Hp Hk H; llia.
  Qed.

  Lemma up_r1_dead i : (forall p, t <= p <= e -> p mod BUFFER_SIZE <> i) -> r1 i = default_slot.
  Proof.
    pose proof up_facts as (F1 & F2 & F3 & F4 & F5). pose proof up_t as (T1 & T2 & T3 & T4 & T5).
    intros Hi. unfold r1.
    destruct (reset_loop_spec (Z.to_nat (Z.min (t - s) (BUFFER_SIZE + 2))) r s i)
      as [[_ E]|[N E]]; [exact E|].
    rewrite E. apply F5. intros p Hp Hm.
    destruct (Z.lt_ge_cases p t) as [L|G]; [|apply (Hi p); [llia|exact Hm]].
    apply N. exists (p - s). split; [clear -F2 Hp L; unfold BUFFER_SIZE, MAX_MISORDER; llia|]. rewrite <- Hm. f_equal; llia.
  Qed.

  Lemma up_r1_new p : e < p <= e' -> t <= p -> packet r1 p = default_slot.
  Proof.
    pose proof up_facts as (F1 & F2 & F3 & F4 & F5). pose proof up_t as (T1 & T2 & T3 & T4 & T5).
    intros Hp Ht. unfold packet. apply up_r1_dead. intros x Hx. apply mod_ne. llia.
  Qed.

  Lemma up_r2 p : t <= p <= e' ->
    packet r2 p = if p =? q then mark_received (packet r1 p) else packet r1 p.
  Proof.
    pose proof up_t as (T1 & T2 & T3 & T4 & T5). intros Hp. unfold r2.
    assert (q <= e') by (unfold e'; lia).
    destruct ((t <=? q) && (q <=? e')) eqn:E.
    - destruct (p =? q) eqn:Q.
      + replace p with q by llia. apply packet_same.
      + apply packet_other. llia.
    - destruct (p =? q) eqn:Q; [llia|reflexivity].
  Qed.

  Lemma update_inv' : Inv (fst (update n q)).
  Proof.
    pose proof up_facts as (F1 & F2 & F3 & F4 & F5). pose proof up_t as (T1 & T2 & T3 & T4 & T5).
    rewrite update_unfold. unfold Inv; cbn [fst active packets].
    assert (q <= e' /\ e <= e') as [Hqe Hee] by (unfold e'; lia).
    split; [llia|]. split; [llia|]. split; [|split].
    - rewrite up_r2 by llia. destruct (e' =? q) eqn:Q; [reflexivity|].
      assert (e' = e) as Ee by (unfold e'; lia). rewrite Ee in *. rewrite up_r1_live by llia. exact F3.
    - intro L. specialize (T5 L) as [T5 T6]. rewrite up_r2 by llia. destruct (t =? q) eqn:Q; [llia|].
      destruct (Z.le_gt_cases t e) as [G|G].
      + rewrite up_r1_live by llia. exact T5.
      + rewrite up_r1_new by llia. reflexivity.
    - intros i Hi. assert (r1 i = default_slot) as D.
      { apply up_r1_dead. intros p Hp. apply Hi. llia. }
      unfold r2. destruct ((t <=? q) && (q <=? e')) eqn:E; [|exact D].
      unfold set_packet. destruct (i =? q mod BUFFER_SIZE) eqn:Q; [|exact D].
      exfalso. apply (Hi q); llia.
  Qed.

  Lemma update_gh' A C : Gh n A C -> Gh (fst (update n q)) (fun x => A x \/ x = q) C.
  Proof.
    intros [_ HG]. split; [apply update_inv'|].
    pose proof up_facts as (F1 & F2 & F3 & F4 & F5). pose proof up_t as (T1 & T2 & T3 & T4 & T5).
    rewrite HA in HG. destruct HG as (G0 & G1 & G2 & G3 & G4 & G5). fold r in G2, G3.
    rewrite update_unfold. cbn [fst active packets].
    assert (q <= e' /\ e <= e') as [Hqe Hee] by (unfold e'; lia).
    split; [|split; [|split; [|split; [|split]]]].
    - unfold e'. destruct (Z.max_spec e q) as [[_ ->]|[_ ->]]; auto.
    - intros x [Hx|Hx]; [specialize (G1 x Hx)|]; llia.
    - intros p Hp. rewrite up_r2 by llia. destruct (p =? q) eqn:Q.
      + cbn. split; [right; llia|reflexivity].
      + destruct (Z.le_gt_cases p e) as [G|G].
        * rewrite up_r1_live by llia. rewrite (G2 p) by llia. split; [auto|intros [?|?]; [assumption|llia]].
        * rewrite up_r1_new by llia. cbn. split; [discriminate|]. intros [Hx|Hx]; [|llia].
          specialize (G1 p Hx); llia.
    - intros p Hp. rewrite up_r2 by llia.
      assert (C p = nack_count (packet r1 p)) as HC.
      { destruct (Z.le_gt_cases p e) as [G|G].
        * rewrite up_r1_live by llia. apply G3; llia.
        * rewrite up_r1_new by llia. cbn. apply G4; llia. }
      destruct (p =? q) eqn:Q; exact HC.
    - intros p Hp. apply G4; llia.
    - exact G5.
  Qed.

  (** positions skipped by the window start were all received, if the jump is small *)
  Lemma up_skip A C : Gh n A C -> q <= e + 101 -> forall p, a <= p < t -> A p \/ p = q.
  Proof.
    intros [_ HG] J p Hp.
    pose proof up_facts as (F1 & F2 & F3 & F4 & F5). pose proof up_t as (T1 & T2 & T3 & T4 & T5).
    rewrite HA in HG. destruct HG as (G0 & G1 & G2 & G3 & G4 & G5). fold r in G2, G3.
    destruct (T4 p Hp) as [R|R]; [|right; exact R].
    destruct (Z.le_gt_cases p e) as [G|G]; [left; apply G2; [assert (s <= a) by (unfold a; lia); llia|exact R]|].
    exfalso.
    assert (a <= e + 1) as Ha by (unfold a, e', MAX_MISORDER; lia).
    destruct (T4 (e + 1)) as [R1|R1]; [llia| |].
    - destruct (Z.eq_dec (e - 100) s) as [Es|Es].
      + assert (packet r (e + 1) = packet r s) as Ep.
        { unfold packet. f_equal. unfold BUFFER_SIZE, MAX_MISORDER. clear -Es. rewrite <- Es. replace (e + 1) with (e - 100 + 1 * (100 + 1)) by ring. apply Z.mod_add. discriminate. }
        rewrite Ep, F4 in R1 by llia. discriminate.
      + rewrite (packet_outside r s e) in R1; [discriminate|exact F5|].
        intros x Hx. apply mod_ne. llia.
    - assert (e' = e + 1) by (unfold e'; lia). llia.
  Qed.
End Update.

Lemma update_inv n q : 0 <= q -> Inv n -> Inv (fst (update n q)).
Proof.
  intros Hq HI. destruct (active n) as [[s e]|] eqn:EA.
  - destruct (Z.lt_ge_cases q s) as [L|G].
    + unfold update. rewrite EA. destruct (q <? s) eqn:E; [exact HI|lia].
    + eapply update_inv'; eauto.
  - unfold update. rewrite EA. cbn. apply init_inv; auto. unfold Inv in HI; rewrite EA in HI; auto.
Qed.

Lemma gh_ext n A B C D : (forall x, A x <-> B x) -> (forall p, C p = D p) -> Gh n A C -> Gh n B D.
Proof.
  intros HAB HCD [HI HG]. split; [exact HI|]. destruct (active n) as [[s e]|].
  - destruct HG as (G0 & G1 & G2 & G3 & G4 & G5).
    split; [apply HAB; assumption|].
    split; [intros; apply G1; apply HAB; assumption|].
    split; [intros; rewrite G2 by assumption; apply HAB|].
    split; [intros; rewrite <- HCD; auto|]. split; intros; rewrite <- HCD; auto.
  - destruct HG as (G0 & G1). split; intros; [rewrite <- HAB|rewrite <- HCD]; auto.
Qed.

Lemma update_none n q : active n = None -> update n q = (init_with_seq (packets n) q, true).
Proof. intro H. unfold update. rewrite H. reflexivity. Qed.
Lemma update_old n q s e : active n = Some (s, e) -> q < s -> update n q = (n, false).
Proof. intros H L. unfold update. rewrite H. destruct (q <? s) eqn:E; [reflexivity|lia]. Qed.

Lemma update_result n A C q : Gh n A C ->
  snd (update n q) = accepts n q.
Proof.
  intros _. unfold update, accepts. destruct (active n) as [[s e]|]; [|reflexivity].
  destruct (q <? s); reflexivity.
Qed.

Lemma update_gh n A C q : 0 <= q -> Gh n A C ->
  Gh (fst (update n q)) (fun x => A x \/ x = q) C.
Proof.
  intros Hq HG. destruct (active n) as [[s e]|] eqn:EA.
  - destruct (Z.lt_ge_cases q s) as [L|G].
    + rewrite (update_old n q s e EA L). cbn [fst].
      destruct HG as [HI HG]. split; [exact HI|]. unfold Inv in HI. rewrite EA in *.
      destruct HG as (G0 & G1 & G2 & G3 & G4 & G5).
      split; [auto|]. split; [intros x [Hx|Hx]; [auto|lia]|].
      split; [|auto]. intros p Hp. rewrite G2 by assumption. split; [auto|].
      intros [?|?]; [assumption|lia].
    + eapply update_gh'; eauto. exact (proj1 HG).
  - rewrite update_none by assumption. cbn [fst].
    destruct HG as [HI HG]. rewrite EA in HG. destruct HG as [G1 G2].
    unfold Inv in HI; rewrite EA in HI.
    eapply gh_ext; [| |apply init_gh; [exact Hq|exact HI]].
    + intro x; cbn. split; [auto|].
      intros [H|H]; [exfalso; apply (G1 x H)|exact H].
    + intro p. rewrite G2. reflexivity.
Qed.

(** accepts in terms of the ghost history *)
Lemma accepts_gh n A C q s e : Gh n A C -> active n = Some (s, e) ->
  (accepts n q = true <-> s <= q /\ ~ A q).
Proof.
  intros [HI HG] EA. unfold accepts. rewrite EA in *.
  destruct HG as (G0 & G1 & G2 & _).
  destruct (q <? s) eqn:E; [split; [discriminate|lia]|].
  destruct (e <? q) eqn:E2.
  - rewrite orb_true_r. split; [|reflexivity]. intros _. split; [lia|]. intro Ha. specialize (G1 q Ha). lia.
  - rewrite orb_false_r. specialize (G2 q ltac:(lia)).
    destruct (received (packet (packets n) q)); cbn.
    + split; [discriminate|]. intros [_ N]. exfalso. apply N, G2. reflexivity.
    + split; [|reflexivity]. intros _. split; [lia|]. intro Ha. apply G2 in Ha. discriminate.
Qed.

From Verif Require Import Base BaseFacts EvictModel.

Section P.
Context {T : Type}.
Notation slots := (list (option (entry T))).

Definition has (b : slots) (en : entry T) : Prop := exists i, nth_error b i = Some (Some en).
Definition wf (b : slots) : Prop := forall i en, nth_error b i = Some (Some en) -> i = index_for b (position en).

Lemma index_lt (b : slots) p : 0 < zlen b -> (index_for b p < length b)%nat.
Proof. intro H. unfold index_for. pose proof (Z.mod_pos_bound p (zlen b) H). unfold zlen in *. lia. Qed.

Lemma index_eq (b : slots) p q : 0 < zlen b -> (index_for b p = index_for b q <-> p mod zlen b = q mod zlen b).
Proof.
  intro H. unfold index_for. pose proof (Z.mod_pos_bound p (zlen b) H). pose proof (Z.mod_pos_bound q (zlen b) H).
  lia.
Qed.

Lemma index_len (b c : slots) p : length b = length c -> index_for b p = index_for c p.
Proof. intro H. unfold index_for, zlen. rewrite H. reflexivity. Qed.

Lemma slot_at_Some (b : slots) p en : slot_at b p = Some en <-> nth_error b (index_for b p) = Some (Some en).
Proof. unfold slot_at. destruct (nth_error b (index_for b p)) as [x|]; split; congruence. Qed.

Lemma wf_slot (b : slots) p en : wf b -> 0 < zlen b -> slot_at b p = Some en -> position en mod zlen b = p mod zlen b.
Proof.
  intros W L H. apply slot_at_Some in H. apply W in H. apply index_eq in H; auto.
Qed.

Lemma slot_has (b : slots) p en : slot_at b p = Some en -> has b en.
Proof. intro H. apply slot_at_Some in H. eexists; exact H. Qed.

Lemma has_slot (b : slots) en : wf b -> has b en -> slot_at b (position en) = Some en.
Proof. intros W [i H]. pose proof (W _ _ H) as E. apply slot_at_Some. rewrite <- E. exact H. Qed.

Lemma wf_nones n : wf (rep None n).
Proof.
  intros i en H. unfold rep in H. apply nth_error_In in H. apply repeat_spec in H. discriminate.
Qed.
Lemma has_nones n en : ~ has (rep None n) en.
Proof. intros [i H]. unfold rep in H. apply nth_error_In in H. apply repeat_spec in H. discriminate. Qed.

Lemma zlen_lset (b : slots) i x : zlen (lset b i x) = zlen b.
Proof. unfold zlen. rewrite lset_length. reflexivity. Qed.

Lemma index_lset (b : slots) i x p : index_for (lset b i x) p = index_for b p.
Proof. apply index_len. apply lset_length. Qed.

Lemma has_lset (b : slots) i x en : has (lset b i x) en <->
  (x = Some en /\ (i < length b)%nat) \/ exists j, j <> i /\ nth_error b j = Some (Some en).
Proof.
  split.
  - intros [j H]. destruct (Nat.eq_dec i j) as [->|N].
    + destruct (Nat.lt_ge_cases j (length b)) as [L|G].
      * rewrite lset_nth_eq in H by assumption. left. split; [congruence|assumption].
      * assert (nth_error (lset b j x) j = None) by (apply nth_error_None; rewrite lset_length; assumption). congruence.
    + rewrite lset_nth_ne in H by assumption. right. exists j. auto.
  - intros [[-> L]|(j & N & H)].
    + exists i. apply lset_nth_eq; assumption.
    + exists j. rewrite lset_nth_ne by congruence. exact H.
Qed.

Lemma wf_lset (b : slots) en : wf b -> wf (lset b (index_for b (position en)) (Some en)).
Proof.
  intros W i x H. rewrite index_lset. destruct (Nat.eq_dec (index_for b (position en)) i) as [<-|N].
  - destruct (Nat.lt_ge_cases (index_for b (position en)) (length b)) as [L|G].
    + rewrite lset_nth_eq in H by assumption. congruence.
    + assert (nth_error (lset b (index_for b (position en)) (Some en)) (index_for b (position en)) = None)
        by (apply nth_error_None; rewrite lset_length; assumption). congruence.
  - rewrite lset_nth_ne in H by assumption. auto.
Qed.
Lemma wf_lset_none (b : slots) i : wf b -> wf (lset b i None).
Proof.
  intros W j x H. rewrite index_lset. destruct (Nat.eq_dec i j) as [<-|N].
  - destruct (Nat.lt_ge_cases i (length b)) as [L|G].
    + rewrite lset_nth_eq in H by assumption. discriminate.
    + assert (nth_error (lset b i None) i = None) by (apply nth_error_None; rewrite lset_length; assumption). congruence.
  - rewrite lset_nth_ne in H by assumption. auto.
Qed.

Lemma slot_lset_same (b : slots) p x : 0 < zlen b -> slot_at (lset b (index_for b p) x) p = x.
Proof.
  intro L. unfold slot_at. rewrite index_lset, lset_nth_eq by (apply index_lt; assumption). reflexivity.
Qed.
Lemma slot_lset_other (b : slots) p q x : 0 < zlen b -> p mod zlen b <> q mod zlen b ->
  slot_at (lset b (index_for b p) x) q = slot_at b q.
Proof.
  intros L N. unfold slot_at. rewrite index_lset, lset_nth_ne; [reflexivity|].
  intro E. apply index_eq in E; auto.
Qed.

(** grow *)
Lemma reinsert_len (b : slots) x : zlen (reinsert b x) = zlen b.
Proof. destruct x; cbn; [apply zlen_lset|reflexivity]. Qed.
Lemma reinsert_fold_len l : forall b : slots, zlen (fold_left reinsert l b) = zlen b.
Proof. induction l as [|x l IH]; intros b; cbn [fold_left]; [reflexivity|]. rewrite IH. apply reinsert_len. Qed.
Lemma reinsert_fold_wf l : forall b : slots, wf b -> wf (fold_left reinsert l b).
Proof.
  induction l as [|x l IH]; intros b W; cbn [fold_left]; [exact W|]. apply IH.
  destruct x; cbn; [apply wf_lset; exact W|exact W].
Qed.
Lemma reinsert_fold_has l : forall (b : slots) en, has (fold_left reinsert l b) en -> has b en \/ In (Some en) l.
Proof.
  induction l as [|x l IH]; intros b en H; cbn [fold_left] in H; [auto|].
  apply IH in H as [H|H]; [|right; right; exact H].
  destruct x as [e|]; cbn in H; [|auto].
  apply has_lset in H as [[E _]|(j & _ & H)]; [right; left; congruence|left; exists j; exact H].
Qed.

(** no collision: all survive *)
Lemma reinsert_fold_keeps l : forall b : slots, 0 < zlen b -> wf b ->
  (forall e1 e2, In (Some e1) l -> In (Some e2) l -> position e1 mod zlen b = position e2 mod zlen b -> e1 = e2) ->
  (forall e1 e2, has b e1 -> In (Some e2) l -> position e1 mod zlen b = position e2 mod zlen b -> e1 = e2) ->
  forall en, (has b en \/ In (Some en) l) -> has (fold_left reinsert l b) en.
Proof.
  induction l as [|x l IH]; intros b L W H1 H2 en H; cbn [fold_left].
  - destruct H as [H|[]]; exact H.
  - assert (L' : 0 < zlen (reinsert b x)) by (rewrite reinsert_len; exact L).
    apply IH; [exact L'| | | |].
    + destruct x; cbn; [apply wf_lset; exact W|exact W].
    + rewrite reinsert_len. intros; apply H1; auto; right; assumption.
    + rewrite reinsert_len. intros e1 e2 E1 E2 E. destruct x as [e|]; cbn in E1.
      * apply has_lset in E1 as [[E1 _]|(j & _ & E1)].
        -- injection E1 as ->. apply H1; [left; reflexivity|right; assumption|assumption].
        -- apply H2; [exists j; exact E1|right; assumption|assumption].
      * apply H2; [assumption|right; assumption|assumption].
    + destruct H as [H|[H|H]].
      * left. destruct x as [e|]; cbn; [|exact H].
        destruct H as [i Hi]. pose proof (W _ _ Hi) as Ei.
        destruct (Nat.eq_dec i (index_for b (position e))) as [Eq|Ne].
        -- assert (en = e) as ->.
           { apply H2; [exists i; exact Hi|left; reflexivity|]. apply index_eq; [exact L|]. congruence. }
           apply has_lset. left. split; [reflexivity|apply index_lt; exact L].
        -- apply has_lset. right. exists i. auto.
      * subst x. left. cbn. apply has_lset. left. split; [reflexivity|apply index_lt; exact L].
      * right; exact H.
Qed.

Lemma new_len_pos len max : 0 <= len -> len < new_len len max.
Proof. unfold new_len. lia. Qed.
Lemma new_len_le len max : len < max -> new_len len max <= max.
Proof. unfold new_len. lia. Qed.

Lemma grow_facts (b : slots) max : wf b -> 0 < zlen b ->
  wf (grow b max) /\ zlen b <= zlen (grow b max) <= Z.max (zlen b) max /\
  (forall en, has (grow b max) en -> has b en).
Proof.
  intros W L. unfold grow. destruct (max <=? zlen b) eqn:E; [split; [exact W|]; split; [lia|auto]|].
  split; [apply reinsert_fold_wf, wf_nones|].
  rewrite reinsert_fold_len, zlen_rep by (pose proof (new_len_pos (zlen b) max); lia).
  pose proof (new_len_pos (zlen b) max). pose proof (new_len_le (zlen b) max).
  split; [lia|]. intros en Hh. apply reinsert_fold_has in Hh as [H'|H']; [exfalso; eapply has_nones; eauto|].
  apply In_nth_error in H' as [i Hi]. exists i; exact Hi.
Qed.

(** evict loop *)
Lemma evict_loop_facts age now n : forall (b : slots) p, wf b -> 0 < zlen b ->
  let '(b', p') := evict_loop b age now p n in
  wf b' /\ zlen b' = zlen b /\ p <= p' <= p + Z.of_nat n /\
  (forall en, has b' en -> has b en) /\
  (forall en, has b en -> has b' en \/ age < Z.max 0 (now - timestamp en) /\
     exists q, p <= q < p' /\ q mod zlen b = position en mod zlen b) /\
  (forall q, p <= q < p' -> slot_at b' q = None) /\
  (p' < p + Z.of_nat n -> exists en, slot_at b' p' = Some en /\ Z.max 0 (now - timestamp en) <= age).
Proof.
  induction n as [|n IH]; intros b p W L; cbn [evict_loop].
  - split; [exact W|]. split; [reflexivity|]. split; [lia|]. split; [auto|]. split; [auto|]. split; [lia|lia].
  - destruct (slot_at b p) as [en|] eqn:E.
    + destruct (age <? Z.max 0 (now - timestamp en)) eqn:A.
      * specialize (IH (lset b (index_for b p) None) (p + 1) (wf_lset_none _ _ W) ltac:(rewrite zlen_lset; exact L)).
        destruct (evict_loop _ age now (p + 1) n) as [b' p'].
        destruct IH as (I1 & I2 & I3 & I4 & I5 & I6 & I7). rewrite zlen_lset in I2.
        split; [exact I1|]. split; [exact I2|]. split; [lia|].
        split.
        { intros x Hx. apply I4, has_lset in Hx as [[Hx _]|(j & _ & Hx)]; [discriminate|exists j; exact Hx]. }
        split.
        { intros x [j Hj]. destruct (Nat.eq_dec j (index_for b p)) as [->|N].
          - right. pose proof E as E'. apply slot_at_Some in E'. assert (x = en) by congruence. subst. split; [lia|].
            exists p. split; [lia|]. symmetry. apply (wf_slot b p en W L E).
          - rewrite zlen_lset in I5. destruct (I5 x) as [?|(? & q & Hq & Eq)].
            + apply has_lset. right. exists j; auto.
            + auto.
            + right. split; [assumption|]. exists q. split; [lia|exact Eq]. }
        split.
        { intros q Hq. destruct (Z.eq_dec q p) as [->|N]; [|apply I6; lia].
          destruct (slot_at b' p) as [x|] eqn:S; [|reflexivity]. exfalso.
          apply slot_at_Some in S. assert (has b' x) as Hx by (eexists; exact S).
          apply I4 in Hx. pose proof (I1 _ _ S) as E1.
          apply has_lset in Hx as [[Hx _]|(j & Nj & Hx)]; [discriminate|].
          pose proof (W _ _ Hx) as E2. rewrite (index_len b' b) in E1 by (unfold zlen in I2; lia).
          rewrite (index_len b' b) in E1 by (unfold zlen in I2; lia). congruence. }
        intro; apply I7; lia.
      * split; [exact W|]. split; [reflexivity|]. split; [lia|]. split; [auto|]. split; [auto|].
        split; [lia|]. intros _. exists en. split; [exact E|lia].
    + specialize (IH b (p + 1) W L). destruct (evict_loop b age now (p + 1) n) as [b' p'].
      destruct IH as (I1 & I2 & I3 & I4 & I5 & I6 & I7).
      split; [exact I1|]. split; [exact I2|]. split; [lia|]. split; [exact I4|].
      split.
      { intros x Hx. destruct (I5 x Hx) as [?|(? & q & Hq & Eq)]; [auto|].
        right. split; [assumption|]. exists q. split; [lia|exact Eq]. }
      split.
      { intros q Hq. destruct (Z.eq_dec q p) as [->|N]; [|apply I6; lia].
        destruct (slot_at b' p) as [x|] eqn:S; [|reflexivity]. exfalso.
        apply slot_at_Some in S. pose proof (I1 _ _ S) as E1.
        rewrite !(index_len b' b) in E1 by (unfold zlen in I2; lia).
        assert (has b' x) as Hx by (eexists; exact S). apply I4 in Hx as [j Hj].
        pose proof (W _ _ Hj) as E2. assert (slot_at b p = Some x) by (apply slot_at_Some; congruence). congruence. }
      intro; apply I7; lia.
Qed.

(** General invariant *)
Record EI (e : ebuf T) : Prop := {
  ei_wf : wf (buf e);
  ei_inert : is_inert e = true -> forall en, ~ has (buf e) en;
  ei_evict : forall en, has (buf e) en -> exists s, next_evict e = Some s /\ s <= position en }.

Lemma not_inert_len (e : ebuf T) : is_inert e = false -> 0 < zlen (buf e) /\ max_age e <> 0.
Proof. unfold is_inert. pose proof (zlen_nonneg (buf e)). lia. Qed.

Lemma ei_new i a m al : EI (enew i a m al).
Proof.
  constructor; cbn [buf enew].
  - apply wf_nones.
  - intros _ en. apply has_nones.
  - intros en H. exfalso. eapply has_nones; eauto.
Qed.

Lemma ei_clear (e : ebuf T) al : EI (eclear e al).
Proof.
  constructor; cbn [buf eclear].
  - apply wf_nones.
  - intros _ en. apply has_nones.
  - intros en H. exfalso. eapply has_nones; eauto.
Qed.

Definition push_buf (e : ebuf T) (p : Z) : slots :=
  match slot_at (buf e) p with
  | Some en => if negb (position en =? p) then grow (buf e) (max_size e) else buf e
  | None => buf e
  end.

Lemma push_buf_facts (e : ebuf T) p : wf (buf e) -> 0 < zlen (buf e) ->
  wf (push_buf e p) /\ zlen (buf e) <= zlen (push_buf e p) <= Z.max (zlen (buf e)) (max_size e) /\
  (forall en, has (push_buf e p) en -> has (buf e) en).
Proof.
  intros W L. unfold push_buf. destruct (slot_at (buf e) p) as [en|].
  - destruct (negb (position en =? p)); [apply grow_facts; assumption|split; [exact W|]; split; [lia|auto]].
  - split; [exact W|]; split; [lia|auto].
Qed.

Lemma epush_cases (e : ebuf T) p t v :
  (epush e p t v = e /\ (is_inert e = true \/ t < last_timeout e \/
      exists s, next_evict e = Some s /\ p < s)) \/
  (is_inert e = false /\ last_timeout e <= t /\ exists s, s <= p /\
   (next_evict e = Some s \/ next_evict e = None /\ s = p) /\
   epush e p t v = mkEbuf (lset (push_buf e p) (index_for (push_buf e p) p) (Some (mkEnt p t v)))
       (max_age e) (max_size e) (Some p) (Some s) (last_timeout e)).
Proof.
  unfold epush. destruct (is_inert e) eqn:I; [left; auto|].
  destruct (t <? last_timeout e) eqn:Tm; [left; split; [reflexivity|]; right; left; lia|].
  destruct (next_evict e) as [s|] eqn:N.
  - destruct (p <? s) eqn:P.
    + left. split; [reflexivity|]. right; right. exists s. split; [reflexivity|lia].
    + right. split; [reflexivity|]. split; [lia|]. exists s. split; [lia|]. split; [auto|reflexivity].
  - destruct (p <? p) eqn:P; [lia|].
    right. split; [reflexivity|]. split; [lia|]. exists p. split; [lia|]. split; [auto|reflexivity].
Qed.

Lemma ei_push (e : ebuf T) p t v : EI e -> EI (epush e p t v).
Proof.
  intros [W HI HE]. destruct (epush_cases e p t v) as [[-> _]|(I & Ht & s & Hs & Hn & ->)]; [constructor; auto|].
  destruct (not_inert_len e I) as [L A].
  destruct (push_buf_facts e p W L) as (G1 & G2 & G3).
  constructor; cbn [buf next_evict].
  - apply (wf_lset (push_buf e p) (mkEnt p t v)). exact G1.
  - unfold is_inert. cbn [buf max_age]. rewrite zlen_lset. lia.
  - intros en H. exists s. split; [reflexivity|].
    apply has_lset in H as [[H _]|(j & _ & H)]; [injection H as <-; exact Hs|].
    destruct (HE en (G3 en ltac:(exists j; exact H))) as (s' & E & Hle). destruct Hn as [Hn|[Hn _]]; [|congruence].
    assert (s = s') by congruence. lia.
Qed.

Lemma evict_cases (e : ebuf T) now :
  (maybe_evict e now = e /\ (is_inert e = true \/ now < last_timeout e)) \/
  (is_inert e = false /\ last_timeout e <= now /\
   ((next_evict e = None /\ maybe_evict e now = mkEbuf (buf e) (max_age e) (max_size e) (last_position e) None now) \/
    exists s b p, next_evict e = Some s /\ evict_loop (buf e) (max_age e) now s (length (buf e)) = (b, p) /\
      maybe_evict e now = mkEbuf b (max_age e) (max_size e) (last_position e) (Some p) now)).
Proof.
  unfold maybe_evict. destruct (is_inert e); [left; auto|].
  destruct (now <? last_timeout e) eqn:Tm; [left; split; [reflexivity|right; lia]|].
  right. split; [reflexivity|]. split; [lia|]. destruct (next_evict e) as [s|]; [|left; auto].
  right. destruct (evict_loop (buf e) (max_age e) now s (length (buf e))) as [b p] eqn:EL. exists s, b, p. auto.
Qed.

Lemma ei_evict_step (e : ebuf T) now : EI e -> EI (maybe_evict e now).
Proof.
  intros [W HI HE]. destruct (evict_cases e now) as [[-> _]|(I & Ht & [[Hn ->]|(s & b & p & Hn & EL & ->)])];
    [constructor; auto| |].
  - constructor; cbn [buf next_evict]; auto.
    intros en H. destruct (HE en H) as (s & E & _). congruence.
  - destruct (not_inert_len e I) as [L A].
    pose proof (evict_loop_facts (max_age e) now (length (buf e)) (buf e) s W L) as F. rewrite EL in F.
    destruct F as (F1 & F2 & F3 & F4 & F5 & F6 & F7).
    constructor; cbn [buf next_evict]; [exact F1| |].
    + unfold is_inert. cbn [buf max_age]. rewrite F2. lia.
    + intros en H. exists p. split; [reflexivity|].
      destruct (Z.lt_ge_cases (position en) p) as [Lt|]; [|assumption]. exfalso.
      destruct (HE en (F4 en H)) as (s' & E & Hle). assert (s' = s) by congruence. subst s'.
      specialize (F6 (position en) ltac:(lia)). rewrite (has_slot b en F1 H) in F6. discriminate.
Qed.

Lemma ei_step al e o : EI e -> EI (estep al e o).
Proof. intro H. destruct o; cbn [estep]; [apply ei_push|apply ei_evict_step|apply ei_clear]; exact H. Qed.

(** get through has *)
Lemma eget_has (e : ebuf T) p v : EI e -> eget e p = Some v -> exists en, has (buf e) en /\ position en = p /\ value en = v.
Proof.
  intros HE. unfold eget. destruct (is_inert e); [discriminate|].
  destruct (slot_at (buf e) p) as [en|] eqn:S; [|discriminate].
  destruct (position en =? p) eqn:P; [|discriminate]. intro E. exists en.
  split; [eapply slot_has; eauto|]. split; [lia|congruence].
Qed.
Lemma has_eget (e : ebuf T) en : EI e -> has (buf e) en -> eget e (position en) = Some (value en).
Proof.
  intros HE H. unfold eget. destruct (is_inert e) eqn:I; [exfalso; eapply ei_inert; eauto|].
  rewrite (has_slot _ _ (ei_wf e HE) H). rewrite Z.eqb_refl. reflexivity.
Qed.

(** specification: the last value pushed at [p] since the last clear *)
Fixpoint last_push (p : Z) (acc : option T) (ops : list (eop T)) : option T :=
  match ops with
  | [] => acc
  | EPush q _ v :: os => last_push p (if q =? p then Some v else acc) os
  | EEvict _ :: os => last_push p acc os
  | EClear :: os => last_push p None os
  end.
(** times never run backwards *)
Fixpoint times_ok (cur : Z) (ops : list (eop T)) : Prop :=
  match ops with
  | [] => True
  | EPush _ t _ :: os => cur <= t /\ times_ok t os
  | EEvict t :: os => cur <= t /\ times_ok t os
  | EClear :: os => times_ok cur os
  end.

Lemma get_last al ops : forall e cur acc, EI e -> al <= cur -> last_timeout e <= cur ->
  (forall en, has (buf e) en -> acc (position en) = Some (value en)) ->
  times_ok cur ops ->
  forall p v, eget (erun al e ops) p = Some v -> last_push p (acc p) ops = Some v.
Proof.
  induction ops as [|o ops IH]; intros e cur acc HE HA HL HH HT p v; unfold erun; cbn [fold_left].
  - cbn. intro G. apply eget_has in G as (en & H & <- & <-); auto.
  - intro G. change (eget (erun al (estep al e o) ops) p = Some v) in G.
    pose proof (ei_step al e o HE) as HE'.
    destruct o as [q t w|now|]; cbn [estep last_push times_ok] in *.
    + destruct HT as [HT1 HT2].
      refine (IH _ t (fun x => if q =? x then Some w else acc x) HE' ltac:(lia) _ _ HT2 p v G).
      * destruct (epush_cases e q t w) as [[-> _]|(I & Ht & s & Hs & Hn & ->)]; cbn; lia.
      * intros en H.
        destruct (epush_cases e q t w) as [[E R]|(I & Ht & s & Hs & Hn & E)]; rewrite E in H.
        -- destruct R as [R|[R|(s & R1 & R2)]].
           ++ exfalso. exact (ei_inert e HE R en H).
           ++ lia.
           ++ destruct (ei_evict e HE en H) as (s' & E1 & E2). assert (s' = s) by congruence.
              destruct (q =? position en) eqn:Q; [lia|]. apply HH; exact H.
        -- cbn [buf] in H. apply has_lset in H as [[H _]|(j & Nj & H)].
           ++ injection H as <-. cbn. rewrite Z.eqb_refl. reflexivity.
           ++ destruct (not_inert_len e I) as [L _].
              destruct (push_buf_facts e q (ei_wf e HE) L) as (G1 & G2 & G3).
              destruct (q =? position en) eqn:Q.
              ** exfalso. apply Nj. pose proof (G1 _ _ H) as X. rewrite X. f_equal. lia.
              ** apply HH. apply G3. exists j; exact H.
    + destruct HT as [HT1 HT2].
      refine (IH _ now acc HE' ltac:(lia) _ _ HT2 p v G).
      * destruct (evict_cases e now) as [[-> _]|(I & Ht & [[Hn ->]|(s & b & x & Hn & EL & ->)])]; cbn; lia.
      * intros en H. apply HH.
        destruct (evict_cases e now) as [[E _]|(I & Ht & [[Hn E]|(s & b & x & Hn & EL & E)])]; rewrite E in H; [exact H|exact H|].
        destruct (not_inert_len e I) as [L _].
        pose proof (evict_loop_facts (max_age e) now (length (buf e)) (buf e) s (ei_wf e HE) L) as F. rewrite EL in F.
        apply F. exact H.
    + refine (IH _ cur (fun _ => None) HE' HA _ _ HT p v G).
      * cbn. lia.
      * intros en H. exfalso. eapply has_nones; exact H.
Qed.

Lemma get_is_last_push i a m al cur ops p v : al <= cur -> times_ok cur ops ->
  eget (erun al (enew i a m al) ops) p = Some v -> last_push p None ops = Some v.
Proof.
  intros HA HT G.
  apply (get_last al ops (enew i a m al) cur (fun _ => None) (ei_new i a m al) HA HA); auto.
  intros en H. exfalso. eapply has_nones; exact H.
Qed.

(** size bound *)
Lemma erun_len al ops : forall e, EI e -> 0 <= zlen (buf (erun al e ops)) <= Z.max (zlen (buf e)) (max_size e).
Proof.
  assert (forall e o, EI e -> zlen (buf e) <= zlen (buf (estep al e o)) <= Z.max (zlen (buf e)) (max_size e) /\
     max_size (estep al e o) = max_size e) as S.
  { intros e o HE. destruct o as [q t w|now|]; cbn [estep].
    - destruct (epush_cases e q t w) as [[-> _]|(I & Ht & s & Hs & Hn & ->)]; [lia|]. cbn [buf max_size].
      rewrite zlen_lset. destruct (not_inert_len e I) as [L _].
      destruct (push_buf_facts e q (ei_wf e HE) L) as (G1 & G2 & G3). lia.
    - destruct (evict_cases e now) as [[-> _]|(I & Ht & [[Hn ->]|(s & b & x & Hn & EL & ->)])]; cbn [buf max_size]; try lia.
      destruct (not_inert_len e I) as [L _].
      pose proof (evict_loop_facts (max_age e) now (length (buf e)) (buf e) s (ei_wf e HE) L) as F. rewrite EL in F. lia.
    - cbn [buf max_size eclear]. pose proof (zlen_nonneg (buf e)). rewrite zlen_rep by lia. lia. }
  induction ops as [|o ops IH]; intros e HE; unfold erun; cbn [fold_left].
  - pose proof (zlen_nonneg (buf e)). lia.
  - destruct (S e o HE) as [S1 S2]. specialize (IH _ (ei_step al e o HE)). rewrite S2 in IH.
    unfold erun in IH. lia.
Qed.

(** how many values can be held *)
Lemma held_bound (e : ebuf T) (ps : list Z) : EI e -> NoDup ps -> (forall p, In p ps -> eget e p <> None) ->
  zlen ps <= zlen (buf e).
Proof.
  intros HE ND H. destruct (is_inert e) eqn:I.
  - destruct ps as [|p ps]; [pose proof (zlen_nonneg (buf e)); cbn; lia|].
    exfalso. apply (H p); [left; reflexivity|]. unfold eget. rewrite I. reflexivity.
  - destruct (not_inert_len e I) as [L _].
    assert (NoDup (map (index_for (buf e)) ps)) as ND2.
    { clear -ND H HE I L. induction ND as [|p ps Hn ND IH]; cbn; constructor.
      - intro X. apply in_map_iff in X as (q & Eq & Hq). apply Hn.
        assert (eget e p <> None) as Hp by (apply H; left; reflexivity).
        assert (eget e q <> None) as Hq2 by (apply H; right; assumption).
        unfold eget in Hp, Hq2. rewrite I in *. unfold slot_at in *. rewrite Eq in Hq2.
        destruct (nth_error (buf e) (index_for (buf e) p)) as [[en|]|]; try congruence.
        destruct (position en =? p) eqn:E1; [|congruence]. destruct (position en =? q) eqn:E2; [|congruence].
        assert (p = q) by lia. subst; assumption.
      - apply IH. intros; apply H; right; assumption. }
    assert (incl (map (index_for (buf e)) ps) (seq 0 (length (buf e)))) as INC.
    { intros x Hx. apply in_map_iff in Hx as (q & <- & _). apply in_seq. pose proof (index_lt (buf e) q L). lia. }
    pose proof (NoDup_incl_length ND2 INC) as X. rewrite map_length, seq_length in X. unfold zlen. lia.
Qed.
End P.

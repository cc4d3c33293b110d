(** Proofs about RtxCache: retention, expiry and lookup by size. *)
From Verif Require Import Base BaseFacts EvictModel EvictProofs.
Section R.
Context {BT : Type}.
Local Notation rpkt := (EvictModel.rpkt BT). Local Notation rtxcache := (EvictModel.rtxcache BT).

(** Sending a list of (packet, time) pairs one after the other. *)
Fixpoint send_all (c : rtxcache) (l : list (rpkt * Z)) : res rtxcache :=
  match l with
  | [] => Ok c
  | (pk, t) :: l' => do c' <- cache_sent c pk t; send_all c' l'
  end.

Lemma send_all_app l1 : forall c l2, send_all c (l1 ++ l2) = bind (send_all c l1) (fun c' => send_all c' l2).
Proof.
  induction l1 as [|[pk t] l1 IH]; intros c l2; cbn [send_all app bind]; [reflexivity|].
  destruct (cache_sent c pk t); cbn [bind]; auto.
Qed.

Definition consecutive (q0 : Z) (l : list (rpkt * Z)) : Prop :=
  forall i pk t, nth_error l i = Some (pk, t) -> pseq pk = q0 + Z.of_nat i.
Definition in_time (al : Z) (l : list (rpkt * Z)) : Prop :=
  (forall i pk t, nth_error l i = Some (pk, t) -> al <= t) /\
  (forall i j x t y u, nth_error l i = Some (x, t) -> nth_error l j = Some (y, u) -> (i <= j)%nat -> t <= u).

Lemma mod_window a b n : 0 < n -> a mod n = b mod n -> Z.abs (a - b) < n -> a = b.
Proof.
  intros H E D. pose proof (Z.div_mod a n). pose proof (Z.div_mod b n).
  assert (a - b = n * (a / n - b / n)) as X by lia. generalize dependent (a / n - b / n).
  intros d X. rewrite X in D. assert (d = 0) by (clear - D H; nia). lia.
Qed.

Section R.
Variables (maxc age al q0 : Z).
Hypothesis Hage : 0 < age.
Definition cap := Z.max 10 maxc.

Record RI (l : list (rpkt * Z)) (e : ebuf rpkt) : Prop := {
  ri_ei : EI e;
  ri_age : max_age e = age;
  ri_max : max_size e = maxc;
  ri_len : 10 <= zlen (buf e) <= cap;
  ri_lt : (l = [] /\ last_timeout e = al) \/ exists l0 pk, l = l0 ++ [(pk, last_timeout e)];
  ri_ne : (l = [] /\ next_evict e = None) \/ exists s, next_evict e = Some s /\ s < q0 + zlen l;
  ri_win : forall en, has (buf e) en -> q0 + zlen l - zlen (buf e) <= position en < q0 + zlen l /\
             exists i, nth_error l i = Some (value en, timestamp en) /\ position en = q0 + Z.of_nat i;
  ri_keep : forall i pk t, nth_error l i = Some (pk, t) -> zlen l - Z.of_nat i <= cap ->
     last_timeout e - t <= age -> has (buf e) (mkEnt (q0 + Z.of_nat i) t pk);
  (* as long as nothing had to be overwritten *)
  ri_all : zlen l <= cap -> forall s, next_evict e = Some s -> q0 <= s /\
     (forall i pk t, nth_error l i = Some (pk, t) -> s <= q0 + Z.of_nat i -> has (buf e) (mkEnt (q0 + Z.of_nat i) t pk)) /\
     (forall en, has (buf e) en -> last_timeout e - timestamp en <= age) }.

Lemma ri_new : RI [] (enew 10 age maxc al).
Proof.
  assert (zlen (buf (@enew rpkt 10 age maxc al)) = 10) as L by reflexivity.
  constructor; auto.
  - apply ei_new.
  - rewrite L. unfold cap. lia.
  - intros en H. exfalso. eapply has_nones; exact H.
  - intros i pk t H. destruct i; discriminate.
  - intros _ s H. discriminate.
Qed.

Lemma has_same_pos (b : list (option (entry rpkt))) e1 e2 : wf b -> has b e1 -> has b e2 ->
  position e1 = position e2 -> e1 = e2.
Proof.
  intros W H1 H2 E. apply has_slot in H1, H2; auto. rewrite E in H1. congruence.
Qed.

Lemma inert_no e l : RI l e -> is_inert e = false.
Proof.
  intros H. pose proof (ri_age _ _ H). pose proof (ri_len _ _ H). unfold is_inert.
  assert (zlen (buf e) =? 0 = false) as -> by lia. assert (max_age e =? 0 = false) as -> by lia. reflexivity.
Qed.

Lemma last_le l e t pk : RI l e -> in_time al (l ++ [(pk, t)]) -> last_timeout e <= t.
Proof.
  intros H [T1 T2]. destruct (ri_lt _ _ H) as [[-> ->]|(l0 & q & E)].
  - apply (T1 0%nat pk). reflexivity.
  - pose proof (f_equal (@length _) E) as EL. rewrite app_length in EL. cbn in EL.
    apply (T2 (length l0) (length l) q (last_timeout e) pk t).
    + rewrite E, <- app_assoc. rewrite nth_error_app2 by lia. rewrite Nat.sub_diag. reflexivity.
    + rewrite nth_error_app2 by lia. rewrite Nat.sub_diag. reflexivity.
    + lia.
Qed.

(** what push does to the slots *)
Lemma push_keeps l e : RI l e -> let hi := q0 + zlen l in
  let b := push_buf e hi in
  wf b /\ 10 <= zlen b <= cap /\ zlen (buf e) <= zlen b /\
  (forall en, has b en -> has (buf e) en) /\
  (forall en, has (buf e) en -> hi - cap < position en -> has b en /\ hi - zlen b < position en) /\
  (forall en, has b en -> hi - zlen b <= position en < hi /\ (position en = hi - zlen b -> zlen b = cap)).
Proof.
  intros H hi b. pose proof (ri_len _ _ H) as HL. pose proof (ei_wf _ (ri_ei _ _ H)) as W.
  assert (0 < zlen (buf e)) as L by lia.
  destruct (push_buf_facts e hi W L) as (F1 & F2 & F3). fold b in F1, F2, F3.
  rewrite (ri_max _ _ H) in F2.
  split; [exact F1|]. split; [unfold cap in *; lia|]. split; [lia|]. split; [exact F3|].
  assert (forall en, has (buf e) en -> hi - zlen (buf e) <= position en < hi) as HW.
  { intros en He. apply (ri_win _ _ H) in He. tauto. }
  unfold b, push_buf. clear b F1 F2 F3. destruct (slot_at (buf e) hi) as [en0|] eqn:S.
  - pose proof (slot_has _ _ _ S) as H0. pose proof (HW _ H0) as W0.
    pose proof (wf_slot _ _ _ W L S) as M0.
    assert (position en0 = hi - zlen (buf e)) as P0.
    { apply (mod_window _ _ (zlen (buf e))); [lia| |lia]. rewrite M0.
      replace (hi - zlen (buf e)) with (hi + (-1) * zlen (buf e)) by lia. rewrite Z.mod_add by lia. reflexivity. }
    assert (negb (position en0 =? hi) = true) as -> by (rewrite P0; lia).
    rewrite (ri_max _ _ H). unfold grow. destruct (maxc <=? zlen (buf e)) eqn:E.
    + assert (zlen (buf e) = cap) as EC by (unfold cap in *; lia).
      split; [intros en He Hp; split; [exact He|lia]|].
      intros en He. split; [apply HW; exact He|intro; exact EC].
    + set (nl := new_len (zlen (buf e)) maxc).
      assert (zlen (buf e) < nl) as N1 by (apply new_len_pos; lia).
      assert (zlen (fold_left reinsert (buf e) (rep None nl)) = nl) as ZL.
      { rewrite reinsert_fold_len. apply zlen_rep. lia. }
      assert (forall en, has (buf e) en -> has (fold_left reinsert (buf e) (rep None nl)) en) as K.
      { intros en He. apply reinsert_fold_keeps.
        - rewrite zlen_rep; lia.
        - apply wf_nones.
        - rewrite zlen_rep by lia. intros e1 e2 I1 I2 M.
          apply In_nth_error in I1 as [i1 I1], I2 as [i2 I2].
          assert (has (buf e) e1) as G1 by (exists i1; exact I1).
          assert (has (buf e) e2) as G2 by (exists i2; exact I2).
          apply (has_same_pos (buf e)); auto. apply (mod_window _ _ nl); [lia|exact M|].
          pose proof (HW _ G1). pose proof (HW _ G2). lia.
        - intros e1 e2 I1. exfalso. eapply has_nones; exact I1.
        - right. destruct He as [i Hi]. eapply nth_error_In; exact Hi. }
      rewrite ZL. split.
      * intros en He Hp. split; [apply K; exact He|]. pose proof (HW _ He). lia.
      * intros en He. apply reinsert_fold_has in He as [He|He]; [exfalso; eapply has_nones; exact He|].
        apply In_nth_error in He as [i He]. assert (has (buf e) en) as G by (exists i; exact He).
        pose proof (HW _ G). split; [lia|]. intro. exfalso. lia.
  - assert (forall en, has (buf e) en -> position en <> hi - zlen (buf e)) as NE.
    { intros en He E. apply has_slot in He; [|exact W]. unfold slot_at, index_for in *.
      rewrite E in He. replace (hi - zlen (buf e)) with (hi + (-1) * zlen (buf e)) in He by lia.
      rewrite Z.mod_add in He by lia. congruence. }
    split.
    + intros en He Hp. split; [exact He|]. pose proof (HW _ He). pose proof (NE _ He). lia.
    + intros en He. pose proof (HW _ He). pose proof (NE _ He). split; [lia|]. intro. exfalso. lia.
Qed.

Lemma ri_step l e pk t : RI l e -> in_time al (l ++ [(pk, t)]) ->
  RI (l ++ [(pk, t)]) (maybe_evict (epush e (q0 + zlen l) t pk) t).
Proof.
  intros H IT. pose proof (last_le _ _ _ _ H IT) as LT. pose proof (inert_no _ _ H) as IN.
  pose proof (push_keeps _ _ H) as PK. cbv zeta in PK. set (hi := q0 + zlen l) in *.
  destruct PK as (F1 & F2 & F3 & F4 & F5 & F6).
  assert (0 < zlen (push_buf e hi)) as L by lia.
  set (b := push_buf e hi) in *. set (b1 := lset b (index_for b hi) (Some (mkEnt hi t pk))).
  assert (exists s, s <= hi /\ (next_evict e = Some s \/ next_evict e = None /\ s = hi) /\
     epush e hi t pk = mkEbuf b1 age maxc (Some hi) (Some s) (last_timeout e)) as (s & Hs & Hn & EP).
  { destruct (epush_cases e hi t pk) as [[E C]|(_ & _ & s & Hs & Hn & E)].
    - exfalso. destruct C as [C|[C|(s & C & C')]]; [congruence|lia|].
      destruct (ri_ne _ _ H) as [[_ C2]|(s2 & C2 & C3)]; [congruence|]. assert (s = s2) by congruence. unfold hi in C'. lia.
    - exists s. split; [exact Hs|]. split; [exact Hn|]. rewrite E, (ri_age _ _ H), (ri_max _ _ H). reflexivity. }
  assert (wf b1) as W1 by (apply (wf_lset b (mkEnt hi t pk) F1)).
  assert (zlen b1 = zlen b) as L1 by apply zlen_lset.
  assert (forall en, has b1 en <-> en = mkEnt hi t pk \/ (has b en /\ hi - zlen b < position en)) as HB1.
  { intro en. unfold b1. rewrite has_lset. split.
    - intros [[E _]|(j & Nj & Hj)]; [left; congruence|]. right. split; [exists j; exact Hj|].
      destruct (F6 en) as [G _]; [exists j; exact Hj|]. pose proof (F1 _ _ Hj) as Ej.
      destruct (Z.eq_dec (position en) (hi - zlen b)) as [E|N]; [|lia]. exfalso. apply Nj. rewrite Ej.
      apply index_eq; [lia|]. rewrite E. replace (hi - zlen b) with (hi + (-1) * zlen b) by lia.
      apply Z.mod_add. lia.
    - intros [->|[[j Hj] G]]; [left; split; [reflexivity|apply index_lt; lia]|]. right. exists j. split; [|exact Hj].
      intro E. pose proof (F1 _ _ Hj) as Ej. rewrite Ej in E. apply index_eq in E; [|lia].
      destruct (F6 en) as [G2 _]; [exists j; exact Hj|].
      apply mod_window in E; lia. }
  pose proof (evict_loop_facts age t (length b1) b1 s W1 ltac:(lia)) as EF.
  rewrite EP. unfold maybe_evict. unfold is_inert. cbn [buf max_age max_size last_position next_evict last_timeout].
  assert (zlen b1 =? 0 = false) as -> by lia. assert (age =? 0 = false) as -> by lia. cbn [orb].
  assert (t <? last_timeout e = false) as -> by lia.
  destruct (evict_loop b1 age t s (length b1)) as [b2 p] eqn:EL.
  destruct EF as (E1 & E2 & E3 & E4 & E5 & E6 & E7).
  assert (has b1 (mkEnt hi t pk)) as NEW by (apply HB1; left; reflexivity).
  assert (has b2 (mkEnt hi t pk)) as NEW2.
  { destruct (E5 _ NEW) as [?|(C & _)]; [assumption|]. cbn [timestamp] in C. lia. }
  assert (p <= hi) as Ple.
  { destruct (Z_lt_le_dec hi p) as [C|?]; [|assumption]. exfalso.
    pose proof (E6 hi ltac:(lia)) as X. apply has_slot in NEW2; [|exact E1]. cbn [position] in NEW2. congruence. }
  assert (zlen (l ++ [(pk, t)]) = zlen l + 1) as ZL by (rewrite zlen_app; reflexivity).
  assert (forall i x u, nth_error (l ++ [(pk, t)]) i = Some (x, u) ->
      (nth_error l i = Some (x, u) /\ Z.of_nat i < zlen l) \/ (i = length l /\ x = pk /\ u = t)) as NTH.
  { intros i x u Hi. destruct (Nat.lt_ge_cases i (length l)) as [A|A].
    - left. rewrite nth_error_app1 in Hi by assumption. split; [assumption|unfold zlen; lia].
    - right. rewrite nth_error_app2 in Hi by assumption.
      destruct (i - length l)%nat as [|k] eqn:K; [cbn in Hi|destruct k; discriminate].
      split; [lia|]. split; congruence. }
  assert (forall i x u, nth_error l i = Some (x, u) -> nth_error (l ++ [(pk, t)]) i = Some (x, u)) as NTH2.
  { intros i x u Hi. rewrite nth_error_app1; [exact Hi|]. apply nth_error_Some. congruence. }
  assert (forall i x u, nth_error l i = Some (x, u) -> zlen l - Z.of_nat i < cap ->
     has (buf e) (mkEnt (q0 + Z.of_nat i) u x) -> has b1 (mkEnt (q0 + Z.of_nat i) u x)) as KEEP.
  { intros i x u Hi Hc K. apply HB1. right. apply F5; [exact K|]. cbn [position]. unfold hi. lia. }
  constructor; cbn [buf max_age max_size last_position next_evict last_timeout]; auto.
  - pose proof (ei_evict_step _ t (ei_push _ hi t pk (ri_ei _ _ H))) as X. rewrite EP in X.
    unfold maybe_evict, is_inert in X. cbn [buf max_age max_size last_position next_evict last_timeout] in X.
    assert (zlen b1 =? 0 = false) as R1 by lia. assert (age =? 0 = false) as R2 by lia.
    assert (t <? last_timeout e = false) as R3 by lia.
    rewrite R1, R2, R3, EL in X. exact X.
  - lia.
  - right. exists l, pk. reflexivity.
  - right. exists p. split; [reflexivity|]. rewrite ZL. lia.
  - intros en He. apply E4, HB1 in He as [->|[He Hp]].
    + cbn [position value timestamp]. split; [lia|]. exists (length l).
      rewrite nth_error_app2 by lia. rewrite Nat.sub_diag. split; [reflexivity|unfold hi, zlen; lia].
    + pose proof (F6 _ He) as [G _]. apply F4 in He.
      destruct (ri_win _ _ H _ He) as (G2 & i & Hi & Ei).
      split; [lia|]. exists i. split; [apply NTH2; exact Hi|exact Ei].
  - intros i x u Hi Hc Hf. destruct (NTH _ _ _ Hi) as [[Hi' Hlt]|(-> & -> & ->)].
    + assert (last_timeout e - u <= age) as Fr by lia.
      pose proof (ri_keep _ _ H i x u Hi' ltac:(lia) Fr) as K.
      assert (has b1 (mkEnt (q0 + Z.of_nat i) u x)) as K1 by (apply KEEP; auto; lia).
      destruct (E5 _ K1) as [?|(C & _)]; [assumption|]. exfalso. cbn [timestamp] in C. lia.
    + replace (q0 + Z.of_nat (length l)) with hi by (unfold hi, zlen; lia). exact NEW2.
  - intros Hc s' Es'. injection Es' as <-.
    assert (q0 <= s) as Q.
    { destruct Hn as [Hn|[Hn ->]]; [apply (ri_all _ _ H ltac:(lia) s Hn)|unfold hi; pose proof (zlen_nonneg l); lia]. }
    assert (forall i x u, nth_error (l ++ [(pk, t)]) i = Some (x, u) -> s <= q0 + Z.of_nat i ->
       has b1 (mkEnt (q0 + Z.of_nat i) u x)) as ALL1.
    { intros i x u Hi Hge. destruct (NTH _ _ _ Hi) as [[Hi' Hlt]|(-> & -> & ->)].
      - apply KEEP; [exact Hi'|lia|]. destruct Hn as [Hn|[Hn ->]].
        + apply (ri_all _ _ H ltac:(lia) s Hn); assumption.
        + unfold hi in Hge. exfalso. lia.
      - replace (q0 + Z.of_nat (length l)) with hi by (unfold hi, zlen; lia). exact NEW. }
    assert (forall en, has b1 en -> s <= position en) as GE1.
    { intros en He. apply HB1 in He as [->|[He _]]; [cbn; exact Hs|]. apply F4 in He.
      destruct (ei_evict _ (ri_ei _ _ H) _ He) as (s0 & A & B). destruct Hn as [Hn|[Hn _]]; [|congruence].
      assert (s0 = s) by congruence. lia. }
    assert (hi - s < zlen b) as WIN.
    { (* position s is occupied, so it lies in the window *)
      assert (Z.to_nat (s - q0) < length (l ++ [(pk, t)]))%nat as IB
        by (unfold hi in *; unfold zlen in *; lia).
      destruct (nth_error (l ++ [(pk, t)]) (Z.to_nat (s - q0))) as [[x u]|] eqn:Nx;
        [|apply nth_error_None in Nx; lia].
      pose proof (ALL1 _ _ _ Nx ltac:(lia)) as Hx. apply HB1 in Hx as [Hx|[_ Hx]].
      - injection Hx as Hx1 _ _. lia.
      - cbn [position] in Hx. lia. }
    split; [lia|]. split.
    + intros i x u Hi Hge. pose proof (ALL1 i x u Hi ltac:(lia)) as K1.
      destruct (E5 _ K1) as [?|(C & q & Hq & Eq)]; [assumption|]. exfalso. cbn [position] in Eq.
      apply mod_window in Eq; [lia|lia|].
      assert (q0 + Z.of_nat i <= hi).
      { assert (i < length (l ++ [(pk, t)]))%nat by (apply nth_error_Some; congruence). unfold hi, zlen in *. lia. }
      lia.
    + intros en He. pose proof (GE1 _ (E4 _ He)) as G.
      assert (p <= position en) as Gp.
      { destruct (Z_lt_le_dec (position en) p) as [C|?]; [|assumption]. exfalso.
        pose proof (E6 (position en) ltac:(lia)) as X. apply has_slot in He; [|exact E1]. congruence. }
      destruct (E7 ltac:(unfold zlen in *; lia)) as (en' & S' & A').
      pose proof (slot_has _ _ _ S') as H'. pose proof (wf_slot _ _ _ E1 ltac:(lia) S') as M'.
      assert (forall en, has b2 en -> exists i, nth_error (l ++ [(pk, t)]) i = Some (value en, timestamp en) /\ position en = q0 + Z.of_nat i) as POS.
      { intros x Hx. apply E4, HB1 in Hx as [->|[Hx _]].
        - exists (length l). rewrite nth_error_app2 by lia. rewrite Nat.sub_diag. split; [reflexivity|cbn; unfold hi, zlen; lia].
        - apply F4 in Hx. destruct (ri_win _ _ H _ Hx) as (_ & i & Hi & Ei). exists i. split; [apply NTH2; exact Hi|exact Ei]. }
      destruct (POS _ He) as (i & Hi & Ei). destruct (POS _ H') as (j & Hj & Ej).
      assert (position en' = p) as Ep.
      { apply (mod_window _ _ (zlen b2)); [lia|exact M'|].
        pose proof (GE1 _ (E4 _ H')).
        assert (position en' <= hi).
        { rewrite Ej. assert (j < length (l ++ [(pk, t)]))%nat by (apply nth_error_Some; congruence).
          unfold hi, zlen in *. lia. }
        lia. }
      destruct IT as [_ T2]. pose proof (T2 j i _ _ _ _ Hj Hi ltac:(lia)). lia.
Qed.

Lemma ri_run l : forall c, send_all (mkRtx (enew 10 age maxc al) (rep None SLOTS)) l = Ok c ->
  consecutive q0 l -> in_time al l -> RI l (by_seq c).
Proof.
  induction l as [|[pk t] l IH] using rev_ind; intros c E C T.
  - injection E as <-. apply ri_new.
  - rewrite send_all_app in E. destruct (send_all _ l) as [c'| |] eqn:E'; cbn [bind] in E; try discriminate.
    cbn [send_all] in E. unfold cache_sent in E. destruct (SLOTS <=? plen pk / QUANT); cbn [bind] in E; [discriminate|].
    injection E as <-. cbn [by_seq].
    assert (pseq pk = q0 + zlen l) as ->.
    { apply (C (length l) pk t). rewrite nth_error_app2 by lia. rewrite Nat.sub_diag. reflexivity. }
    apply ri_step; [|exact T]. apply (IH c'); [reflexivity| |].
    + intros i x u Hi. apply (C i x u). rewrite nth_error_app1; [exact Hi|]. apply nth_error_Some. congruence.
    + destruct T as [T1 T2]. split.
      * intros i x u Hi. apply (T1 i x u). rewrite nth_error_app1; [exact Hi|]. apply nth_error_Some. congruence.
      * intros i j x u y w Hi Hj. apply (T2 i j x u y w);
          (rewrite nth_error_app1; [assumption|apply nth_error_Some; congruence]).
Qed.
End R.

(** Lookup by size: what the two indices hold. *)
Record SI (l : list (rpkt * Z)) (c : rtxcache) : Prop := {
  si_ei : EI (by_seq c);
  si_len : length (by_size c) = 80%nat;
  si_sent : forall en, has (buf (by_seq c)) en -> In (value en, timestamp en) l /\ position en = pseq (value en);
  si_size : forall k s, nth_error (by_size c) k = Some (Some s) ->
     exists pk t, In (pk, t) l /\ pseq pk = s /\ plen pk / QUANT = Z.of_nat k;
  si_all : forall pk t, In (pk, t) l -> exists s, nth_error (by_size c) (Z.to_nat (plen pk / QUANT)) = Some (Some s) }.

Lemma si_new maxc age al : SI [] (rtx_new maxc age al).
Proof.
  constructor; cbn [by_seq by_size rtx_new].
  - apply ei_new.
  - reflexivity.
  - intros en H. exfalso. eapply has_nones; exact H.
  - intros k s H. apply nth_error_In in H. apply repeat_spec in H. discriminate.
  - intros pk t [].
Qed.

Lemma has_evict (e : ebuf rpkt) now en : EI e -> has (buf (maybe_evict e now)) en -> has (buf e) en.
Proof.
  intros HE. destruct (evict_cases e now) as [[-> _]|(I & Ht & [[Hn ->]|(s & b & p & Hn & EL & ->)])]; auto.
  cbn [buf]. intro H. destruct (not_inert_len e I) as [L _].
  pose proof (evict_loop_facts (max_age e) now (length (buf e)) (buf e) s (ei_wf _ HE) L) as F.
  rewrite EL in F. apply F. exact H.
Qed.
Lemma has_push (e : ebuf rpkt) p t v en : EI e -> has (buf (epush e p t v)) en -> has (buf e) en \/ en = mkEnt p t v.
Proof.
  intros HE. destruct (epush_cases e p t v) as [[-> _]|(I & Ht & s & Hs & Hn & ->)]; auto. cbn [buf].
  destruct (not_inert_len e I) as [L _]. destruct (push_buf_facts e p (ei_wf _ HE) L) as (_ & _ & F).
  intro H. apply has_lset in H as [[H _]|(j & _ & H)]; [right; congruence|left; apply F; exists j; exact H].
Qed.

Lemma si_run maxc age al l : forall c, (forall pk t, In (pk, t) l -> 0 <= plen pk) ->
  send_all (rtx_new maxc age al) l = Ok c -> SI l c.
Proof.
  induction l as [|[pk t] l IH] using rev_ind; intros c HP E.
  - injection E as <-. apply si_new.
  - rewrite send_all_app in E. destruct (send_all _ l) as [c'| |] eqn:E'; cbn [bind] in E; try discriminate.
    cbn [send_all] in E. unfold cache_sent in E. destruct (SLOTS <=? plen pk / QUANT) eqn:Q; cbn [bind] in E; [discriminate|].
    injection E as <-.
    assert (0 <= plen pk) as P0 by (apply (HP pk t), in_or_app; right; left; reflexivity).
    assert (0 <= plen pk / QUANT < 80) as QB by (split; [apply Z.div_pos; [lia|reflexivity]|unfold SLOTS in Q; lia]).
    destruct (IH c') as [H1 H2 H3 H4 H5]; [intros x u Hx; apply (HP x u), in_or_app; auto|reflexivity|].
    constructor; cbn [by_seq by_size].
    + apply ei_evict_step, ei_push, H1.
    + rewrite lset_length. exact H2.
    + intros en He. apply has_evict in He; [|apply ei_push, H1]. apply has_push in He; [|exact H1].
      destruct He as [He|He].
      * apply H3 in He as [A B]. split; [apply in_or_app; auto|exact B].
      * subst. split; [apply in_or_app; right; left; reflexivity|reflexivity].
    + intros k s Hk. destruct (Nat.eq_dec (Z.to_nat (plen pk / QUANT)) k) as [<-|N].
      * rewrite lset_nth_eq in Hk by lia. exists pk, t. split; [apply in_or_app; right; left; reflexivity|].
        split; [congruence|lia].
      * rewrite lset_nth_ne in Hk by assumption. apply H4 in Hk as (x & u & A & B). exists x, u.
        split; [apply in_or_app; auto|exact B].
    + intros x u Hx. destruct (Nat.eq_dec (Z.to_nat (plen pk / QUANT)) (Z.to_nat (plen x / QUANT))) as [<-|N].
      * exists (pseq pk). apply lset_nth_eq. lia.
      * rewrite lset_nth_ne by assumption. apply in_app_or in Hx as [Hx|[Hx|[]]]; [apply (H5 x u Hx)|].
        injection Hx as <- <-. congruence.
Qed.

Lemma send_all_ok l : forall c, send_all c l <> Err /\ (send_all c l = Panic <-> exists pk t, In (pk, t) l /\ 2000 <= plen pk).
Proof.
  induction l as [|[pk t] l IH]; intros c; cbn [send_all].
  - split; [discriminate|]. split; [discriminate|]. intros (? & ? & [] & _).
  - unfold cache_sent. destruct (SLOTS <=? plen pk / QUANT) eqn:Q; cbn [bind].
    + split; [discriminate|]. split; [intros _|reflexivity]. exists pk, t. split; [left; reflexivity|].
      unfold SLOTS, QUANT in Q. dlia.
    + match goal with |- context [send_all ?x l] => specialize (IH x) end.
      destruct IH as [A B]. split; [exact A|]. rewrite B. split.
      * intros (x & u & Hx & G). exists x, u. split; [right; exact Hx|exact G].
      * intros (x & u & [Hx|Hx] & G); [injection Hx as <- <-; unfold SLOTS, QUANT in Q; exfalso; dlia|].
        exists x, u. auto.
Qed.

Definition hasseq (c : rtxcache) (o : option Z) : bool :=
  match o with Some s => contains (by_seq c) s | None => false end.

Lemma find_rev_first {A} (f : A -> bool) l x : find f (rev l) = Some x ->
  f x = true /\ exists k, nth_error l k = Some x /\ forall j y, (k < j)%nat -> nth_error l j = Some y -> f y = false.
Proof.
  induction l as [|a l IH] using rev_ind; [discriminate|]. rewrite rev_app_distr. cbn [rev app find].
  destruct (f a) eqn:Fa.
  - intro E. injection E as <-. split; [exact Fa|]. exists (length l).
    rewrite nth_error_app2, Nat.sub_diag by lia. split; [reflexivity|].
    intros j y Hj Hy. rewrite nth_error_app2 in Hy by lia.
    destruct (j - length l)%nat as [|k] eqn:K; [lia|destruct k; discriminate].
  - intro E. apply IH in E as (E1 & k & E2 & E3). split; [exact E1|]. exists k.
    assert (k < length l)%nat as KL by (apply nth_error_Some; congruence).
    rewrite nth_error_app1 by assumption. split; [exact E2|].
    intros j y Hj Hy. destruct (Nat.lt_ge_cases j (length l)) as [B|B].
    + rewrite nth_error_app1 in Hy by assumption. eapply E3; eauto.
    + rewrite nth_error_app2 in Hy by assumption. destruct (j - length l)%nat as [|i]; [cbn in Hy; congruence|destruct i; discriminate].
Qed.
Lemma find_rev_none {A} (f : A -> bool) l : find f (rev l) = None -> forall k y, nth_error l k = Some y -> f y = false.
Proof.
  intros H k y E. apply (find_none _ _ H). apply in_rev. rewrite rev_involutive. eapply nth_error_In; eauto.
Qed.

Lemma nth_firstn {A} (l : list A) n k x : nth_error (firstn n l) k = Some x <-> (k < n)%nat /\ nth_error l k = Some x.
Proof.
  revert l k. induction n as [|n IH]; intros l k; cbn [firstn].
  - destruct k; cbn; split; try discriminate; intros [? _]; lia.
  - destruct l as [|a l]; [destruct k; cbn; split; [discriminate|intros [_ ?]; discriminate|discriminate|intros [_ ?]; discriminate]|].
    destruct k; cbn [nth_error]; [split; [intro; split; [lia|assumption]|tauto]|].
    rewrite IH. split; intros [? ?]; (split; [lia|assumption]).
Qed.

Lemma get_smaller_sound maxc age al l c m pk : (forall pk t, In (pk, t) l -> 0 <= plen pk) ->
  send_all (rtx_new maxc age al) l = Ok c ->
  (forall x y t u, In (x, t) l -> In (y, u) l -> pseq x = pseq y -> x = y) ->
  get_smaller c m = Ok pk ->
  plen pk < m /\ (exists t, In (pk, t) l) /\ get_by_seq c (pseq pk) = Some pk.
Proof.
  intros HP E D G. pose proof (si_run _ _ _ _ _ HP E) as S. unfold get_smaller in G.
  unfold upto in G. destruct ((m / QUANT <? 0) || (zlen (by_size c) <? m / QUANT)) eqn:B; cbn [bind] in G; [discriminate|].
  fold (hasseq c) in G.
  destruct (find (hasseq c) _) as [[s|]|] eqn:F; try discriminate.
  destruct (get_by_seq c s) as [pk'|] eqn:G'; [|discriminate]. injection G as <-.
  apply find_rev_first in F as (_ & k & K & _). apply nth_firstn in K as [K1 K2].
  destruct (si_size _ _ S k s K2) as (x & t & X1 & X2 & X3).
  pose proof (eget_has _ _ _ (si_ei _ _ S) G') as (en & H1 & H2 & H3).
  destruct (si_sent _ _ S en H1) as [A1 A2]. rewrite H3 in A1, A2.
  assert (pk' = x) by (eapply D; eauto; congruence). subst.
  split; [|split].
  - unfold QUANT in *. dlia.
  - exists t. exact X1.
  - congruence.
Qed.

Lemma get_smaller_panic maxc age al l c m : 0 <= m -> (forall pk t, In (pk, t) l -> 0 <= plen pk) ->
  send_all (rtx_new maxc age al) l = Ok c -> (get_smaller c m = Panic <-> 2025 <= m).
Proof.
  intros Hm HP E. pose proof (si_run _ _ _ _ _ HP E) as S. unfold get_smaller, upto.
  assert (zlen (by_size c) = 80) as Z80 by (unfold zlen; rewrite (si_len _ _ S); reflexivity). rewrite Z80.
  destruct ((m / QUANT <? 0) || (80 <? m / QUANT)) eqn:B; cbn [bind].
  - split; [intros _|reflexivity]. unfold QUANT in B. dlia.
  - split; [|intro C; exfalso; unfold QUANT in B; dlia].
    destruct (find _ _) as [[s|]|]; [destruct (get_by_seq c s)| |]; discriminate.
Qed.

Lemma get_smaller_complete maxc age al q0 l c m tl l0 pl : 0 < age -> 0 <= m < 2025 ->
  (forall pk t, In (pk, t) l -> 0 <= plen pk) ->
  send_all (rtx_new maxc age al) l = Ok c -> consecutive q0 l -> in_time al l ->
  zlen l <= Z.max 10 maxc -> l = l0 ++ [(pl, tl)] -> (forall pk t, In (pk, t) l -> tl - t <= age) ->
  forall pk t, In (pk, t) l -> plen pk / 25 < m / 25 ->
  exists p, get_smaller c m = Ok p /\ plen pk / 25 <= plen p / 25.
Proof.
  intros HA Hm HP E C T N El FR pk t Hin Hlt.
  pose proof (si_run _ _ _ _ _ HP E) as S. pose proof (ri_run maxc age al q0 HA l c E C T) as R.
  assert (last_timeout (by_seq c) = tl) as LT.
  { destruct (ri_lt _ _ _ _ _ _ R) as [[Z _]|(l1 & x & El1)]; [subst; destruct l0; discriminate|].
    rewrite El in El1. apply app_inj_tail in El1 as [_ El1]. congruence. }
  assert (forall x u, In (x, u) l -> has (buf (by_seq c)) (mkEnt (pseq x) u x)) as ALL.
  { intros x u Hx. pose proof (FR _ _ Hx). apply In_nth_error in Hx as [i Hi].
    pose proof (C _ _ _ Hi) as Ec. rewrite Ec.
    apply (ri_keep _ _ _ _ _ _ R i x u Hi); [unfold cap; lia|lia]. }
  pose proof (inert_no _ _ _ _ HA _ _ R) as IN.
  assert (forall k s, nth_error (by_size c) k = Some (Some s) -> hasseq c (Some s) = true /\
     exists x, get_by_seq c s = Some x /\ plen x / QUANT = Z.of_nat k) as OKS.
  { intros k s Hk. destruct (si_size _ _ S k s Hk) as (x & u & X1 & X2 & X3).
    pose proof (ALL _ _ X1) as Hx. subst s. split.
    - cbn [hasseq]. unfold contains. rewrite IN.
      rewrite (has_slot _ _ (ei_wf _ (si_ei _ _ S)) Hx : slot_at _ (pseq x) = _). reflexivity.
    - exists x. split; [|exact X3]. unfold get_by_seq.
      apply (has_eget _ _ (si_ei _ _ S) Hx). }
  unfold get_smaller. assert (zlen (by_size c) = 80) as Z80 by (unfold zlen; rewrite (si_len _ _ S); reflexivity).
  assert (0 <= m / QUANT <= 80) as MB by (unfold QUANT; dlia).
  rewrite upto_ok by lia. cbn [bind]. fold (hasseq c).
  destruct (si_all _ _ S pk t Hin) as [s0 Hs0].
  assert (0 <= plen pk / QUANT) as P0 by (apply Z.div_pos; [apply (HP pk t Hin)|reflexivity]).
  assert (nth_error (firstn (Z.to_nat (m / QUANT)) (by_size c)) (Z.to_nat (plen pk / QUANT)) = Some (Some s0)) as Hs1.
  { apply nth_firstn. split; [unfold QUANT in *; lia|exact Hs0]. }
  destruct (find (hasseq c) _) as [o|] eqn:F.
  - apply find_rev_first in F as (F1 & k & F2 & F3). apply nth_firstn in F2 as [F2a F2b].
    destruct o as [s|]; [|discriminate]. destruct (OKS _ _ F2b) as (_ & x & X1 & X2). rewrite X1. exists x.
    split; [reflexivity|]. destruct (Nat.le_gt_cases (Z.to_nat (plen pk / QUANT)) k) as [?|G]; [unfold QUANT in *; lia|].
    exfalso. pose proof (F3 _ _ G Hs1) as X. rewrite (proj1 (OKS _ _ Hs0)) in X. discriminate.
  - exfalso. pose proof (find_rev_none _ _ F _ _ Hs1) as X. rewrite (proj1 (OKS _ _ Hs0)) in X. discriminate.
Qed.
End R.

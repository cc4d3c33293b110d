From Verif Require Import Base BaseFacts BufRxModel BufRxSpec.

Section P.
Context {DS X CS : Type}.
Variable xnone : X.
Variable dep : DS -> list Z -> list Z -> X -> DS * option (list Z * X).
Variable is_head : DS -> list Z -> bool.
Variable is_tail : DS -> bool -> list Z -> bool.
Variable check : CS -> X -> bool -> CS * (bool * bool).
Notation buf := (@buf DS X CS).
Notation frame := (@frame X).

(** * Segments *)
Definition at_ (q : list entry) (k off t : Z) : Prop :=
  exists e, idx q k = Ok e /\ seq (emeta e) = off + k /\ time (emeta e) = t.
Definition seg_ok (q : list entry) (ab : Z * Z) : Prop :=
  0 <= fst ab <= snd ab /\ snd ab < zlen q /\ exists off t, forall k, fst ab <= k <= snd ab -> at_ q k off t.
Definition good (pre : list entry) (st : option (Z * Z * Z)) : Prop :=
  match st with
  | None => True
  | Some (si, t, off) => 0 <= si < zlen pre /\ forall k, si <= k < zlen pre -> at_ pre k off t
  end.

Lemma at_app q r k off t : at_ q k off t -> at_ (q ++ r) k off t.
Proof.
  intros (e & I & H). exists e. split; [|exact H]. rewrite idx_app_l; [exact I|]. apply idx_inv in I. lia.
Qed.

Lemma segments_ok : forall q pre st, good pre st -> Forall (seg_ok (pre ++ q)) (segments q (zlen pre) st).
Proof.
  induction q as [|e q IH]; intros pre st G; [constructor|]. cbn [segments].
  pose proof (zlen_nonneg pre) as NP. pose proof (zlen_nonneg q) as NQ.
  assert (pre ++ e :: q = (pre ++ [e]) ++ q) as EA by (rewrite <- app_assoc; reflexivity).
  assert (zlen pre + 1 = zlen (pre ++ [e])) as EL by (rewrite zlen_app, zlen_cons, zlen_nil; lia).
  assert (idx (pre ++ [e]) (zlen pre) = Ok e) as IE.
  { rewrite idx_app_r by lia. replace (zlen pre - zlen pre) with 0 by lia. reflexivity. }
  set (expected := match st with Some (_, _, off) => off + zlen pre =? seq (emeta e) | None => false end).
  set (same := match st with Some (_, t, _) => t =? time (emeta e) | None => false end).
  set (out1 := match st with Some (si, _, _) => if expected && negb same then [(si, zlen pre - 1)] else [] | None => [] end).
  assert (Forall (seg_ok (pre ++ e :: q)) out1) as O1.
  { subst out1. destruct st as [[[si t] off]|]; [|constructor].
    destruct (expected && negb same); [|constructor]. constructor; [|constructor].
    destruct G as [G1 G2]. split; [cbn; lia|]. split; [cbn; rewrite zlen_app, zlen_cons; lia|].
    exists off, t. cbn [fst snd]. intros k Hk. apply at_app. apply G2. lia. }
  set (st1 := match st with Some s => if negb expected || negb same then None else Some s | None => None end).
  set (st2 := match st1 with None => if head e then Some (zlen pre, time (emeta e), seq (emeta e) - zlen pre) else None | Some s => Some s end).
  assert (good (pre ++ [e]) st2) as G2.
  { subst st2 st1. destruct st as [[[si t] off]|].
    - destruct (negb expected || negb same) eqn:Q.
      + destruct (head e); [|exact I]. split; [lia|]. intros k Hk. assert (k = zlen pre) by lia. subst k.
        exists e. split; [exact IE|]. split; lia.
      + destruct G as [Ga Gb]. subst expected same. split; [lia|]. intros k Hk.
        assert (k = zlen pre \/ k < zlen pre) as [->|L] by lia.
        * exists e. split; [exact IE|]. split; lia.
        * apply at_app. apply Gb. lia.
    - destruct (head e); [|exact I]. split; [lia|]. intros k Hk. assert (k = zlen pre) by lia. subst k.
      exists e. split; [exact IE|]. split; lia. }
  clearbody out1 st2. clear st1 same expected.
  assert (forall st', good (pre ++ [e]) st' -> Forall (seg_ok (pre ++ e :: q)) (segments q (zlen pre + 1) st')) as REST.
  { intros st' G'. rewrite EA, EL. apply IH. exact G'. }
  destruct st2 as [[[si t] off]|].
  - destruct (tail e).
    + apply Forall_app. split; [exact O1|]. constructor.
      * destruct G2 as [Ga Gb]. split; [cbn; lia|]. split; [cbn; rewrite zlen_app, zlen_cons; lia|].
        exists off, t. cbn [fst snd]. intros k Hk. rewrite EA. apply at_app. apply Gb. lia.
      * apply REST. exact I.
    + apply Forall_app. split; [exact O1|]. apply REST. exact G2.
  - apply Forall_app. split; [exact O1|]. apply REST. exact I.
Qed.

Lemma nth_error_ext' {A} : forall (l l' : list A), (forall i, nth_error l i = nth_error l' i) -> l = l'.
Proof.
  induction l as [|x l IH]; intros [|y l'] H.
  - reflexivity.
  - specialize (H O). discriminate.
  - specialize (H O). discriminate.
  - pose proof (H O) as H0. cbn in H0. injection H0 as ->. f_equal. apply IH. intro i. exact (H (S i)).
Qed.
Lemma nth_skipn {A} (l : list A) : forall n i, nth_error (skipn n l) i = nth_error l (n + i)%nat.
Proof. induction l as [|x l IH]; intros [|n] i; cbn; auto. destruct i; reflexivity. Qed.
Lemma nth_firstn_lt {A} (l : list A) : forall n i, (i < n)%nat -> nth_error (firstn n l) i = nth_error l i.
Proof. induction l as [|x l IH]; intros [|n] [|i] H; cbn; auto; try lia. apply IH. lia. Qed.
Lemma zseq_nth n : forall a i, (i < n)%nat -> nth_error (zseq a n) i = Some (a + Z.of_nat i).
Proof.
  induction n as [|n IH]; intros a [|i] H; cbn [zseq nth_error]; try lia; [f_equal; lia|].
  rewrite IH by lia. f_equal. lia.
Qed.

(** A segment of the queue as a list of entries. *)
Lemma seg_entries q a b : seg_ok q (a, b) -> exists es, slice q a (b + 1) = Ok es /\ es <> [] /\ incl es q /\
  (exists s, map seq (map emeta es) = zseq s (length es)) /\
  (exists e0 r, es = e0 :: r /\ forall e, In e es -> time (emeta e) = time (emeta e0)) /\
  (exists e, idx q b = Ok e /\ last es e = e /\ In e es).
Proof.
  intros (H1 & H2 & off & t & H3). cbn [fst snd] in *.
  rewrite slice_ok by lia. set (n := Z.to_nat (b + 1 - a)). set (es := firstn n (skipn (Z.to_nat a) q)).
  assert (length es = n) as L.
  { subst es. rewrite firstn_length, skipn_length. unfold zlen in *. lia. }
  assert (forall i, (i < n)%nat -> exists e, nth_error es i = Some e /\ seq (emeta e) = off + a + Z.of_nat i /\ time (emeta e) = t
                      /\ nth_error q (Z.to_nat a + i)%nat = Some e) as NE.
  { intros i Hi. destruct (H3 (a + Z.of_nat i) ltac:(lia)) as (e & I & S & T). exists e.
    unfold idx in I. destruct (a + Z.of_nat i <? 0) eqn:Q; [lia|].
    destruct (nth_error q (Z.to_nat (a + Z.of_nat i))) eqn:N; [|discriminate]. injection I as <-.
    replace (Z.to_nat (a + Z.of_nat i)) with (Z.to_nat a + i)%nat in N by lia.
    subst es. rewrite nth_firstn_lt by lia. rewrite nth_skipn. split; [exact N|]. split; [lia|]. split; [exact T|exact N]. }
  assert (n <> 0)%nat as NZ by lia.
  exists es. split; [reflexivity|]. split; [intro Z; rewrite Z in L; cbn in L; lia|].
  split. { intros e He. apply In_nth_error in He as [i Hi]. assert (i < n)%nat by (rewrite <- L; apply nth_error_Some; congruence).
    destruct (NE i H) as (e' & N1 & _ & _ & N2). rewrite Hi in N1. injection N1 as <-. eapply nth_error_In; exact N2. }
  split.
  { exists (off + a). apply nth_error_ext'. intro i. rewrite !nth_error_map. destruct (Nat.lt_ge_cases i n) as [Hi|Hi].
    - destruct (NE i Hi) as (e & N1 & N2 & _ & _). rewrite N1. cbn. rewrite zseq_nth by lia. f_equal. exact N2.
    - assert (nth_error es i = None) as -> by (apply nth_error_None; lia). cbn. symmetry. apply nth_error_None.
      rewrite zseq_length. lia. }
  split.
  { destruct (NE 0%nat ltac:(lia)) as (e0 & N1 & _ & T0 & _). destruct es as [|x r] eqn:E; [discriminate|]. cbn in N1. injection N1 as ->.
    exists e0, r. split; [reflexivity|]. intros e He. apply In_nth_error in He as [i Hi].
    assert (i < n)%nat by (rewrite <- L; apply nth_error_Some; congruence).
    destruct (NE i H) as (e' & N1 & _ & T & _). rewrite Hi in N1. injection N1 as <-. congruence. }
  destruct (NE (n - 1)%nat ltac:(lia)) as (e & N1 & _ & _ & N2).
  exists e. split.
  { unfold idx. destruct (b <? 0) eqn:Q; [lia|]. replace (Z.to_nat b) with (Z.to_nat a + (n - 1))%nat by lia. rewrite N2. reflexivity. }
  split; [|eapply nth_error_In; exact N1].
  clear NE H3. clearbody es n. clear -N1 L NZ. revert n N1 L NZ. induction es as [|x r IH]; intros n N1 L NZ; [reflexivity|].
  cbn in L. destruct r as [|y r]; [cbn in *; destruct n; [lia|]; destruct n; [cbn in N1; congruence|cbn in L; lia]|].
  change (last (x :: y :: r) e) with (last (y :: r) e). apply (IH (n - 1)%nat); cbn in *; try lia.
  replace (n - 1)%nat with (S (n - 1 - 1)) in N1 by lia. exact N1.
Qed.

(** * Sorted queues *)
Inductive sorted : list entry -> Prop :=
| s_nil : sorted []
| s_cons e q : Forall (fun x => seq (emeta e) < seq (emeta x)) q -> sorted q -> sorted (e :: q).

Lemma insert_in e x q : In x (insert q e) <-> x = e \/ In x q.
Proof.
  induction q as [|y q IH]; cbn [insert].
  - cbn. intuition congruence.
  - destruct (seq (emeta e) <? seq (emeta y)); cbn [In]; [intuition congruence|]. rewrite IH. intuition congruence.
Qed.
Lemma insert_sorted e q : sorted q -> has_seq q (seq (emeta e)) = false -> sorted (insert q e).
Proof.
  induction 1 as [|x q F S IH]; intro H; cbn [insert]; [repeat constructor|].
  unfold has_seq in *. cbn [existsb] in H. apply orb_false_elim in H as [H1 H2].
  destruct (seq (emeta e) <? seq (emeta x)) eqn:Q.
  - constructor; [|constructor; assumption]. constructor; [lia|]. eapply Forall_impl; [|exact F]. cbn. intros. lia.
  - constructor; [|apply IH; exact H2]. apply Forall_forall. intros y Hy. apply insert_in in Hy as [->|Hy]; [lia|].
    rewrite Forall_forall in F. apply F. exact Hy.
Qed.
Lemma sorted_skip n q : sorted q -> sorted (skipn n q).
Proof.
  revert q. induction n as [|n IH]; intros q S; [exact S|]. destruct S; [constructor|]. cbn. apply IH. exact S.
Qed.
Lemma sorted_app a b : sorted (a ++ b) -> forall x y, In x a -> In y b -> seq (emeta x) < seq (emeta y).
Proof.
  induction a as [|e a IH]; intros S x y Hx Hy; [destruct Hx|]. cbn in S. inversion S as [|? ? F S']; subst.
  destruct Hx as [<-|Hx]; [|eapply IH; eauto]. rewrite Forall_forall in F. apply F. apply in_or_app. right. exact Hy.
Qed.

(** sublists in order *)
Inductive sub {A} : list A -> list A -> Prop :=
| sub_nil q : sub [] q
| sub_skip e p q : sub p q -> sub p (e :: q)
| sub_keep e p q : sub p q -> sub (e :: p) (e :: q).
Lemma sub_refl {A} (q : list A) : sub q q. Proof. induction q; constructor; assumption. Qed.
Lemma sub_in {A} (p q : list A) : sub p q -> incl p q.
Proof. induction 1; intros x Hx; cbn in *; [destruct Hx|right; auto|destruct Hx; auto]. Qed.
Lemma sub_sorted p q : sub p q -> sorted q -> sorted p.
Proof.
  induction 1 as [q|e p q H IH|e p q H IH]; intro S; [constructor| |]; inversion S as [|? ? F S']; subst; auto.
  constructor; auto. apply Forall_forall. intros x Hx. rewrite Forall_forall in F. apply F. apply (sub_in _ _ H). exact Hx.
Qed.
Lemma retain_sub q : forall n, sub (retain_padding n q) q.
Proof.
  induction q as [|e q IH]; intro n; cbn; [constructor|]. destruct ((0 <? n) && is_padding e); constructor; apply IH.
Qed.
Lemma retain_0 q n : zlen (retain_padding n q) = zlen q -> retain_padding n q = q.
Proof.
  revert n. induction q as [|e q IH]; intros n H; [reflexivity|]. cbn [retain_padding] in *.
  destruct ((0 <? n) && is_padding e).
  - exfalso. pose proof (retain_sub q (n - 1)) as S. rewrite zlen_cons in H.
    assert (forall (a b : list entry), sub a b -> zlen a <= zlen b) as SL.
    { induction 1 as [?|? ? ? ? ?|? ? ? ? ?]; rewrite ?zlen_cons, ?zlen_nil; try lia. apply zlen_nonneg. }
    pose proof (SL _ _ S). lia.
  - f_equal. apply IH. rewrite !zlen_cons in H. lia.
Qed.

Lemma drop_front_spec hb : forall q last, exists k last', drop_front hb q last = (skipn k q, last') /\ last <= last' /\
  (last' = last \/ exists e, In e (firstn k q) /\ seq (emeta e) = last').
Proof.
  induction q as [|e q IH]; intro last; cbn [drop_front].
  - exists 0%nat, last. repeat split; try lia.
  - destruct (zlen (e :: q) <=? hb); [exists 0%nat, last; repeat split; try lia|].
    destruct (negb (is_padding e)); [exists 0%nat, last; repeat split; try lia|].
    unfold is_next. set (l2 := if last + 1 =? seq (emeta e) then seq (emeta e) else last).
    destruct (IH l2) as (k & last' & E & L & W). exists (S k), last'. cbn [skipn firstn]. split; [exact E|].
    assert (last <= l2) by (subst l2; destruct (last + 1 =? seq (emeta e)) eqn:Q; lia).
    split; [lia|]. destruct W as [->|(x & Hx & Ex)].
    + subst l2. destruct (last + 1 =? seq (emeta e)) eqn:Q; [right|left; reflexivity].
      exists e. split; [left; reflexivity|reflexivity].
    + right. exists x. split; [right; exact Hx|exact Ex].
Qed.

Lemma unpack_feed : forall es d data x, unpack dep d es data x = feed dep d (map edata es) data x.
Proof.
  induction es as [|e es IH]; intros; cbn; [reflexivity|]. destruct (dep d (edata e) data x) as [d' [[data' x']|]]; auto.
Qed.

(** * The invariant: everything in the buffer was offered, sorted, and a cached frame is genuine *)
Record inv (P : list (meta * list Z)) (b : buf) : Prop := {
  i_in : forall e, In e (queue b) -> In (emeta e, edata e) P;
  i_sorted : sorted (queue b);
  i_cache : forall r f, cache b = Some (r, f) -> genuine xnone dep P f }.

Lemma genuine_mono P P' f : incl P P' -> genuine xnone dep P f -> genuine xnone dep P' f.
Proof.
  intros H (pk & A & B & C). exists pk. split; [exact A|]. split; [|exact C]. intros x Hx. apply H, B, Hx.
Qed.
Lemma inv_mono P P' b : incl P P' -> inv P b -> inv P' b.
Proof.
  intros H [A B C]. constructor; auto. intros r f E. eapply genuine_mono; eauto.
Qed.

Lemma push_entry_shape (b : buf) m d p : 
  push_entry is_head is_tail b m d p = b \/
  exists h t, has_seq (queue b) (seq m) = false /\
    (match last_emitted b with Some (l, _) => ((seq m <=? l) && (0 <? hold_back b)) = false | None => True end) /\
    push_entry is_head is_tail b m d p =
      mkB (hold_back b) (depack b) (insert (queue b) (mkE m d h t)) (last_emitted b) (cache b) (contig b).
Proof.
  unfold push_entry.
  destruct (match last_emitted b with Some (last, _) => (seq m <=? last) && (0 <? hold_back b) | None => false end) eqn:Q; [left; reflexivity|].
  destruct (has_seq (queue b) (seq m)) eqn:H; [left; reflexivity|]. right.
  destruct (match p with Some p => p | None => (is_head (depack b) d, is_tail (depack b) (marker m) d) end) as [h t].
  exists h, t. split; [reflexivity|]. split; [|reflexivity]. destruct (last_emitted b) as [[l x]|]; [exact Q|exact I].
Qed.

Lemma push_inv P b m d p : inv P b -> inv (P ++ [(m, d)]) (push_entry is_head is_tail b m d p).
Proof.
  intro I. assert (inv (P ++ [(m, d)]) b) as I' by (eapply inv_mono; [|exact I]; intros x Hx; apply in_or_app; auto).
  destruct (push_entry_shape b m d p) as [->|(h & t & H1 & _ & ->)]; [exact I'|].
  destruct I' as [A B C]. constructor; cbn [queue cache].
  - intros e He. apply insert_in in He as [->|He]; [|apply A; exact He]. cbn. apply in_or_app. right. left. reflexivity.
  - apply insert_sorted; [exact B|exact H1].
  - exact C.
Qed.

Lemma discard_shape (b : buf) : exists q le c, discard_old_padding b = mkB (hold_back b) (depack b) q le c (contig b) /\
  (exists k n, q = retain_padding n (skipn k (queue b)) /\
     match last_emitted b, le with
     | Some (l, x), Some (l', x') => x' = x /\ l <= l' /\ (l' = l \/ exists e, In e (firstn k (queue b)) /\ seq (emeta e) = l')
     | None, None => True | _, _ => False end) /\
  (c = None \/ c = cache b /\ q = queue b).
Proof.
  unfold discard_old_padding. destruct (last_emitted b) as [[l x]|] eqn:LE.
  - destruct (drop_front_spec (hold_back b) (queue b) l) as (k & l' & E & L & W). rewrite E.
    eexists _, _, _. split; [reflexivity|]. split; [exists k; eexists; split; [reflexivity|auto]|].
    match goal with |- context [zlen (retain_padding ?n ?s) =? _] => destruct (zlen (retain_padding n s) =? zlen (queue b)) eqn:Q; [|left; reflexivity];
      right; split; [reflexivity|]; pose proof (retain_sub s n) as S end.
    assert (forall (a b : list entry), sub a b -> zlen a <= zlen b) as SL.
    { induction 1 as [?|? ? ? ? ?|? ? ? ? ?]; rewrite ?zlen_cons, ?zlen_nil; try lia. apply zlen_nonneg. }
    pose proof (SL _ _ S). rewrite zlen_skipn in H.
    assert (skipn k (queue b) = queue b) as SK.
    { destruct k; [reflexivity|]. destruct (queue b) as [|e q] eqn:EQ; [reflexivity|]. pose proof (zlen_nonneg q). rewrite zlen_cons in *. lia. }
    rewrite SK in *. apply retain_0. lia.
  - eexists _, _, _. split; [reflexivity|]. split; [exists 0%nat; eexists; split; [reflexivity|exact I]|].
    match goal with |- context [zlen (retain_padding ?n ?s) =? _] => destruct (zlen (retain_padding n s) =? zlen (queue b)) eqn:Q; [|left; reflexivity] end.
    right. split; [reflexivity|]. apply retain_0. lia.
Qed.

Lemma sub_trans_skip k n (q : list entry) : sub (retain_padding n (skipn k q)) q.
Proof.
  revert q. induction k as [|k IH]; intro q; [apply retain_sub|]. destruct q as [|e q]; [cbn; constructor|].
  cbn [skipn]. constructor. apply IH.
Qed.

Lemma discard_inv P b : inv P b -> inv P (discard_old_padding b).
Proof.
  intros [A B C]. destruct (discard_shape b) as (q & le & c & -> & (k & n & -> & _) & HC).
  pose proof (sub_trans_skip k n (queue b)) as S.
  constructor; cbn [queue cache].
  - intros e He. apply A. apply (sub_in _ _ S). exact He.
  - eapply sub_sorted; eauto.
  - intros r f E. destruct HC as [->|[-> _]]; [discriminate|]. eapply C. exact E.
Qed.

(** What depacketize gives for the first segment. *)
Lemma depacketize_spec P b a c ab : inv P b -> seg_ok (queue b) ab -> ab = (a, c) ->
  exists ds r, depacketize xnone dep b a c = (ds, r) /\ r <> Panic /\
    forall f, r = Ok f -> genuine xnone dep P f /\
      ((exists rg, cache b = Some (rg, f) /\ range_eq rg (a, c) = true) \/
       (exists es, slice (queue b) a (c + 1) = Ok es /\ fmeta f = map emeta es)).
Proof.
  intros [A B C] S ->. destruct (seg_entries _ _ _ S) as (es & E1 & E2 & E3 & (s & E4) & (e0 & r0 & E5 & E6) & _).
  unfold depacketize. rewrite E1, E5. cbv beta iota. rewrite <- E5.
  assert (exists ds r, (match unpack dep (depack b) es [] xnone with
            | (d, Some (data, x)) => (d, Ok (mkF (time (emeta e0)) true (map emeta es) data x)) | (d, None) => (d, Err) end) = (ds, r) /\
      r <> Panic /\ forall f, r = Ok f -> genuine xnone dep P f /\ fmeta f = map emeta es) as (ds & r & FR & F1 & F2).
  { destruct (unpack dep (depack b) es [] xnone) as [d [[data x]|]] eqn:U.
    - eexists _, _. split; [reflexivity|]. split; [discriminate|]. intros f Ef. injection Ef as <-. split; [|reflexivity].
      exists (map (fun e => (emeta e, edata e)) es). split; [rewrite E5; discriminate|].
      split. { intros y Hy. apply in_map_iff in Hy as (e & <- & He). apply A, E3, He. }
      cbn [fmeta ftime fdata fextra]. rewrite map_map. cbn [fst]. split; [reflexivity|].
      split; [exists s; rewrite map_length; exact E4|]. split.
      { intros m Hm. apply in_map_iff in Hm as (e & <- & He). apply E6. exact He. }
      exists (depack b), d. rewrite map_map. cbn [snd]. rewrite <- unpack_feed. exact U.
    - eexists _, _. split; [reflexivity|]. split; [discriminate|]. discriminate. }
  rewrite FR.
  destruct (cache b) as [[rg f]|] eqn:CE.
  - destruct (range_eq rg (a, c)) eqn:RE.
    + exists (depack b), (Ok f). split; [reflexivity|]. split; [discriminate|]. intros g Eg. injection Eg as <-.
      split; [eapply C; reflexivity|]. left. exists rg. split; [reflexivity|exact RE].
    + exists ds, r. split; [reflexivity|]. split; [exact F1|]. intros f' Ef. destruct (F2 f' Ef) as [G1 G2]. split; [exact G1|].
      right. exists es. split; [first [reflexivity|exact E1|rewrite E5; reflexivity]|exact G2].
  - exists ds, r. split; [reflexivity|]. split; [exact F1|]. intros f' Ef. destruct (F2 f' Ef) as [G1 G2]. split; [exact G1|].
    right. exists es. split; [first [reflexivity|exact E1|rewrite E5; reflexivity]|exact G2].
Qed.

Lemma following_ok b start : 0 <= start < zlen (queue b) -> exists v, @is_following_last DS X CS b start = Ok v.
Proof.
  intro H. unfold is_following_last. destruct (last_emitted b) as [[l x]|]; [|eexists; reflexivity].
  rewrite upto_ok by lia. cbn [bind]. destruct (all_padding_from l _); [|eexists; reflexivity].
  destruct (idx_ok (queue b) start H) as (e & -> & _). eexists; reflexivity.
Qed.

(** One [pop], unfolded: all the shapes it can take. *)
Lemma pop_cases P b : inv P b -> exists b' o, pop xnone dep check b = Ok (b', o) /\
  ( (o = Nothing /\ b' = discard_old_padding b)
  \/ (exists a c ab e, seg_ok (queue b) ab /\ ab = (a, c) /\ idx (queue b) c = Ok e /\
      ( (exists ds, o = Failed /\ b' = mkB (hold_back b) ds (skipn (Z.to_nat (c + 1)) (queue b)) (Some (seq (emeta e), xnone)) None (contig b))
      \/ (exists ds f, genuine xnone dep P f /\
            ((exists rg, cache b = Some (rg, f) /\ range_eq rg (a, c) = true) \/
             (exists es, slice (queue b) a (c + 1) = Ok es /\ fmeta f = map emeta es)) /\
           ( (1 < hold_back b /\ o = Nothing /\ b' = discard_old_padding (mkB (hold_back b) ds (queue b) (last_emitted b) (Some ((a, c), f)) (contig b)))
           \/ (exists cs, o = Nothing /\ b' = mkB (hold_back b) ds (skipn (Z.to_nat (c + 1)) (queue b)) (last_emitted b) None cs)
           \/ (exists cs cont, o = Popped (mkF (ftime f) cont (fmeta f) (fdata f) (fextra f)) /\
                 b' = mkB (hold_back b) ds (skipn (Z.to_nat (c + 1)) (queue b)) (Some (seq (emeta e), fextra f)) None cs)))))).
Proof.
  intro I. unfold pop. pose proof (segments_ok (queue b) [] None Logic.I) as SO. cbn [app] in SO. rewrite zlen_nil in SO.
  destruct (segments (queue b) 0 None) as [|[a c] rest] eqn:SG.
  { eexists _, _. split; [reflexivity|]. left. split; reflexivity. }
  inversion SO as [|? ? S _]; subst.
  destruct (seg_entries _ _ _ S) as (es & E1 & E2 & E3 & _ & _ & (e & IE & _ & _)).
  assert (0 <= a <= c /\ c < zlen (queue b)) as [R1 R2] by (destruct S as (? & ? & _); cbn in *; lia).
  rewrite IE. cbn [bind].
  destruct (depacketize_spec P b a c (a, c) I S eq_refl) as (ds & r & D1 & D2 & D3). rewrite D1.
  destruct r as [f| |]; [| |congruence].
  - destruct (D3 f eq_refl) as [G W].
    destruct (following_ok b a ltac:(lia)) as (v & ->). cbn [bind].
    destruct (negb v && negb (hold_back b <=? zlen ((a, c) :: rest))) eqn:Q.
    + eexists _, _. split; [reflexivity|]. right. exists a, c, (a, c), e. split; [exact S|]. split; [reflexivity|]. split; [exact IE|].
      right. exists ds, f. split; [exact G|]. split; [exact W|]. left. split; [|split; reflexivity].
      rewrite zlen_cons in Q. pose proof (zlen_nonneg rest). lia.
    + destruct (check (contig b) (fextra f) v) as [cs [emit cont]].
      rewrite from_ok by lia. cbn [bind]. destruct emit; cbn [negb].
      * eexists _, _. split; [reflexivity|]. right. exists a, c, (a, c), e. split; [exact S|]. split; [reflexivity|]. split; [exact IE|].
        right. exists ds, f. split; [exact G|]. split; [exact W|]. right. right. exists cs, cont. split; reflexivity.
      * eexists _, _. split; [reflexivity|]. right. exists a, c, (a, c), e. split; [exact S|]. split; [reflexivity|]. split; [exact IE|].
        right. exists ds, f. split; [exact G|]. split; [exact W|]. right. left. exists cs. split; reflexivity.
  - rewrite from_ok by lia. cbn [bind]. eexists _, _. split; [reflexivity|]. right. exists a, c, (a, c), e.
    split; [exact S|]. split; [reflexivity|]. split; [exact IE|]. left. exists ds. split; reflexivity.
Qed.

Lemma skip_inv P b n ds le cs : inv P b -> inv P (mkB (hold_back b) ds (skipn n (queue b)) le None cs).
Proof.
  intros [A B C]. constructor; cbn [queue cache].
  - intros e He. apply A. rewrite <- (firstn_skipn n). apply in_or_app. right. exact He.
  - apply sorted_skip. exact B.
  - discriminate.
Qed.

Lemma pop_inv P b : inv P b -> exists b' o, pop xnone dep check b = Ok (b', o) /\ inv P b' /\
  (forall f, o = Popped f -> genuine xnone dep P f).
Proof.
  intro I. destruct (pop_cases P b I) as (b' & o & E & C). exists b', o. split; [exact E|].
  destruct C as [[-> ->]|(a & c & ab & e & S & -> & IE & C)].
  - split; [apply discard_inv; exact I|discriminate].
  - destruct C as [(ds & -> & ->)|(ds & f & G & W & C)].
    + split; [apply skip_inv; exact I|discriminate].
    + destruct C as [(_ & -> & ->)|[(cs & -> & ->)|(cs & cont & -> & ->)]].
      * split; [|discriminate]. apply discard_inv. destruct I as [A B C]. constructor; cbn [queue cache]; auto.
        intros r g Eg. injection Eg as <- <-. exact G.
      * split; [apply skip_inv; exact I|discriminate].
      * split; [apply skip_inv; exact I|]. intros g Eg. injection Eg as <-.
        destruct G as (pk & G). exists pk. exact G.
Qed.

Lemma run_sound : forall ops P b, inv P b -> exists b' fs, run xnone dep is_head is_tail check b ops = Ok (b', fs) /\
  inv (P ++ offered ops) b' /\ Forall (genuine xnone dep (P ++ offered ops)) fs.
Proof.
  induction ops as [|o ops IH]; intros P b I.
  - eexists _, _. split; [reflexivity|]. cbn. rewrite app_nil_r. split; [exact I|constructor].
  - cbn [run]. destruct o as [m d|m|]; cbn [bind].
    + destruct (IH (P ++ [(m, d)]) (push is_head is_tail b m d) (push_inv P b m d None I)) as (b' & fs & E & I' & F).
      cbn [fst]. rewrite E. eexists _, _. split; [reflexivity|]. cbn [fst snd offered flat_map].
      rewrite <- app_assoc in *. split; [exact I'|exact F].
    + destruct (IH (P ++ [(m, [])]) (push_padding is_head is_tail b m) (push_inv P b m [] (Some (false, false)) I)) as (b' & fs & E & I' & F).
      cbn [fst]. rewrite E. eexists _, _. split; [reflexivity|]. cbn [fst snd offered flat_map].
      rewrite <- app_assoc in *. split; [exact I'|exact F].
    + destruct (pop_inv P b I) as (b1 & o & E1 & I1 & G). rewrite E1. cbn [bind fst].
      destruct (IH P b1 I1) as (b' & fs & E & I' & F). rewrite E. eexists _, _. split; [reflexivity|].
      cbn [fst snd offered flat_map app]. split; [exact I'|].
      destruct o; try exact F. constructor; [|exact F].
      eapply genuine_mono; [|apply G; reflexivity]. intros x Hx. apply in_or_app. left. exact Hx.
Qed.

(** * Order, when a waiting frame is never stale *)
Definition cache_ok (b : buf) : Prop :=
  match cache b with
  | None => True
  | Some ((a, c), f) => exists es, slice (queue b) a (c + 1) = Ok es /\ fmeta f = map emeta es
  end.
(** everything emitted so far is at most [last_emitted], everything queued above it *)
Definition above (b : buf) (fs : list frame) : Prop :=
  (forall l x e, last_emitted b = Some (l, x) -> In e (queue b) -> l < seq (emeta e)) /\
  (forall f m, In f fs -> In m (fmeta f) -> match last_emitted b with Some (l, _) => seq m <= l | None => False end).

Lemma sorted_last q a c es e : sorted q -> 0 <= a <= c -> c < zlen q -> slice q a (c + 1) = Ok es -> idx q c = Ok e ->
  (forall x, In x es -> seq (emeta x) <= seq (emeta e)) /\ (forall x, In x (skipn (Z.to_nat (c + 1)) q) -> seq (emeta e) < seq (emeta x)) /\ incl es q.
Proof.
  intros SQ R L E I. rewrite slice_ok in E by lia. injection E as <-.
  assert (q = firstn (Z.to_nat c) q ++ e :: skipn (Z.to_nat (c + 1)) q) as EQ.
  { unfold idx in I. destruct (c <? 0) eqn:Q; [lia|]. destruct (nth_error q (Z.to_nat c)) eqn:N; [|discriminate]. injection I as <-.
    apply nth_error_split in N as (l1 & l2 & -> & NL). 
    replace (Z.to_nat (c + 1)) with (S (Z.to_nat c)) by lia. rewrite <- NL.
    rewrite firstn_app, Nat.sub_diag, firstn_all. cbn [firstn]. rewrite app_nil_r. f_equal.
    rewrite skipn_app. rewrite skipn_all2 by lia. replace (S (length l1) - length l1)%nat with 1%nat by lia. reflexivity. }
  assert (forall x, In x (firstn (Z.to_nat c) q) -> seq (emeta x) < seq (emeta e)) as LT.
  { intros x Hx. rewrite EQ in SQ. eapply sorted_app; [exact SQ|exact Hx|left; reflexivity]. }
  split.
  - intros x Hx. apply In_nth_error in Hx as [i Hi]. 
    assert (i < Z.to_nat (c + 1 - a))%nat as Li.
    { assert (i < length (firstn (Z.to_nat (c + 1 - a)) (skipn (Z.to_nat a) q)))%nat by (apply nth_error_Some; congruence).
      rewrite firstn_length in H. lia. }
    rewrite nth_firstn_lt in Hi by exact Li. rewrite nth_skipn in Hi.
    assert (Z.to_nat a + i < Z.to_nat c \/ Z.to_nat a + i = Z.to_nat c)%nat as [H|H] by lia.
    + assert (In x (firstn (Z.to_nat c) q)) as Hin. { eapply nth_error_In. rewrite nth_firstn_lt; [exact Hi|exact H]. }
      specialize (LT x Hin). lia.
    + rewrite H in Hi. unfold idx in I. destruct (c <? 0); [discriminate|]. rewrite Hi in I. injection I as ->. lia.
  - split.
    + intros x Hx. rewrite EQ in SQ. clear -SQ Hx.
      assert (sorted (e :: skipn (Z.to_nat (c + 1)) q)) as S2.
      { clear -SQ. induction (firstn (Z.to_nat c) q) as [|y l IH]; [exact SQ|]. inversion SQ; subst. apply IH. assumption. }
      inversion S2 as [|? ? F _]; subst. rewrite Forall_forall in F. apply F. exact Hx.
    + intros x Hx. rewrite <- (firstn_skipn (Z.to_nat a) q). apply in_or_app. right.
      rewrite <- (firstn_skipn (Z.to_nat (c + 1 - a)) (skipn (Z.to_nat a) q)). apply in_or_app. left. exact Hx.
Qed.

Lemma discard_order b fs : sorted (queue b) -> cache_ok b -> above b fs ->
  cache_ok (discard_old_padding b) /\ above (discard_old_padding b) fs.
Proof.
  intros S C [A1 A2]. destruct (discard_shape b) as (q & le & c & -> & (k & n & -> & HL) & HC).
  pose proof (sub_in _ _ (sub_trans_skip k n (queue b))) as SI.
  split.
  - unfold cache_ok in *. cbn [cache queue]. destruct HC as [->|[-> ->]]; [exact I|exact C].
  - split; cbn [last_emitted queue].
    + intros l' x' e E He. subst le. destruct (last_emitted b) as [[l x]|] eqn:LE; [|contradiction].
      destruct HL as (_ & L & [->|(y & Hy & <-)]).
      * eapply A1; [reflexivity|]. apply SI. exact He.
      * pose proof (firstn_skipn k (queue b)) as FS. rewrite <- FS in S.
        eapply sorted_app; [exact S|exact Hy|]. apply (sub_in _ _ (retain_sub _ n)). exact He.
    + intros f m Hf Hm. specialize (A2 f m Hf Hm). destruct (last_emitted b) as [[l x]|]; [|contradiction].
      destruct le as [[l' x']|]; [|contradiction]. destruct HL as (_ & L & _). lia.
Qed.

(** a push that does not come before the waiting frame keeps it fresh *)
Definition lands_after (b : buf) (m : meta) : Prop :=
  match cache b with
  | None => True
  | Some ((a, c), _) => forall k e, 0 <= k <= c -> idx (queue b) k = Ok e -> seq (emeta e) < seq m
  end.

Lemma insert_after : forall (q : list entry) e n, (forall i x, (i < n)%nat -> nth_error q i = Some x -> seq (emeta x) < seq (emeta e)) ->
  (n <= length q)%nat -> firstn n (insert q e) = firstn n q.
Proof.
  induction q as [|x q IH]; intros e n H L; cbn [insert length] in *; [assert (n = 0)%nat by lia; subst; reflexivity|].
  destruct n as [|n]; [reflexivity|]. pose proof (H 0%nat x ltac:(lia) eq_refl) as H0.
  destruct (seq (emeta e) <? seq (emeta x)) eqn:Q; [lia|]. cbn [firstn]. f_equal. apply IH; [|lia].
  intros i y Hi N. apply (H (S i) y); [lia|exact N].
Qed.

Lemma push_order b m d p fs : sorted (queue b) -> 0 < hold_back b -> cache_ok b -> above b fs -> lands_after b m ->
  cache_ok (push_entry is_head is_tail b m d p) /\ above (push_entry is_head is_tail b m d p) fs.
Proof.
  intros S HB C [A1 A2] LA. destruct (push_entry_shape b m d p) as [->|(h & t & H1 & H2 & ->)]; [split; [exact C|split; assumption]|].
  split.
  - unfold cache_ok, lands_after in *. cbn [cache queue]. destruct (cache b) as [[[a c] f]|]; [|exact I].
    destruct C as (es & E & F). exists es. split; [|exact F].
    unfold slice in *. destruct ((a <? 0) || (c + 1 <? a) || (zlen (queue b) <? c + 1)) eqn:Q; [discriminate|].
    assert (zlen (insert (queue b) (mkE m d h t)) = zlen (queue b) + 1) as IL.
    { clear. induction (queue b) as [|x q IH]; [reflexivity|]. cbn [insert]. destruct (_ <? _); rewrite !zlen_cons; lia. }
    rewrite IL. destruct ((a <? 0) || (c + 1 <? a) || (zlen (queue b) + 1 <? c + 1)) eqn:Q2; [lia|].
    rewrite <- E. f_equal.
    assert (firstn (Z.to_nat (c + 1)) (insert (queue b) (mkE m d h t)) = firstn (Z.to_nat (c + 1)) (queue b)) as FE.
    { apply insert_after; [|unfold zlen in *; lia]. intros i x Hi N. cbn [emeta]. apply (LA (Z.of_nat i) x); [lia|].
      unfold idx. destruct (Z.of_nat i <? 0) eqn:Q3; [lia|]. rewrite Nat2Z.id, N. reflexivity. }
    rewrite !firstn_skipn_comm.
    replace (Z.to_nat a + Z.to_nat (c + 1 - a))%nat with (Z.to_nat (c + 1)) by lia. rewrite FE. reflexivity.
  - split; cbn [last_emitted queue].
    + intros l x e E He. apply insert_in in He as [->|He]; [|eapply A1; eauto]. cbn [emeta].
      rewrite E in H2. lia.
    + exact A2.
Qed.

Definition out (o : @popped X) : list frame := match o with Popped f => [f] | _ => [] end.

Lemma pop_order P b fs : inv P b -> cache_ok b -> above b fs -> exists b' o, pop xnone dep check b = Ok (b', o) /\
  inv P b' /\ hold_back b' = hold_back b /\ cache_ok b' /\ above b' (fs ++ out o) /\
  (hold_back b = 1 -> cache b = None -> cache b' = None) /\
  (forall f g m m', o = Popped g -> In f fs -> In m (fmeta f) -> In m' (fmeta g) -> seq m < seq m').
Proof.
  intros I C A. destruct (pop_inv P b I) as (b1 & o1 & E1 & I1 & _).
  destruct (pop_cases P b I) as (b' & o & E & K). rewrite E1 in E. injection E as -> ->.
  exists b', o. split; [exact E1|]. split; [exact I1|]. clear E1 I1. pose proof (i_sorted _ _ I) as SQ.
  destruct K as [[-> ->]|(a & c & ab & e & S & -> & IE & K)].
  { destruct (discard_shape b) as (q & le & cc & ED & _ & HC). pose proof (discard_order b fs SQ C A) as [D1 D2].
    split; [rewrite ED; reflexivity|]. split; [exact D1|]. split; [cbn; rewrite app_nil_r; exact D2|].
    split; [|discriminate]. intros _ N. rewrite ED. cbn. destruct HC as [->|[-> _]]; auto. }
  assert (0 <= a <= c /\ c < zlen (queue b)) as [R1 R2] by (destruct S as (? & ? & _); cbn in *; lia).
  destruct (seg_entries _ _ _ S) as (es & SE & NE & _).
  destruct (sorted_last _ _ _ _ _ SQ R1 R2 SE IE) as (L1 & L2 & L3).
  assert (In e (queue b)) as EI. { unfold idx in IE. destruct (c <? 0); [discriminate|]. destruct (nth_error (queue b) (Z.to_nat c)) eqn:N; [|discriminate]. injection IE as <-. eapply nth_error_In; exact N. }
  destruct A as [A1 A2].
  destruct K as [(ds & -> & ->)|(ds & f & G & W & K)]; cbn [out].
  { split; [reflexivity|]. split; [exact Logic.I|]. rewrite app_nil_r. split; [|split; [reflexivity|discriminate]]. split; cbn [last_emitted queue].
    - intros l x y EQ Hy. injection EQ as <- <-. apply L2. exact Hy.
    - intros g m Hg Hm. specialize (A2 g m Hg Hm). destruct (last_emitted b) as [[l x]|] eqn:LE; [|contradiction].
      specialize (A1 l x e eq_refl EI). lia. }
  assert (fmeta f = map emeta es) as FM.
  { destruct W as [([ra rc] & CE & RE)|(es' & SE' & FM)].
    - unfold range_eq in RE. cbn [fst snd] in RE. assert (ra = a /\ rc = c) as [-> ->] by lia.
      unfold cache_ok in C. rewrite CE in C. destruct C as (es' & SE' & FM). congruence.
    - congruence. }
  destruct K as [(HB & -> & ->)|[(cs & -> & ->)|(cs & cont & -> & ->)]]; cbn [out].
  - rewrite app_nil_r. match goal with |- context [discard_old_padding ?x] => set (bb := x) end.
    assert (cache_ok bb) as CB by (exists es; split; [exact SE|exact FM]).
    destruct (discard_order bb fs SQ CB (conj A1 A2)) as [D1 D2]. destruct (discard_shape bb) as (q & le & cc & ED & _).
    split; [rewrite ED; reflexivity|]. split; [exact D1|]. split; [exact D2|]. split; [lia|discriminate].
  - rewrite app_nil_r. split; [reflexivity|]. split; [exact Logic.I|]. split; [|split; [reflexivity|discriminate]]. split; cbn [last_emitted queue].
    + intros l x y EQ Hy. eapply A1; [exact EQ|]. rewrite <- (firstn_skipn (Z.to_nat (c + 1))). apply in_or_app. right. exact Hy.
    + exact A2.
  - split; [reflexivity|]. split; [exact Logic.I|]. split; [|split; [reflexivity|]].
    + split; cbn [last_emitted queue].
      * intros l x y EQ Hy. injection EQ as <- <-. apply L2. exact Hy.
      * intros g m Hg Hm. apply in_app_or in Hg as [Hg|[<-|[]]].
        -- specialize (A2 g m Hg Hm). destruct (last_emitted b) as [[l x]|] eqn:LE; [|contradiction].
           specialize (A1 l x e eq_refl EI). lia.
        -- cbn [fmeta] in Hm. rewrite FM in Hm. apply in_map_iff in Hm as (y & <- & Hy). apply L1. exact Hy.
    + intros f0 g m m' EQ Hf Hm Hm'. injection EQ as <-. cbn [fmeta] in Hm'. rewrite FM in Hm'. apply in_map_iff in Hm' as (y & <- & Hy).
      specialize (A2 f0 m Hf Hm). destruct (last_emitted b) as [[l x]|] eqn:LE; [|contradiction].
      specialize (A1 l x y eq_refl (L3 y Hy)). lia.
Qed.

Definition ordered_from (fs gs : list frame) : Prop :=
  (forall f g m m', In f fs -> In g gs -> In m (fmeta f) -> In m' (fmeta g) -> seq m < seq m') /\ in_order gs.

Lemma in_order_cons (f : frame) gs : (forall g m m', In g gs -> In m (fmeta f) -> In m' (fmeta g) -> seq m < seq m') -> in_order gs -> in_order (f :: gs).
Proof.
  intros H O a x b y c E m m' Hm Hm'. destruct a as [|z a]; cbn in E; injection E as -> E.
  - eapply H; eauto. rewrite E. apply in_or_app. right. left. reflexivity.
  - eapply O; eauto.
Qed.

Section Run.
Variable J : list (meta * list Z) -> buf -> list op -> Prop.
Hypothesis J_lands : forall P b o m d ops, inv P b -> offered [o] = [(m, d)] -> J P b (o :: ops) -> lands_after b m.
Hypothesis J_push : forall P b o m d p ops, inv P b -> offered [o] = [(m, d)] -> J P b (o :: ops) -> J (P ++ [(m, d)]) (push_entry is_head is_tail b m d p) ops.
Hypothesis J_pop : forall P b b' ops, inv P b -> hold_back b' = hold_back b -> (hold_back b = 1 -> cache b = None -> cache b' = None) -> J P b (Pop :: ops) -> J P b' ops.

Lemma run_order : forall ops P b fs, inv P b -> 0 < hold_back b -> cache_ok b -> above b fs -> J P b ops ->
  forall b' gs, run xnone dep is_head is_tail check b ops = Ok (b', gs) -> ordered_from fs gs.
Proof.
  induction ops as [|o ops IH]; intros P b fs I HB C A HJ b' gs R.
  { injection R as <- <-. split; [intros f g m m' _ []|]. intros a f bb g c E. destruct a; discriminate. }
  cbn [run] in R.
  assert (forall m d p, offered [o] = [(m, d)] ->
    (do r2 <- run xnone dep is_head is_tail check (push_entry is_head is_tail b m d p) ops; Ok (fst r2, snd r2)) = Ok (b', gs) -> ordered_from fs gs) as PUSH.
  { intros m d p EO R1. destruct (run _ _ _ _ _ _ ops) as [[b2 g2]| |] eqn:R2; try discriminate. cbn in R1. injection R1 as <- <-.
    destruct (push_order b m d p fs (i_sorted _ _ I) HB C A (J_lands _ _ _ _ _ _ I EO HJ)) as [C2 A2].
    eapply (IH _ _ _ (push_inv P b m d p I)); [| exact C2|exact A2| |exact R2].
    - destruct (push_entry_shape b m d p) as [->|(h & t & _ & _ & ->)]; exact HB.
    - eapply J_push; eauto. }
  destruct o as [m d|m|]; cbn [bind fst snd] in R.
  - eapply PUSH; [reflexivity|exact R].
  - eapply PUSH; [reflexivity|exact R].
  - destruct (pop_order P b fs I C A) as (b1 & o1 & E1 & I1 & H1 & C1 & A1 & N1 & O1). rewrite E1 in R. cbn [bind fst snd] in R.
    destruct (run _ _ _ _ _ b1 ops) as [[b2 g2]| |] eqn:R2; try discriminate. cbn [bind fst snd] in R. injection R as <- <-.
    destruct (IH P b1 (fs ++ out o1) I1 ltac:(lia) C1 A1 (J_pop _ _ _ _ I H1 N1 HJ) _ _ R2) as [Q1 Q2].
    destruct o1 as [| |f1]; cbn [out] in *.
    + split; [|exact Q2]. intros f g m m' Hf. apply Q1. apply in_or_app. auto.
    + split; [|exact Q2]. intros f g m m' Hf. apply Q1. apply in_or_app. auto.
    + split.
      * intros f g m m' Hf [<-|Hg] Hm Hm'; [eapply O1; eauto|]. eapply Q1; eauto. apply in_or_app. auto.
      * apply in_order_cons; [|exact Q2]. intros g m m' Hg Hm Hm'. eapply Q1; eauto. apply in_or_app. right. left. reflexivity.
Qed.
End Run.

Lemma inv_new hb d c : inv [] (new (X:=X) hb d c : buf).
Proof. constructor; cbn; [intros e []|constructor|discriminate]. Qed.

Theorem order_increasing hb d c ops b' fs : 0 < hb -> increasing ops ->
  run xnone dep is_head is_tail check (new hb d c : buf) ops = Ok (b', fs) -> in_order fs.
Proof.
  intros HB INC R.
  set (J := fun (P : list (meta * list Z)) (_ : buf) ops =>
     forall a m d b m' d' c, P ++ offered ops = a ++ (m, d) :: b ++ (m', d') :: c -> seq m < seq m').
  eapply (run_order J) with (P := []) (fs := []); [| | |apply inv_new|exact HB|exact Logic.I| |exact INC|exact R].
  - intros P b o m d0 ops0 I EO HJ. unfold lands_after. destruct (cache b) as [[[a0 c0] f]|]; [|exact Logic.I].
    intros k e _ IE. assert (In e (queue b)) as EI. { unfold idx in IE. destruct (k <? 0); [discriminate|]. destruct (nth_error (queue b) (Z.to_nat k)) eqn:N; [|discriminate]. injection IE as <-. eapply nth_error_In; exact N. }
    apply (i_in _ _ I) in EI. apply in_split in EI as (l1 & l2 & EP).
    change (o :: ops0) with ([o] ++ ops0) in HJ. unfold J in HJ. unfold offered in HJ, EO. rewrite flat_map_app, EO in HJ.
    eapply HJ. rewrite EP, <- app_assoc. cbn [app]. reflexivity.
  - intros P b o m d0 p ops0 I EO HJ. unfold J in *. change (o :: ops0) with ([o] ++ ops0) in HJ. unfold offered in *. rewrite flat_map_app, EO in HJ.
    rewrite <- app_assoc. exact HJ.
  - intros P b b1 ops0 _ _ _ HJ. exact HJ.
  - split; [discriminate|]. intros f m [].
Qed.

Theorem order_one d c ops b' fs :
  run xnone dep is_head is_tail check (new 1 d c : buf) ops = Ok (b', fs) -> in_order fs.
Proof.
  intros R. set (J := fun (P : list (meta * list Z)) (b : buf) (ops : list op) => hold_back b = 1 /\ cache b = None).
  eapply (run_order J) with (P := []) (fs := []); [| | |apply inv_new| |exact Logic.I| | |exact R].
  - intros P b o m d0 ops0 I EO [_ N]. unfold lands_after. rewrite N. exact Logic.I.
  - intros P b o m d0 p ops0 I EO [H N]. destruct (push_entry_shape b m d0 p) as [->|(h & t & _ & _ & ->)]; split; assumption.
  - intros P b b1 ops0 _ H N [H1 H2]. split; [lia|auto].
  - cbn. lia.
  - split; [discriminate|]. intros f m [].
  - split; reflexivity.
Qed.
End P.

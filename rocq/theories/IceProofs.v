(** List lemmas and the pair-level facts of the ICE agent. *)
From Verif Require Import Base BaseFacts PrioModel PrioSpec PrioProofs IceModel IceSpec.
From Coq Require Import Sorted Permutation.

(** *** upd, position, positions *)
Lemma upd_split {A} (l : list A) i x : nth_error l i = Some x ->
  exists l1 l2, l = l1 ++ x :: l2 /\ length l1 = i /\ forall y, upd i y l = l1 ++ y :: l2.
Proof.
  revert i. induction l as [|a l IH]; intros i H; [destruct i; discriminate|].
  destruct i; cbn in H.
  - assert (a = x) as -> by congruence. exists [], l. repeat split.
  - destruct (IH i H) as (l1 & l2 & -> & L & U). exists (a :: l1), l2. repeat split.
    + cbn. lia.
    + intro y. cbn. rewrite U. reflexivity.
Qed.
Lemma upd_none {A} (l : list A) i y : nth_error l i = None -> upd i y l = l.
Proof.
  revert i. induction l as [|a l IH]; intros i H; [destruct i; reflexivity|].
  destruct i; [discriminate|]. cbn in *. rewrite IH; auto.
Qed.
Lemma nth_upd {A} (l : list A) i j y :
  nth_error (upd i y l) j = if (i =? j)%nat then option_map (fun _ => y) (nth_error l j) else nth_error l j.
Proof.
  revert i j. induction l as [|a l IH]; intros i j.
  - cbn. destruct i, j; cbn; try destruct (_ =? _)%nat; reflexivity.
  - destruct i, j; cbn; try reflexivity. apply IH.
Qed.
Lemma upd_length {A} (l : list A) i y : length (upd i y l) = length l.
Proof. revert i. induction l as [|a l IH]; intros []; cbn; auto. Qed.
Lemma map_upd {A B} (f : A -> B) l i y : map f (upd i y l) = upd i (f y) (map f l).
Proof. revert i. induction l as [|a l IH]; intros []; cbn; auto. rewrite IH. reflexivity. Qed.
Lemma upd_same {A} (l : list A) i x : nth_error l i = Some x -> upd i x l = l.
Proof.
  revert i. induction l as [|a l IH]; intros [] H; cbn in *; try congruence. rewrite IH; auto.
Qed.
Lemma In_upd {A} (l : list A) i y x : In x (upd i y l) -> x = y \/ In x l.
Proof.
  revert i. induction l as [|a l IH]; intros [] H; cbn in *; try tauto.
  - destruct H; auto.
  - destruct H as [H|H]; auto. destruct (IH _ H); auto.
Qed.
Lemma Forall_upd {A} (P : A -> Prop) l i y : Forall P l -> P y -> Forall P (upd i y l).
Proof. rewrite !Forall_forall. intros F Y x H. destruct (In_upd _ _ _ _ H); subst; auto. Qed.
Lemma get_ok {A} (l : list A) i x : get l i = Ok x <-> nth_error l i = Some x.
Proof. unfold get. destruct (nth_error l i); split; congruence. Qed.

Lemma position_some {A} (f : A -> bool) l i : position f l = Some i ->
  exists x, nth_error l i = Some x /\ f x = true.
Proof.
  revert i. induction l as [|a l IH]; intros i H; cbn in H; [discriminate|].
  destruct (f a) eqn:E.
  - assert (i = O) as -> by congruence. exists a. split; [reflexivity|exact E].
  - destruct (position f l) as [j|]; [|discriminate]. cbn in H. assert (i = S j) as -> by congruence.
    apply (IH j eq_refl).
Qed.
Lemma position_none {A} (f : A -> bool) l : position f l = None -> forall x, In x l -> f x = false.
Proof.
  induction l as [|a l IH]; cbn; intros H x IN; [tauto|].
  destruct (f a) eqn:E; [discriminate|]. destruct (position f l); [discriminate|].
  destruct IN as [<-|IN]; auto.
Qed.
Lemma position_exists {A} (f : A -> bool) l x : In x l -> f x = true -> exists i, position f l = Some i.
Proof.
  intros IN F. destruct (position f l) as [i|] eqn:E; eauto. rewrite (position_none _ _ E x IN) in F. discriminate.
Qed.
Lemma positions_spec {A} (f : A -> bool) l i : In i (positions f l) -> exists x, nth_error l i = Some x /\ f x = true.
Proof.
  unfold positions. rewrite in_map_iff. intros ([j x] & E & IN). cbn in E. subst j.
  apply filter_In in IN. destruct IN as [IN F]. cbn in F. exists x. split; [|exact F].
  clear F. assert (G : forall l n, In (i, x) (combine (seq n (length l)) l) -> (n <= i)%nat /\ nth_error l (i - n) = Some x).
  { clear. intro l. induction l as [|a l IH]; intros n H; cbn in H; [tauto|]. destruct H as [H|H].
    - assert (i = n /\ a = x) as [-> ->] by (split; congruence). rewrite Nat.sub_diag. split; [lia|reflexivity].
    - apply IH in H. destruct H as [L H]. split; [lia|]. replace (i - n)%nat with (S (i - S n)) by lia. exact H. }
  apply G in IN. rewrite Nat.sub_0_r in IN. tauto.
Qed.

(** *** sorting *)
Lemma insert_perm p l : Permutation (insert_pair p l) (p :: l).
Proof.
  induction l as [|q t IH]; cbn; [reflexivity|]. destruct (_ <=? _); [reflexivity|].
  rewrite IH. apply perm_swap.
Qed.
Lemma sort_perm l : Permutation (sort_pairs l) l.
Proof. induction l as [|p t IH]; cbn; [reflexivity|]. rewrite insert_perm, IH. reflexivity. Qed.
Lemma insert_sorted p l : sorted_pairs l -> sorted_pairs (insert_pair p l).
Proof.
  unfold sorted_pairs. induction 1 as [|q t S IH F]; cbn; [repeat constructor|].
  destruct (p_prio q <=? p_prio p) eqn:E.
  - constructor; [constructor; assumption|]. constructor; [unfold desc; lia|].
    eapply Forall_impl; [|exact F]. unfold desc. intros; lia.
  - constructor; [exact IH|]. rewrite Forall_forall in *. intros x IN.
    apply (Permutation_in _ (insert_perm p t)) in IN. destruct IN as [<-|IN]; [unfold desc; lia|auto].
Qed.
Lemma sort_sorted l : sorted_pairs (sort_pairs l).
Proof. induction l; cbn; [constructor|]. apply insert_sorted. assumption. Qed.
Lemma filter_sorted f l : sorted_pairs l -> sorted_pairs (filter f l).
Proof.
  induction 1 as [|q t S IH F]; cbn; [constructor|]. destruct (f q); [|exact IH].
  constructor; [exact IH|]. rewrite Forall_forall in *. intros x IN. apply filter_In in IN. apply F, IN.
Qed.
Lemma firstn_sorted n l : sorted_pairs l -> sorted_pairs (firstn n l).
Proof.
  intro H. revert n. induction H as [|q t S IH F]; intros [|n]; cbn; try (constructor; fail).
  constructor; [apply IH|].
  rewrite Forall_forall in *. intros x IN. apply F.
  rewrite <- (firstn_skipn n t). apply in_or_app. left. exact IN.
Qed.
Lemma sorted_prios l l' : map p_prio l = map p_prio l' -> sorted_pairs l -> sorted_pairs l'.
Proof.
  intros E S. revert l' E. induction S as [|q t S IH F]; intros l' E; destruct l' as [|q' t']; try discriminate; [constructor|].
  cbn in E. assert (p_prio q = p_prio q' /\ map p_prio t = map p_prio t') as [E1 E2] by (split; congruence).
  constructor; [apply IH; exact E2|]. rewrite Forall_forall in *. intros x IN.
  apply (in_map p_prio) in IN. rewrite <- E2 in IN. apply in_map_iff in IN. destruct IN as (y & Y1 & Y2).
  apply F in Y2. unfold desc in *. lia.
Qed.
Lemma upd_sorted l i p p' : nth_error l i = Some p -> p_prio p' = p_prio p -> sorted_pairs l -> sorted_pairs (upd i p' l).
Proof.
  intros N E S. eapply sorted_prios; [|exact S]. rewrite map_upd, E. symmetry. apply upd_same.
  rewrite nth_error_map, N. reflexivity.
Qed.

(** *** sub-multisets: [sub ps ps'] when ps' keeps only elements of ps *)
Lemma NoDup_filter_map {A B} (g : A -> B) f (l : list A) : NoDup (map g l) -> NoDup (map g (filter f l)).
Proof.
  induction l as [|a l IH]; cbn; [auto|]. intro H. inversion H as [|? ? N D]; subst.
  destruct (f a); cbn; [constructor|]; auto. intro IN. apply N. apply in_map_iff in IN. destruct IN as (x & X & IN).
  rewrite <- X. apply in_map. apply filter_In in IN. tauto.
Qed.
Lemma NoDup_app_l {A} (l1 l2 : list A) : NoDup (l1 ++ l2) -> NoDup l1.
Proof.
  induction l1 as [|x t IH]; cbn; [constructor|]. intro H. inversion H as [|? ? N D]; subst. constructor; [|auto].
  intro IN. apply N. apply in_or_app. left. exact IN.
Qed.
Lemma NoDup_app_inv {A} (l1 l2 : list A) : NoDup (l1 ++ l2) -> NoDup l1 /\ NoDup l2 /\ forall x, In x l1 -> ~ In x l2.
Proof.
  induction l1 as [|x t IH]; cbn.
  - intro H. repeat split; [constructor|exact H|tauto].
  - intro H. inversion H as [|? ? N D]; subst. destruct (IH D) as (A1 & A2 & A3). repeat split; auto.
    + constructor; [|exact A1]. intro. apply N, in_or_app. auto.
    + intros y [<-|Y] Y2; [apply N, in_or_app; auto|apply (A3 y Y Y2)].
Qed.
Lemma NoDup_app_intro {A} (l1 l2 : list A) : NoDup l1 -> NoDup l2 -> (forall x, In x l1 -> ~ In x l2) -> NoDup (l1 ++ l2).
Proof.
  induction l1 as [|x t IH]; cbn; intros A1 A2 A3; [exact A2|]. inversion A1 as [|? ? N D]; subst. constructor.
  - intro IN. apply in_app_or in IN. destruct IN as [IN|IN]; [tauto|]. apply (A3 x); auto.
  - apply IH; auto.
Qed.
Lemma NoDup_upd {A} (l : list A) i y : NoDup l -> ~ In y l -> NoDup (upd i y l).
Proof.
  revert i. induction l as [|a l IH]; intros i H N; [destruct i; exact H|]. inversion H as [|? ? N1 D]; subst.
  destruct i; cbn in *.
  - constructor; tauto.
  - constructor; [|apply IH; tauto]. intro IN. apply In_upd in IN. destruct IN as [->|IN]; tauto.
Qed.

(** *** equalities *)
Lemma addr_eqb_eq a b : addr_eqb a b = true <-> a = b.
Proof.
  unfold addr_eqb. destruct a as [x m], b as [y n]. cbn. rewrite andb_true_iff, Bool.eqb_true_iff, Z.eqb_eq.
  split; [intros []; congruence|intro H; split; congruence].
Qed.
Lemma cproto_eqb_eq a b : cproto_eqb a b = true <-> a = b.
Proof. destruct a, b; cbn; split; congruence. Qed.
Lemma conn_eqb_eq a b : conn_eqb a b = true <-> a = b.
Proof. destruct a, b; cbn; split; congruence. Qed.

(** *** [best]: the last maximum *)
Lemma best_from_spec f l : forall i cur,
  (forall j q, cur = Some (j, q) -> (j < i)%nat) ->
  match best_from f l i cur with
  | None => cur = None /\ forall p, In p l -> f p = false
  | Some (j, q) =>
      ((cur = Some (j, q)) \/ (exists p, (i <= j)%nat /\ nth_error l (j - i) = Some p /\ f p = true /\ p_prio p = q))
      /\ (forall p, In p l -> f p = true -> p_prio p <= q)
      /\ (forall j0 q0, cur = Some (j0, q0) -> q0 <= q)
  end.
Proof.
  induction l as [|p t IH]; intros i cur HC; cbn.
  - destruct cur as [[j q]|]; [|split; [reflexivity|tauto]]. split; [left; reflexivity|]. split; [tauto|].
    intros j0 q0 E. assert (q0 = q) by congruence. lia.
  - match goal with |- context[best_from f t (S i) ?c] => set (cur' := c); specialize (IH (S i) cur') end.
    assert (HC' : forall j q, cur' = Some (j, q) -> (j < S i)%nat).
    { unfold cur'. intros j q E. destruct (f p).
      - destruct cur as [[j0 q0]|].
        + destruct (q0 <=? p_prio p).
          * assert (i = j) by congruence. lia.
          * assert (j < i)%nat by (eapply HC; eauto). lia.
        + assert (i = j) by congruence. lia.
      - assert (j < i)%nat by (eapply HC; eauto). lia. }
    specialize (IH HC').
    destruct (best_from f t (S i) cur') as [[j q]|].
    + destruct IH as (A1 & A2 & A3). split; [|split].
      * destruct A1 as [A1|(p1 & L & N & F & P)].
        -- unfold cur' in A1. destruct (f p) eqn:FP.
           ++ destruct cur as [[j0 q0]|].
              ** destruct (q0 <=? p_prio p) eqn:E.
                 { right. exists p. assert (i = j /\ p_prio p = q) as [-> <-] by (split; congruence).
                   rewrite Nat.sub_diag. repeat split; auto. }
                 { left. exact A1. }
              ** right. exists p. assert (i = j /\ p_prio p = q) as [-> <-] by (split; congruence).
                 rewrite Nat.sub_diag. repeat split; auto.
           ++ left. exact A1.
        -- right. exists p1. replace (j - i)%nat with (S (j - S i)) by lia. repeat split; auto; lia.
      * intros p1 [<-|IN] F.
        -- unfold cur' in A3. rewrite F in A3. destruct cur as [[j0 q0]|].
           ++ destruct (q0 <=? p_prio p) eqn:E; [exact (A3 _ _ eq_refl)|]. specialize (A3 _ _ eq_refl). lia.
           ++ exact (A3 _ _ eq_refl).
        -- auto.
      * intros j0 q0 ->. unfold cur' in A3. destruct (f p).
        -- destruct (q0 <=? p_prio p) eqn:E; specialize (A3 _ _ eq_refl); lia.
        -- exact (A3 _ _ eq_refl).
    + destruct IH as [A1 A2]. unfold cur' in A1. destruct (f p) eqn:FP.
      * destruct cur as [[j0 q0]|]; [destruct (q0 <=? p_prio p)|]; discriminate.
      * split; [exact A1|]. intros p1 [<-|IN]; auto.
Qed.
Lemma best_some f l i : best f l = Some i ->
  exists p, nth_error l i = Some p /\ f p = true /\ forall q, In q l -> f q = true -> p_prio q <= p_prio p.
Proof.
  unfold best. intro H. pose proof (best_from_spec f l 0 None) as S. destruct (best_from f l 0 None) as [[j q]|]; [|discriminate].
  cbn in H. assert (j = i) as -> by congruence. destruct S as (A1 & A2 & _); [congruence|].
  destruct A1 as [A1|(p & _ & N & F & P)]; [discriminate|]. rewrite Nat.sub_0_r in N. exists p. repeat split; auto.
  intros x IN FX. rewrite P. auto.
Qed.
Lemma best_none f l : best f l = None -> forall p, In p l -> f p = false.
Proof.
  unfold best. intro H. pose proof (best_from_spec f l 0 None) as S. destruct (best_from f l 0 None) as [[j q]|]; [discriminate|].
  destruct S as [_ S]; [congruence|]. exact S.
Qed.

(** *** [min_from]: the first minimum *)
Lemma min_from_spec l : forall i cur,
  match min_from l i cur with
  | None => cur = None /\ l = []
  | Some (j, q) =>
      (cur = Some (j, q) \/ ((i <= j)%nat /\ nth_error l (j - i) = Some q))
      /\ (forall x, In x l -> q <= x) /\ (forall j0 q0, cur = Some (j0, q0) -> q <= q0)
  end.
Proof.
  induction l as [|t r IH]; intros i cur; cbn.
  - destruct cur as [[j q]|]; [|auto]. split; [auto|]. split; [tauto|]. intros j0 q0 E. assert (q0 = q) by congruence. lia.
  - match goal with |- context[min_from r (S i) ?c] => set (cur' := c); specialize (IH (S i) cur') end.
    destruct (min_from r (S i) cur') as [[j q]|].
    + destruct IH as (A1 & A2 & A3). split; [|split].
      * destruct A1 as [A1|[L N]].
        -- unfold cur' in A1. destruct cur as [[j0 q0]|].
           ++ destruct (t <? q0); [right|left; exact A1]. assert (i = j /\ t = q) as [-> ->] by (split; congruence).
              rewrite Nat.sub_diag. auto.
           ++ right. assert (i = j /\ t = q) as [-> ->] by (split; congruence). rewrite Nat.sub_diag. auto.
        -- right. replace (j - i)%nat with (S (j - S i)) by lia. split; [lia|exact N].
      * intros x [<-|IN]; [|auto]. unfold cur' in A3. destruct cur as [[j0 q0]|].
        -- destruct (t <? q0) eqn:E; specialize (A3 _ _ eq_refl); lia.
        -- exact (A3 _ _ eq_refl).
      * intros j0 q0 ->. unfold cur' in A3. destruct (t <? q0) eqn:E; specialize (A3 _ _ eq_refl); lia.
    + destruct IH as [A1 _]. unfold cur' in A1. destruct cur as [[j0 q0]|]; [destruct (t <? q0)|]; discriminate.
Qed.

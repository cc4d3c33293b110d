(** Packing RTCP feedback: invariants of merge, pack and emit. *)
From Verif Require Import Base BaseFacts TwccModel TwccSpec RtcpModel RtcpSpec RtcpNoPanic RtcpProofs RtcpRound RtcpProps.
From Coq Require Import Permutation.

Definition nsum (l : list rtcp) : nat := fold_right (fun p n => (nitems p + n)%nat) 0%nat l.

Lemma ntake_spec {A} (wsz : A -> Z) : (forall x, 0 <= wsz x) -> forall room b w, 0 <= w ->
  let n := ntake wsz room b w in
  (n <= room)%nat /\ (n <= length b)%nat /\ sumz (map wsz (firstn n b)) <= w.
Proof.
  intro Hp. induction room as [|room IH]; intros b w Hw; cbn [ntake]; cbv zeta.
  - split; [lia|]. split; [lia|]. cbn [firstn map]. change (sumz []) with 0. lia.
  - destruct b as [|x b].
    + split; [lia|]. split; [cbn; lia|]. cbn [firstn map]. change (sumz []) with 0. lia.
    + destruct (w <? wsz x) eqn:E.
      * split; [lia|]. split; [lia|]. cbn [firstn map]. change (sumz []) with 0. lia.
      * destruct (IH b (w - wsz x) ltac:(lia)) as (H1 & H2 & H3).
        split; [lia|]. split; [cbn [length]; lia|]. cbn [firstn map]. unfold sumz in *. cbn [fold_right]. lia.
Qed.
Lemma sumz_app a b : sumz (a ++ b) = sumz a + sumz b.
Proof. unfold sumz. induction a as [|x a IH]; cbn [app fold_right]; lia. Qed.
Lemma sumz_const {A} c (l : list A) : sumz (map (fun _ => c) l) = c * zlen l.
Proof. induction l as [|x l IH]; [change (zlen (@nil A)) with 0; unfold sumz; cbn; lia|]. unfold sumz in *. cbn [map fold_right]. rewrite zlen_cons. lia. Qed.

Lemma append_spec {A} (wsz : A -> Z) a b w x y n : (forall v, 0 <= wsz v) -> 0 <= w -> upto31 a -> upto31 b ->
  append wsz a b w = (x, y, n) ->
  x ++ y = a ++ b /\ upto31 x /\ upto31 y /\ sumz (map wsz x) + sumz (map wsz y) = sumz (map wsz a) + sumz (map wsz b) /\
  sumz (map wsz x) <= sumz (map wsz a) + w /\ sumz (map wsz y) <= sumz (map wsz b) /\
  (length x + length y = length a + length b)%nat /\ (length y + n = length b)%nat /\ (n = 0%nat -> x = a /\ y = b).
Proof.
  intros Hp Hw Ha Hb E. unfold append in E. set (k := ntake wsz (31 - length a) b w) in *.
  destruct (ntake_spec wsz Hp (31 - length a) b w Hw) as (H1 & H2 & H3). fold k in H1, H2, H3. clearbody k.
  injection E as <- <- <-. unfold upto31 in *.
  assert (sumz (map wsz (firstn k b)) + sumz (map wsz (skipn k b)) = sumz (map wsz b)) as Sp.
  { rewrite <- sumz_app, <- map_app, firstn_skipn. reflexivity. }
  assert (0 <= sumz (map wsz (firstn k b))) as Np.
  { apply sumz_nonneg. apply Forall_forall. intros v Hv. apply in_map_iff in Hv. destruct Hv as (u & <- & _). apply Hp. }
  split; [rewrite <- app_assoc, firstn_skipn; reflexivity|].
  split; [rewrite app_length, firstn_length; lia|]. split; [rewrite skipn_length; lia|].
  rewrite map_app, sumz_app. split; [lia|]. split; [lia|]. split; [lia|].
  rewrite app_length, firstn_length, skipn_length. split; [lia|]. split; [lia|].
  intros ->. cbn [firstn skipn]. rewrite app_nil_r. auto.
Qed.

(** what [merge] guarantees *)
Definition merged (a b a' b' : rtcp) (w : Z) (did : bool) : Prop :=
  items a' ++ items b' = items a ++ items b /\ lists_ok a' /\ lists_ok b' /\
  order_no a' = order_no a /\ order_no b' = order_no b /\
  words a' <= words a + w /\ words b' <= words b /\ words a' + words b' = words a + words b /\
  (nitems a' + nitems b' = nitems a + nitems b)%nat /\ (nitems b' <= nitems b)%nat /\
  (did = true -> (nitems b' < nitems b)%nat) /\ (did = false -> a' = a /\ b' = b).
Lemma merged_same a b w : 0 <= w -> lists_ok a -> lists_ok b -> merged a b a b w false.
Proof. intros; unfold merged; repeat split; auto; try lia; try congruence. Qed.
Lemma ltb_n n : (0 <? n)%nat = true -> (0 < n)%nat. Proof. intro H. apply Nat.ltb_lt in H. lia. Qed.
Lemma ltb_n0 n : (0 <? n)%nat = false -> n = 0%nat. Proof. intro H. apply Nat.ltb_ge in H. lia. Qed.
Ltac mg wsz0 Hw Ha Hb :=
  match goal with |- context [append ?wsz ?r1 ?r2 ?w] =>
    let x := fresh "x" in let y := fresh "y" in let n := fresh "n" in let E := fresh "E" in
    destruct (append wsz r1 r2 w) as [[x y] n] eqn:E;
    pose proof (append_spec wsz r1 r2 w x y n wsz0 Hw Ha Hb E) as (S1 & S2 & S3 & S4 & S5 & S6 & S7 & S8 & S9)
  end.
Lemma merge_merged a b w a' b' did : 0 <= w -> lists_ok a -> lists_ok b -> merge a b w = (a', b', did) -> merged a b a' b' w did.
Proof.
  intros Hw Ha Hb. 
  assert (forall a b, lists_ok a -> lists_ok b -> (a, b, false) = (a', b', did) -> merged a b a' b' w did) as Same.
  { intros ? ? ? ? Q. injection Q as <- <- <-. apply merged_same; assumption. }
  assert (forall {A B} (f : A -> B) (l1 l2 l3 l4 : list A), l1 ++ l2 = l3 ++ l4 -> map f l1 ++ map f l2 = map f l3 ++ map f l4) as Mp.
  { intros A B f l1 l2 l3 l4 E. rewrite <- !map_app, E. reflexivity. }
  destruct a, b; cbn [merge]; try (apply Same; assumption).
  - mg (fun _ : rr => ltac:(lia) : 0 <= 6) Hw Ha Hb. intro Q; injection Q as <- <- <-. rewrite !sumz_const in *.
    unfold merged. cbn [items lists_ok order_no words nitems]. split; [cbn [app]; f_equal; apply Mp; assumption|].
    do 9 (split; [first [assumption|lia]|]). split; [intro D; apply ltb_n in D; lia|intro D; apply ltb_n0 in D; destruct (S9 D); subst; auto].
  - mg (fun _ : rr => ltac:(lia) : 0 <= 6) Hw Ha Hb. intro Q; injection Q as <- <- <-. rewrite !sumz_const in *.
    unfold merged. cbn [items lists_ok order_no words nitems]. split; [apply Mp; assumption|].
    do 9 (split; [first [assumption|lia]|]). split; [intro D; apply ltb_n in D; lia|intro D; apply ltb_n0 in D; destruct (S9 D); subst; auto].
  - assert (forall v, 0 <= sdes_size v) as SP by (intro v; pose proof (sdes_size_pos v); lia).
    mg SP Hw Ha Hb. intro Q; injection Q as <- <- <-.
    unfold merged. cbn [items lists_ok order_no words nitems]. split; [apply Mp; assumption|].
    do 9 (split; [first [assumption|lia]|]). split; [intro D; apply ltb_n in D; lia|intro D; apply ltb_n0 in D; destruct (S9 D); subst; auto].
  - mg (fun _ : Z => ltac:(lia) : 0 <= 1) Hw Ha Hb. intro Q; injection Q as <- <- <-. rewrite !sumz_const in *.
    unfold merged. cbn [items lists_ok order_no words nitems]. split; [apply Mp; assumption|].
    do 9 (split; [first [assumption|lia]|]). split; [intro D; apply ltb_n in D; lia|intro D; apply ltb_n0 in D; destruct (S9 D); subst; auto].
  - destruct (ssrc =? ssrc0) eqn:ES; [|apply Same; assumption]. apply Z.eqb_eq in ES. subst ssrc0.
    mg (fun _ : nentry => ltac:(lia) : 0 <= 1) Hw Ha Hb. intro Q; injection Q as <- <- <-. rewrite !sumz_const in *.
    unfold merged. cbn [items lists_ok order_no words nitems]. split; [apply Mp; assumption|].
    do 9 (split; [first [assumption|lia]|]). split; [intro D; apply ltb_n in D; lia|intro D; apply ltb_n0 in D; destruct (S9 D); subst; auto].
  - mg (fun _ : fentry => ltac:(lia) : 0 <= 2) Hw Ha Hb. intro Q; injection Q as <- <- <-. rewrite !sumz_const in *.
    unfold merged. cbn [items lists_ok order_no words nitems]. split; [apply Mp; assumption|].
    do 9 (split; [first [assumption|lia]|]). split; [intro D; apply ltb_n in D; lia|intro D; apply ltb_n0 in D; destruct (S9 D); subst; auto].
Qed.

(** what packing may do to a queue *)
Definition repacked (C : Z) (l l' : list rtcp) : Prop :=
  Permutation (flat_map items l) (flat_map items l') /\ Forall lists_ok l' /\ map order_no l' = map order_no l /\
  (Forall (fun p => words p <= C) l -> Forall (fun p => words p <= C) l').
Lemma repacked_refl C l : Forall lists_ok l -> repacked C l l.
Proof. intro; repeat split; auto. Qed.
Lemma repacked_trans C a b c : repacked C a b -> repacked C b c -> repacked C a c.
Proof.
  intros (P1 & L1 & O1 & W1) (P2 & L2 & O2 & W2). split; [eapply perm_trans; eassumption|]. split; [assumption|].
  split; [congruence|auto].
Qed.
Lemma repacked_pre C pre a b : Forall lists_ok pre -> repacked C a b -> repacked C (pre ++ a) (pre ++ b).
Proof.
  intros F (P & L & O & W). unfold repacked. rewrite !flat_map_app, !map_app, O. split; [apply Permutation_app_head; assumption|].
  split; [apply Forall_app; auto|]. split; [reflexivity|]. intro G. apply Forall_app in G. destruct G. apply Forall_app; auto.
Qed.

Lemma pack_into_spec : forall rest cap C a any brk a' rest' any', lists_ok a -> Forall lists_ok rest -> words a <= cap -> cap <= C ->
  pack_into cap a rest any = (brk, a', rest', any') ->
  brk = false /\ words a' <= cap /\ repacked C (a :: rest) (a' :: rest') /\ length rest' = length rest /\
  (nsum rest' <= nsum rest)%nat /\ (any' = true -> any = true \/ (nsum rest' < nsum rest)%nat).
Proof.
  induction rest as [|b bs IH]; intros cap C a any brk a' rest' any' Ha Hr Hw HC E; cbn [pack_into] in E.
  - injection E as <- <- <- <-. split; [reflexivity|]. split; [assumption|]. split; [apply repacked_refl; auto|]. split; [reflexivity|]. split; [lia|auto].
  - pose proof (Forall_inv Hr) as Hb. pose proof (Forall_inv_tail Hr) as Hbs.
    destruct (is_full a || is_empty a).
    { injection E as <- <- <- <-. split; [reflexivity|]. split; [assumption|]. split; [apply repacked_refl; auto|]. split; [reflexivity|]. split; [lia|auto]. }
    destruct (cap <? words a) eqn:Ec; [lia|].
    destruct (merge a b (cap - words a)) as [[a1 b1] did] eqn:Em.
    apply merge_merged in Em; [|lia|assumption|assumption].
    destruct Em as (M1 & M2 & M3 & M4 & M5 & M6 & M7 & M8 & M9 & M10 & M11 & M12).
    destruct (pack_into cap a1 bs (any || did)) as [[[brk2 a2] bs2] any2] eqn:Ep.
    injection E as <- <- <- <-.
    destruct (IH cap C a1 (any || did) brk2 a2 bs2 any2 M2 Hbs ltac:(lia) HC Ep) as (I1 & I2 & I3 & I4 & I5 & I6).
    split; [assumption|]. split; [assumption|]. split.
    + destruct I3 as (P & L & O & W). split; [|split; [|split]].
      * cbn [flat_map] in *. rewrite app_assoc, <- M1, <- app_assoc.
        eapply perm_trans; [apply Permutation_app_swap_app|]. eapply perm_trans; [apply Permutation_app_head; exact P|].
        apply Permutation_app_swap_app.
      * constructor; [exact (Forall_inv L)|]. constructor; [assumption|exact (Forall_inv_tail L)].
      * cbn [map] in *. injection O as O1 O2. rewrite O1, O2, M4, M5. reflexivity.
      * intro G. pose proof (Forall_inv G) as G1. pose proof (Forall_inv (Forall_inv_tail G)) as G2. pose proof (Forall_inv_tail (Forall_inv_tail G)) as G3. cbn beta in *.
        assert (Forall (fun p => words p <= C) (a2 :: bs2)) as G4 by (apply W; constructor; [lia|assumption]).
        constructor; [exact (Forall_inv G4)|]. constructor; [lia|exact (Forall_inv_tail G4)].
    + cbn [length nsum fold_right]. split; [lia|]. fold (nsum bs2) (nsum bs). split; [lia|].
      intro A. destruct (I6 A) as [D|D]; [|right; lia]. apply orb_true_iff in D. destruct D as [D|D]; [auto|]. right. specialize (M11 D). lia.
Qed.

Lemma pack_loop_spec : forall fuel cap C pre a rest, Forall lists_ok pre -> lists_ok a -> Forall lists_ok rest -> cap <= C ->
  (length rest + nsum rest < fuel)%nat ->
  exists l, pack_loop fuel cap pre a rest = Ok l /\ repacked C (pre ++ a :: rest) l.
Proof.
  induction fuel as [|fuel IH]; intros cap C pre a rest Hp Ha Hr HC Hf; [lia|]. cbn [pack_loop].
  destruct rest as [|b bs].
  { exists (pre ++ [a]). split; [reflexivity|]. apply repacked_refl. apply Forall_app. auto. }
  destruct (cap <? words a) eqn:Ec.
  { eexists. split; [reflexivity|]. apply repacked_refl. apply Forall_app. auto. }
  destruct (pack_into cap a (b :: bs) false) as [[[brk a1] rest1] any] eqn:Ep.
  destruct (pack_into_spec (b :: bs) cap C a false brk a1 rest1 any Ha Hr ltac:(lia) HC Ep) as (I1 & I2 & I3 & I4 & I5 & I6). subst brk.
  pose proof I3 as (_ & L & _). pose proof (Forall_inv L) as L1. pose proof (Forall_inv_tail L) as L2.
  destruct any.
  - destruct (I6 eq_refl) as [D|D]; [discriminate|].
    destruct (IH cap C pre a1 rest1 Hp L1 L2 HC ltac:(lia)) as (l & El & Rl).
    exists l. split; [exact El|]. eapply repacked_trans; [|exact Rl]. apply repacked_pre; assumption.
  - destruct (cap <? words a1) eqn:Ec1; [lia|]. destruct rest1 as [|b1 bs1]; [discriminate|].
    pose proof (words_pos a1).
    destruct (IH (cap - words a1) C (pre ++ [a1]) b1 bs1) as (l & El & Rl).
    + apply Forall_app. auto.
    + exact (Forall_inv L2).
    + exact (Forall_inv_tail L2).
    + lia.
    + cbn [length nsum fold_right] in *. fold (nsum bs1) (nsum bs) in *. lia.
    + exists l. split; [exact El|]. rewrite <- app_assoc in Rl. cbn [app] in Rl.
      eapply repacked_trans; [|exact Rl]. apply repacked_pre; assumption.
Qed.

(** sorting *)
Lemma insert_perm p l : Permutation (p :: l) (insert p l).
Proof.
  induction l as [|q l IH]; cbn [insert]; [reflexivity|]. destruct (_ <=? _); [reflexivity|].
  eapply perm_trans; [apply perm_swap|]. apply perm_skip. exact IH.
Qed.
Lemma sort_perm l : Permutation l (sort l).
Proof. induction l as [|p l IH]; cbn [sort]; [reflexivity|]. eapply perm_trans; [apply perm_skip; exact IH|]. apply insert_perm. Qed.
Lemma insert_asc p l : ascending (map order_no l) -> ascending (map order_no (insert p l)).
Proof.
  induction l as [|q l IH]; intro H; cbn [insert]; [exact I|].
  destruct (order_no p <=? order_no q) eqn:E; [cbn [map ascending]; split; [lia|exact H]|].
  destruct l as [|q2 l]; [cbn [insert map ascending]; split; [lia|exact I]|].
  cbn [map ascending] in H. destruct H as [H1 H2]. specialize (IH H2). cbn [insert] in *.
  destruct (order_no p <=? order_no q2); cbn [map ascending] in *; (split; [lia|assumption]).
Qed.
Lemma sort_asc l : ascending (map order_no (sort l)).
Proof. induction l as [|p l IH]; cbn [sort]; [exact I|]. apply insert_asc. exact IH. Qed.

Lemma asc_tail a l : ascending (a :: l) -> ascending l.
Proof. destruct l; cbn [ascending]; [auto|]. intros [_ H]; exact H. Qed.
Lemma asc_cons a l : ascending l -> (forall x, In x l -> a <= x) -> ascending (a :: l).
Proof. intros H F. destruct l; cbn [ascending]; [exact I|]. split; [apply F; left; reflexivity|exact H]. Qed.
Lemma asc_head a l : ascending (a :: l) -> forall x, In x l -> a <= x.
Proof.
  revert a. induction l as [|b l IH]; intros a H x Hx; [destruct Hx|]. cbn [ascending] in H. destruct H as [H1 H2].
  destruct Hx as [<-|Hx]; [assumption|]. specialize (IH b H2 x Hx). lia.
Qed.
Lemma asc_filter {A} (f : A -> bool) (k : A -> Z) l : ascending (map k l) -> ascending (map k (filter f l)).
Proof.
  induction l as [|a l IH]; intro H; cbn [filter map]; [exact I|].
  cbn [map] in H. specialize (IH (asc_tail _ _ H)). destruct (f a); [|exact IH].
  cbn [map]. apply asc_cons; [exact IH|]. intros x Hx. apply in_map_iff in Hx. destruct Hx as (y & <- & Hy).
  apply filter_In in Hy. apply (asc_head _ _ H). apply in_map. apply Hy.
Qed.

Lemma empty_items p : is_empty p = true -> items p = [].
Proof. destruct p; cbn [is_empty items]; try discriminate; destruct reports || destruct blocks; try discriminate; reflexivity. Qed.
Lemma filter_items l : flat_map items (filter (fun p => negb (is_empty p)) l) = flat_map items l.
Proof.
  induction l as [|p l IH]; cbn [filter flat_map]; [reflexivity|]. destruct (is_empty p) eqn:E; cbn [negb].
  - rewrite (empty_items p E), IH. reflexivity.
  - cbn [flat_map]. rewrite IH. reflexivity.
Qed.
Lemma Forall_filter {A} (P : A -> Prop) f l : Forall P l -> Forall P (filter f l).
Proof. intro H. apply Forall_forall. intros x Hx. apply filter_In in Hx. rewrite Forall_forall in H. apply H, Hx. Qed.

Lemma pack_spec q cap : Forall lists_ok q -> exists l, pack q cap = Ok l /\
  Permutation (flat_map items q) (flat_map items l) /\ Forall lists_ok l /\ ascending (map order_no l) /\
  (Forall (fun p => words p <= cap) q -> Forall (fun p => words p <= cap) l) /\
  (length l <= length q)%nat /\
  (length q = 1%nat -> l = q) /\ (length q <> 1%nat -> Forall (fun p => is_empty p = false) l).
Proof.
  intro F. destruct q as [|p1 [|p2 q]]; cbn [pack].
  - exists []. repeat split; auto.
  - exists [p1]. repeat split; auto. intro H; cbn in H; lia.
  - set (q0 := p1 :: p2 :: q) in *. pose proof (sort_perm q0) as SP. pose proof (sort_asc q0) as SA.
    assert (Forall lists_ok (sort q0)) as SF by (eapply Permutation_Forall; [exact SP|exact F]).
    destruct (sort q0) as [|a rest] eqn:Es.
    { apply Permutation_sym, Permutation_nil in SP. discriminate. }
    destruct (pack_loop_spec (pack_fuel (a :: rest)) cap cap [] a rest (Forall_nil _) (Forall_inv SF) (Forall_inv_tail SF) ltac:(lia)) as (l & El & P & L & O & W).
    { unfold pack_fuel. cbn [fold_right]. clear. assert (length rest + nsum rest <= fold_right (fun p n => S (nitems p + n)) 0%nat rest)%nat; [|lia].
      induction rest as [|p l IH]; cbn [length nsum fold_right]; [lia|]. fold (nsum l). lia. }
    rewrite El. cbn [bind]. exists (filter (fun p => negb (is_empty p)) l). split; [reflexivity|].
    assert (length l = length q0) as Ll.
    { pose proof (f_equal (@length Z) O) as E. rewrite !map_length in E. cbn [app] in E. rewrite (Permutation_length SP). exact E. }
    split; [|split; [|split; [|split; [|split; [|split]]]]].
    + rewrite filter_items. eapply perm_trans; [apply Permutation_flat_map; exact SP|exact P].
    + apply Forall_filter. exact L.
    + apply asc_filter. rewrite O. exact SA.
    + intro G. apply Forall_filter. apply W. cbn [app]. eapply Permutation_Forall; [exact SP|exact G].
    + assert (length (filter (fun p => negb (is_empty p)) l) <= length l)%nat; [|lia]. clear. induction l as [|p l IH]; cbn; [lia|]. destruct (negb _); cbn; lia.
    + intro H. cbn in H. lia.
    + intros _. apply Forall_forall. intros x Hx. apply filter_In in Hx. destruct (is_empty x); [destruct Hx; discriminate|reflexivity].
Qed.

Lemma emit_spec : forall q left, Forall lists_ok q -> 0 <= left -> exists bs out rest, emit left q = Ok (bs, out, rest) /\
  q = out ++ rest /\ write_all out = Ok bs /\ zlen bs <= left /\
  (forall p r, rest = p :: r -> left - zlen bs < 4 * words p).
Proof.
  induction q as [|p q IH]; intros left F Hl; cbn [emit].
  - exists [], [], []. repeat split; auto. intros; discriminate.
  - destruct (left <? words p * 4) eqn:E.
    + exists [], [], (p :: q). split; [reflexivity|]. split; [reflexivity|]. split; [reflexivity|]. change (zlen (@nil Z)) with 0. split; [lia|].
      intros p0 r Q. injection Q as <- _. lia.
    + destruct (write_len p (Forall_inv F)) as (b1 & E1 & L1). rewrite E1. cbn [bind].
      destruct (left <? zlen b1) eqn:E2; [lia|]. destruct (4 * words p =? words p * 4) eqn:E3; [cbn [negb]|lia].
      destruct (IH (left - words p * 4) (Forall_inv_tail F) ltac:(lia)) as (bs & out & rest & -> & Eq & Ew & Lw & Hh). cbn [bind].
      exists (b1 ++ bs), (p :: out), rest. split; [reflexivity|]. split; [cbn [app]; rewrite <- Eq; reflexivity|].
      split; [cbn [write_all]; rewrite E1; cbn [bind]; rewrite Ew; reflexivity|]. rewrite zlen_app.
      split; [lia|]. intros p0 r Q. specialize (Hh p0 r Q). lia.
Qed.

(** Lemmas about priorities. *)
From Verif Require Import Base BaseFacts PrioModel PrioSpec.

Lemma type_pref_range k p : 0 <= type_preference k p <= 126.
Proof. destruct k, p; cbn; lia. Qed.

Lemma prio_bits tp lp k : 0 <= tp <= 126 -> 0 <= lp <= 65535 -> 0 <= k <= 255 ->
  Z.lor (Z.lor (Z.shiftl tp 24 mod 2 ^ 32) (Z.shiftl lp 8 mod 2 ^ 32)) k = 2 ^ 24 * tp + 2 ^ 8 * lp + k.
Proof.
  intros T L K. rewrite !Z.shiftl_mul_pow2 by lia.
  rewrite (Z.mod_small (tp * 2 ^ 24)) by lia. rewrite (Z.mod_small (lp * 2 ^ 8)) by lia.
  rewrite (lor_add (tp * 2 ^ 24) (lp * 2 ^ 8) 24); [|lia|lia|apply Z.mod_mul; lia].
  rewrite (lor_add _ k 8); [lia|lia|lia|].
  replace (tp * 2 ^ 24 + lp * 2 ^ 8) with ((tp * 2 ^ 16 + lp) * 2 ^ 8) by lia. apply Z.mod_mul; lia.
Qed.

(** The priority of a local candidate. *)
Lemma do_prio_formula c b : c.(c_prio) = None -> 1 <= c.(c_comp) <= 255 -> 0 <= local_preference c <= 65535 ->
  do_prio c b = Ok (rfc_candidate_priority (type_preference (if b then PeerReflexive else c.(c_kind)) c.(c_proto))
                                           (local_preference c) c.(c_comp)).
Proof.
  intros P C L. unfold do_prio. rewrite P. replace (256 <? c_comp c) with false by lia. cbn zeta.
  pose proof (type_pref_range (if b then PeerReflexive else c_kind c) (c_proto c)) as T.
  rewrite prio_bits by lia. unfold rfc_candidate_priority.
  replace ((1 <=? _) && (_ <? 2 ^ 31)) with true by lia. reflexivity.
Qed.

Lemma do_prio_range c b p : c.(c_prio) = None -> do_prio c b = Ok p -> rfc_range p.
Proof.
  intros P H. unfold do_prio in H. rewrite P in H. destruct (256 <? c_comp c); [discriminate|]. cbn zeta in H.
  match goal with _ : (if ?c then _ else _) = _ |- _ => destruct c eqn:E end; [|discriminate].
  assert (p = Z.lor
            (Z.lor (Z.shiftl (type_preference (if b then PeerReflexive else c_kind c) (c_proto c)) 24 mod 2 ^ 32)
               (Z.shiftl (local_preference c) 8 mod 2 ^ 32)) (256 - c_comp c)) as -> by congruence.
  unfold rfc_range. lia.
Qed.

(** Pair priorities. *)
Lemma calc_eq b r l : calculate_prio b r l =
  if rfc_pair_priority (if b then l else r) (if b then r else l) <? 2 ^ 64
  then Ok (rfc_pair_priority (if b then l else r) (if b then r else l)) else Panic.
Proof.
  unfold calculate_prio, rfc_pair_priority. destruct b; rewrite Z.gtb_ltb; reflexivity.
Qed.

(** Preferences. *)
Lemma filter_len_le {A} (f : A -> bool) l : (length (filter f l) <= length l)%nat.
Proof. induction l as [|a l IH]; cbn; [lia|]. destruct (f a); cbn; lia. Qed.
Definition crossing (c : cand) : bool := ckind_eqb c.(c_kind) Relayed && xorb c.(c_local6) c.(c_addr6).

Lemma ckind_eqb_eq a b : ckind_eqb a b = true <-> a = b.
Proof. destruct a, b; cbn; split; congruence. Qed.

Lemma same_kind_nonneg cs c : 0 <= same_kind_count cs c <= zlen cs.
Proof. unfold same_kind_count, zlen. pose proof (filter_len_le (fun v : cand => ckind_eqb (c_kind v) (c_kind c) && Bool.eqb (c_addr6 v) (c_addr6 c)) cs). lia. Qed.

Lemma dlp_ok c n p : default_local_preference c n = Ok p -> 0 <= n ->
  p = counter_base c.(c_kind) - (if c.(c_addr6) then 0 else 1) - 2 * n - (if crossing c then 1000 else 0) /\ 0 <= p.
Proof.
  unfold default_local_preference, crossing. cbn zeta. intros H N.
  destruct (_ <? n * 2) eqn:E1; [discriminate|].
  destruct (_ - n * 2 <? _) eqn:E2; [discriminate|].
  assert (p = counter_base (c_kind c) - (if c_addr6 c then 0 else 1) - n * 2 -
       (if ckind_eqb (c_kind c) Relayed then if xorb (c_local6 c) (c_addr6 c) then 1000 else 0 else 0)) as -> by congruence.
  destruct (ckind_eqb (c_kind c) Relayed), (xorb (c_local6 c) (c_addr6 c)); cbn [andb]; lia.
Qed.

Lemma dlp_some c n : 0 <= n <= 7690 -> exists p, default_local_preference c n = Ok p.
Proof.
  intros N. unfold default_local_preference. cbn zeta.
  replace (_ <? n * 2) with false by (destruct (c_kind c), (c_addr6 c); cbn [counter_base]; lia).
  replace (_ - n * 2 <? _) with false; [eauto|].
  destruct (c_kind c), (c_addr6 c), (xorb (c_local6 c) _); cbn [counter_base ckind_eqb]; lia.
Qed.

Lemma dlp_some_straight c n : crossing c = false -> 0 <= n <= 8191 -> exists p, default_local_preference c n = Ok p.
Proof.
  intros CR N. unfold default_local_preference, crossing in *. cbn zeta.
  replace (_ <? n * 2) with false by (destruct (c_kind c), (c_addr6 c); cbn [counter_base]; lia).
  replace (_ - n * 2 <? _) with false; [eauto|].
  destruct (ckind_eqb (c_kind c) Relayed); cbn [andb] in CR; rewrite ?CR;
  destruct (c_kind c), (c_addr6 c); cbn [counter_base]; lia.
Qed.

(** What the stored list looks like after adding [new] to [cs]: the i-th
    element is the i-th added candidate with the preference computed from the
    elements before it. *)
Lemma set_pref_count cs c v : same_kind_count cs (set_local_preference c v) = same_kind_count cs c.
Proof. reflexivity. Qed.

Definition well_pref (cs : list cand) : Prop :=
  forall i c, nth_error cs i = Some c ->
    exists p, c.(c_lpref) = Some p /\ default_local_preference c (same_kind_count (firstn i cs) c) = Ok p.

Lemma well_pref_nil : well_pref [].
Proof. intros i c H. destruct i; discriminate. Qed.

Lemma well_pref_add cs c cs' : well_pref cs -> add_local_pref cs c = Ok cs' -> well_pref cs'.
Proof.
  intros W H. unfold add_local_pref in H. destruct (default_local_preference c (same_kind_count cs c)) as [p| |] eqn:E; try discriminate.
  cbn [bind] in H. assert (cs' = cs ++ [set_local_preference c p]) as -> by congruence.
  intros i x Hi. destruct (Nat.lt_ge_cases i (length cs)) as [L|L].
  - rewrite nth_error_app1 in Hi by lia. rewrite firstn_app. replace (i - length cs)%nat with 0%nat by lia.
    cbn [firstn]. rewrite app_nil_r. apply W. exact Hi.
  - rewrite nth_error_app2 in Hi by lia. destruct (i - length cs)%nat as [|k] eqn:K; [|destruct k; discriminate Hi].
    cbn in Hi. assert (x = set_local_preference c p) as -> by congruence. exists p. split; [reflexivity|].
    rewrite firstn_app, K. cbn [firstn]. rewrite app_nil_r, firstn_all2 by lia. exact E.
Qed.

Lemma well_pref_adds new : forall cs cs', well_pref cs -> add_locals cs new = Ok cs' -> well_pref cs'.
Proof.
  induction new as [|c t IH]; intros cs cs' W H; cbn [add_locals] in H.
  - assert (cs' = cs) as -> by congruence. exact W.
  - destruct (add_local_pref cs c) as [c1| |] eqn:E; try discriminate. cbn [bind] in H.
    eapply IH; [eapply well_pref_add; eauto|exact H].
Qed.

Lemma count_mono cs i j c : (i <= j)%nat -> same_kind_count (firstn i cs) c <= same_kind_count (firstn j cs) c.
Proof.
  intros L. replace j with (i + (j - i))%nat by lia. unfold same_kind_count, zlen.
  rewrite <- (firstn_skipn i (firstn (i + (j - i)) cs)), filter_app, app_length.
  rewrite firstn_firstn. replace (Nat.min i (i + (j - i))) with i by lia. lia.
Qed.

Lemma count_strict cs i j a b : (i < j)%nat -> nth_error cs i = Some a ->
  a.(c_kind) = b.(c_kind) -> a.(c_addr6) = b.(c_addr6) ->
  same_kind_count (firstn i cs) b + 1 <= same_kind_count (firstn j cs) b.
Proof.
  intros L Hi K A. eapply Z.le_trans; [|apply (count_mono cs (S i) j); lia].
  assert (firstn (S i) cs = firstn i cs ++ [a]) as ->.
  { clear - Hi. revert cs Hi. induction i; intros cs Hi; destruct cs; try discriminate; cbn in *.
    - congruence.
    - f_equal. apply IHi. exact Hi. }
  unfold same_kind_count, zlen. rewrite filter_app, app_length. cbn [filter].
  replace (ckind_eqb (c_kind a) (c_kind b)) with true by (symmetry; apply ckind_eqb_eq; exact K).
  rewrite A, Bool.eqb_reflx. cbn [andb length]. lia.
Qed.

Lemma count_same c d cs : c.(c_kind) = d.(c_kind) -> c.(c_addr6) = d.(c_addr6) -> same_kind_count cs c = same_kind_count cs d.
Proof. intros K A. unfold same_kind_count. rewrite K, A. reflexivity. Qed.

Lemma well_pref_distinct cs i j a b : well_pref cs -> (i < j)%nat -> nth_error cs i = Some a -> nth_error cs j = Some b ->
  a.(c_kind) = b.(c_kind) -> crossing a = false -> crossing b = false -> a.(c_lpref) <> b.(c_lpref).
Proof.
  intros W L Ha Hb K Ca Cb EQ. destruct (W _ _ Ha) as [p [Pa Da]]. destruct (W _ _ Hb) as [q [Pb Db]].
  apply dlp_ok in Da; [|apply same_kind_nonneg]. apply dlp_ok in Db; [|apply same_kind_nonneg].
  rewrite Ca in Da. rewrite Cb in Db. rewrite K in Da. assert (p = q) as -> by congruence.
  destruct (Bool.bool_dec (c_addr6 a) (c_addr6 b)) as [A|A].
  - pose proof (count_strict cs i j a b L Ha K A) as S. rewrite (count_same a b _ K A), A in Da. lia.
  - destruct (c_addr6 a), (c_addr6 b); try congruence; lia.
Qed.

Lemma add_locals_len new : forall cs cs', add_locals cs new = Ok cs' -> length cs' = (length cs + length new)%nat.
Proof.
  induction new as [|c t IH]; intros cs cs' H; cbn [add_locals] in H.
  - assert (cs' = cs) as -> by congruence. cbn. lia.
  - unfold add_local_pref in H. destruct (default_local_preference _ _); try discriminate. cbn [bind] in H.
    apply IH in H. rewrite app_length in H. cbn in *. lia.
Qed.

(** the i-th stored candidate is the i-th added one up to its preference *)
Definition same_but_pref (a b : cand) : Prop := exists v, b = set_local_preference a v.

Lemma add_locals_nth new : forall cs cs', add_locals cs new = Ok cs' ->
  exists tail, cs' = cs ++ tail /\ Forall2 same_but_pref new tail.
Proof.
  induction new as [|c t IH]; intros cs cs' H; cbn [add_locals] in H.
  - assert (cs' = cs) as -> by congruence. exists []. rewrite app_nil_r. split; [reflexivity|constructor].
  - unfold add_local_pref in H. destruct (default_local_preference _ _) as [v| |]; try discriminate. cbn [bind] in H.
    apply IH in H. destruct H as [tl [-> F]]. exists (set_local_preference c v :: tl). rewrite <- app_assoc. split; [reflexivity|].
    constructor; [exists v; reflexivity|exact F].
Qed.

Lemma add_locals_ok new : forall cs, (forall c, In c new -> crossing c = false) -> zlen cs + zlen new <= 8192 ->
  exists cs', add_locals cs new = Ok cs'.
Proof.
  induction new as [|c t IH]; intros cs NC L; cbn [add_locals]; [eauto|].
  unfold add_local_pref. destruct (dlp_some_straight c (same_kind_count cs c)) as [v E].
  - apply NC. left; reflexivity.
  - pose proof (same_kind_nonneg cs c). unfold zlen in *. cbn [length] in L. lia.
  - rewrite E. cbn [bind]. apply IH; [intros; apply NC; right; assumption|].
    unfold zlen in *. rewrite app_length. cbn [length] in *. lia.
Qed.
Lemma add_locals_ok_any new : forall cs, zlen cs + zlen new <= 7691 ->
  exists cs', add_locals cs new = Ok cs'.
Proof.
  induction new as [|c t IH]; intros cs L; cbn [add_locals]; [eauto|].
  unfold add_local_pref. destruct (dlp_some c (same_kind_count cs c)) as [v E].
  - pose proof (same_kind_nonneg cs c). unfold zlen in *. cbn [length] in L. lia.
  - rewrite E. cbn [bind]. apply IH.
    unfold zlen in *. rewrite app_length. cbn [length] in *. lia.
Qed.

Lemma firstn_count_le cs i c : same_kind_count (firstn i cs) c <= Z.of_nat i.
Proof. pose proof (same_kind_nonneg (firstn i cs) c) as H. unfold zlen in H. rewrite firstn_length in H. lia. Qed.

Lemma well_pref_interval cs i c : well_pref cs -> zlen cs <= 8192 -> nth_error cs i = Some c -> crossing c = false ->
  exists p, c.(c_lpref) = Some p /\ counter_base c.(c_kind) - 16383 <= p <= counter_base c.(c_kind).
Proof.
  intros W L H C. destruct (W _ _ H) as [p [P D]]. apply dlp_ok in D; [|apply same_kind_nonneg]. rewrite C in D.
  exists p. split; [exact P|]. pose proof (firstn_count_le cs i c). pose proof (same_kind_nonneg (firstn i cs) c).
  assert (Z.of_nat i < zlen cs) by (unfold zlen; assert (i < length cs)%nat by (apply nth_error_Some; congruence); lia).
  destruct (c_addr6 c); lia.
Qed.
Lemma well_pref_u16 cs i c : well_pref cs -> nth_error cs i = Some c ->
  exists p, c.(c_lpref) = Some p /\ 0 <= p <= 65535.
Proof.
  intros W H. destruct (W _ _ H) as [p [P D]]. apply dlp_ok in D; [|apply same_kind_nonneg].
  exists p. split; [exact P|]. pose proof (same_kind_nonneg (firstn i cs) c).
  destruct (c_addr6 c), (crossing c), (c_kind c); cbn [counter_base] in D; lia.
Qed.

Lemma tp_kind_inj k1 p1 k2 p2 : type_preference k1 p1 = type_preference k2 p2 -> k1 = k2.
Proof. destruct k1, p1, k2, p2; cbn; congruence. Qed.

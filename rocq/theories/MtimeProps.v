(** C13: MediaTime arithmetic.  A time (n, d) denotes the rational n/d seconds; all comparisons of
    rationals below are cross-multiplied. *)
From Verif Require Import Base BaseFacts MtimeModel.

(** The rational denoted: [a <= b] and [a < b]. *)
Definition qle (a b : mtime) : Prop := numer a * denom b <= numer b * denom a.
Definition qlt (a b : mtime) : Prop := numer a * denom b < numer b * denom a.
(** [a] is less than one tick of frequency [f] away from [b]: |n_a/d_a - n_b/d_b| < 1/f. *)
Definition within_tick (f : Z) (a b : mtime) : Prop :=
  f * Z.abs (numer a * denom b - numer b * denom a) < denom a * denom b.
Definition valid (t : mtime) : Prop := 0 <= numer t < U64 /\ 0 < denom t < U32.
(** The time can be expressed at frequency [d] in 64 bits. *)
Definition fits (t : mtime) (d : Z) : Prop := numer t * d / denom t < U64.

Lemma rebase_numer t d : valid t -> 0 < d -> fits t d -> numer (rebase t d) = numer t * d / denom t /\ denom (rebase t d) = d.
Proof.
  intros [Hn Hd] D F. unfold rebase. destruct (d =? denom t) eqn:E.
  - assert (d = denom t) as -> by lia. rewrite Z.div_mul by lia. auto.
  - cbn [numer denom]. split; [|reflexivity]. apply Z.mod_small. split; [apply Z.div_pos; nia|exact F].
Qed.

Theorem C13_rebase_rounds_down : forall t d, valid t -> 0 < d < U32 -> fits t d ->
  qle (rebase t d) t /\ within_tick d (rebase t d) t.
Proof.
  intros t d V D F. pose proof V as [Hn Hd]. destruct (rebase_numer t d V ltac:(lia) F) as [E1 E2].
  unfold qle, within_tick. rewrite E1, E2.
  pose proof (Z.div_mod (numer t * d) (denom t) ltac:(lia)) as M.
  pose proof (Z.mod_pos_bound (numer t * d) (denom t) ltac:(lia)) as B.
  set (q := numer t * d / denom t) in *. clearbody q. split; [lia|].
  rewrite Z.abs_neq by lia.
  assert (- (q * denom t - numer t * d) < denom t) by lia. nia.
Qed.
Print Assumptions C13_rebase_rounds_down.

(** To a multiple of the frequency: exact, and going back returns the very same time. *)
Theorem C13_rebase_to_multiple_lossless : forall t k, valid t -> 0 < k -> denom t * k < U32 -> numer t * k < U64 ->
  qle (rebase t (denom t * k)) t /\ qle t (rebase t (denom t * k)) /\
  rebase (rebase t (denom t * k)) (denom t) = t.
Proof.
  intros [n d] k [Hn Hd] K D F. cbn [numer denom] in *.
  assert (n * (d * k) / d = n * k) as E by (replace (n * (d * k)) with (n * k * d) by lia; apply Z.div_mul; lia).
  destruct (rebase_numer (mkT n d) (d * k)) as [E1 E2]; [split; assumption|nia|unfold fits; cbn; lia|].
  cbn [numer denom] in E1. rewrite E in E1. unfold qle. rewrite E1, E2. cbn [numer denom].
  split; [lia|]. split; [lia|].
  destruct (rebase (mkT n d) (d * k)) as [n' d']. cbn [numer denom] in *. subst n' d'.
  unfold rebase. cbn [numer denom]. destruct (d =? d * k) eqn:Q.
  - assert (k = 1) by nia. subst. f_equal; lia.
  - f_equal. replace (n * k * d / (d * k)) with n; [apply Z.mod_small; lia|].
    replace (n * k * d) with (n * (d * k)) by lia. symmetry. apply Z.div_mul. nia.
Qed.
Print Assumptions C13_rebase_to_multiple_lossless.

Theorem C13_rebase_monotone : forall a b d, valid a -> valid b -> 0 < d < U32 -> fits a d -> fits b d ->
  qle a b -> numer (rebase a d) <= numer (rebase b d).
Proof.
  intros a b d Va Vb D Fa Fb L. destruct (rebase_numer a d Va ltac:(lia) Fa) as [-> _].
  destruct (rebase_numer b d Vb ltac:(lia) Fb) as [-> _]. destruct Va as [Ha Hda], Vb as [Hb Hdb].
  unfold qle in L. apply Z.div_le_lower_bound; [lia|].
  pose proof (Z.mul_div_le (numer a * d) (denom a) ltac:(lia)) as M.
  set (q := numer a * d / denom a) in *. clearbody q.
  assert (denom a * (denom b * q) <= denom a * (numer b * d)) by nia. nia.
Qed.
Print Assumptions C13_rebase_monotone.

Lemma floor_lt da db qa qb ra rb : 0 < da -> 0 < db -> ra < da -> 0 <= rb -> qa < qb ->
  db * (da * qa + ra) < da * (db * qb + rb).
Proof.
  intros A B C D E. assert (da * qa + ra < da * qb) as F by nia.
  apply (Z.mul_lt_mono_pos_l db) in F; [|exact B]. assert (0 <= da * rb) by (apply Z.mul_nonneg_nonneg; lia). lia.
Qed.

(** [Lt] and [Gt] answers are always right; [Eq] means less than one tick of the finer base apart. *)
Theorem C13_comparison : forall a b, valid a -> valid b ->
  fits a (Z.max (denom a) (denom b)) -> fits b (Z.max (denom a) (denom b)) ->
  match tcmp a b with
  | Lt => qlt a b
  | Gt => qlt b a
  | Eq => within_tick (Z.max (denom a) (denom b)) a b
  end.
Proof.
  intros a b Va Vb Fa Fb. set (m := Z.max (denom a) (denom b)) in *.
  assert (0 < m) as M by (destruct Va, Vb; unfold m; lia).
  destruct (rebase_numer a m Va M Fa) as [A1 A2]. destruct (rebase_numer b m Vb M Fb) as [B1 B2].
  assert (forall x y, denom x = denom y -> teq x y = (numer x =? numer y)) as TQ.
  { intros x y E. unfold teq, same_base, rebase. rewrite E, Z.max_id, !Z.eqb_refl. reflexivity. }
  assert (tcmp a b = if numer (rebase a m) =? numer (rebase b m) then Eq
          else if numer (rebase a m) <? numer (rebase b m) then Lt else Gt) as ->.
  { unfold tcmp, same_base. fold m. rewrite TQ by congruence. reflexivity. }
  rewrite A1, B1. destruct Va as [Ha Hda], Vb as [Hb Hdb]. unfold qlt, within_tick.
  pose proof (Z.div_mod (numer a * m) (denom a) ltac:(lia)) as MA.
  pose proof (Z.mod_pos_bound (numer a * m) (denom a) ltac:(lia)) as BA.
  pose proof (Z.div_mod (numer b * m) (denom b) ltac:(lia)) as MB.
  pose proof (Z.mod_pos_bound (numer b * m) (denom b) ltac:(lia)) as BB.
  set (qa := numer a * m / denom a) in *. set (qb := numer b * m / denom b) in *.
  set (ra := (numer a * m) mod denom a) in *. set (rb := (numer b * m) mod denom b) in *.
  assert (m = denom a /\ ra = 0 /\ qa = numer a \/ m = denom b /\ rb = 0 /\ qb = numer b) as C.
  { unfold m. destruct (Z.max_spec (denom a) (denom b)) as [[_ E]|[_ E]]; rewrite E in *; [right|left];
      (split; [reflexivity|]); unfold ra, rb, qa, qb, m; rewrite E; split; try (apply Z.mod_mul; lia); apply Z.div_mul; lia. }
  clearbody qa qb ra rb m.
  assert (m * (numer a * denom b) = denom b * (denom a * qa + ra)) as XA by (rewrite <- MA; ring).
  assert (m * (numer b * denom a) = denom a * (denom b * qb + rb)) as XB by (rewrite <- MB; ring).
  destruct (qa =? qb) eqn:E1; [|destruct (qa <? qb) eqn:E2].
  - assert (qa = qb) by lia. subst qb.
    rewrite <- (Z.abs_eq m) at 1 by lia. rewrite <- Z.abs_mul, Z.mul_sub_distr_l, XA, XB.
    replace (denom b * (denom a * qa + ra) - denom a * (denom b * qa + rb)) with (denom b * ra - denom a * rb) by ring.
    destruct C as [(_ & -> & _)|(_ & -> & _)]; nia.
  - assert (m * (numer a * denom b) < m * (numer b * denom a)); [|nia]. rewrite XA, XB.
    apply (floor_lt (denom a) (denom b) qa qb ra rb); lia.
  - assert (m * (numer b * denom a) < m * (numer a * denom b)); [|nia]. rewrite XA, XB.
    apply (floor_lt (denom b) (denom a) qb qa rb ra); lia.
Qed.
Print Assumptions C13_comparison.

(** Comparing in the other direction gives the mirrored answer. *)
Theorem C13_comparison_antisymmetric : forall a b, tcmp b a = CompOpp (tcmp a b).
Proof.
  intros a b. unfold tcmp, same_base. rewrite (Z.max_comm (denom b)). set (m := Z.max (denom a) (denom b)).
  assert (forall t, denom (rebase t m) = m) as D by (intro t; unfold rebase; destruct (m =? denom t) eqn:E; cbn; lia).
  assert (forall x y, denom x = denom y -> teq x y = (numer x =? numer y)) as TQ.
  { intros x y E. unfold teq, same_base, rebase. rewrite E, Z.max_id, !Z.eqb_refl. reflexivity. }
  rewrite !TQ by (rewrite !D; reflexivity).
  destruct (numer (rebase b m) =? numer (rebase a m)) eqn:E1, (numer (rebase a m) =? numer (rebase b m)) eqn:E2; try lia; try reflexivity.
  destruct (numer (rebase b m) <? numer (rebase a m)) eqn:E3, (numer (rebase a m) <? numer (rebase b m)) eqn:E4; try lia; reflexivity.
Qed.
Print Assumptions C13_comparison_antisymmetric.

(** Equality is not transitive across three frequencies although MediaTime implements Eq and Ord:
    3/10 == 1/3 and 1/3 == 33/100 but 3/10 < 33/100. *)
Theorem C13_equality_transitive_refuted : exists a b c, valid a /\ valid b /\ valid c /\
  tcmp a b = Eq /\ tcmp b c = Eq /\ tcmp a c = Lt.
Proof.
  exists (mkT 3 10), (mkT 1 3), (mkT 33 100). unfold valid. cbn. repeat split; reflexivity || lia.
Qed.
Print Assumptions C13_equality_transitive_refuted.

(** Subtraction: [None] only when truly negative; otherwise within one tick of the true difference.
    The difference r of a and b satisfies |a - b - r| < 1/m, cross-multiplied by d_a d_b m. *)
Theorem C13_checked_sub : forall a b, valid a -> valid b ->
  fits a (Z.max (denom a) (denom b)) -> fits b (Z.max (denom a) (denom b)) ->
  match checked_sub a b with
  | None => qlt a b
  | Some r => denom r = Z.max (denom a) (denom b) /\ 0 <= numer r /\
      Z.abs (denom r * (numer a * denom b - numer b * denom a) - numer r * (denom a * denom b)) < denom a * denom b
  end.
Proof.
  intros a b Va Vb Fa Fb. set (m := Z.max (denom a) (denom b)) in *.
  assert (0 < m) as M by (destruct Va, Vb; unfold m; lia).
  destruct (rebase_numer a m Va M Fa) as [A1 A2]. destruct (rebase_numer b m Vb M Fb) as [B1 B2].
  unfold checked_sub, same_base. fold m. rewrite A1, B1.
  destruct Va as [Ha Hda], Vb as [Hb Hdb]. unfold qlt.
  pose proof (Z.div_mod (numer a * m) (denom a) ltac:(lia)) as MA.
  pose proof (Z.mod_pos_bound (numer a * m) (denom a) ltac:(lia)) as BA.
  pose proof (Z.div_mod (numer b * m) (denom b) ltac:(lia)) as MB.
  pose proof (Z.mod_pos_bound (numer b * m) (denom b) ltac:(lia)) as BB.
  set (qa := numer a * m / denom a) in *. set (qb := numer b * m / denom b) in *.
  set (ra := (numer a * m) mod denom a) in *. set (rb := (numer b * m) mod denom b) in *.
  assert (m = denom a /\ ra = 0 \/ m = denom b /\ rb = 0) as C.
  { unfold m. destruct (Z.max_spec (denom a) (denom b)) as [[_ E]|[_ E]]; rewrite E in *; [right|left];
      (split; [reflexivity|]); unfold ra, rb, m; rewrite E; apply Z.mod_mul; lia. }
  clearbody qa qb ra rb m.
  assert (m * (numer a * denom b) = denom b * (denom a * qa + ra)) as XA by (rewrite <- MA; ring).
  assert (m * (numer b * denom a) = denom a * (denom b * qb + rb)) as XB by (rewrite <- MB; ring).
  destruct (qa <? qb) eqn:E2; cbn [numer denom].
  - assert (m * (numer a * denom b) < m * (numer b * denom a)); [|nia]. rewrite XA, XB.
    apply (floor_lt (denom a) (denom b) qa qb ra rb); lia.
  - rewrite A2. split; [reflexivity|]. split; [lia|].
    rewrite Z.mul_sub_distr_l, XA, XB.
    replace (denom b * (denom a * qa + ra) - denom a * (denom b * qb + rb) - (qa - qb) * (denom a * denom b))
      with (denom b * ra - denom a * rb) by ring.
    destruct C as [(_ & ->)|(_ & ->)]; nia.
Qed.
Print Assumptions C13_checked_sub.

(** Addition: either the sum does not fit 64 bits (a panic) or it is within one tick of the true sum,
    never above it. *)
Theorem C13_add : forall a b, valid a -> valid b ->
  fits a (Z.max (denom a) (denom b)) -> fits b (Z.max (denom a) (denom b)) ->
  match tadd a b with
  | Ok r => denom r = Z.max (denom a) (denom b) /\
      0 <= denom r * (numer a * denom b + numer b * denom a) - numer r * (denom a * denom b) < denom a * denom b
  | _ => U64 * (denom a * denom b) <= Z.max (denom a) (denom b) * (numer a * denom b + numer b * denom a)
  end.
Proof.
  intros a b Va Vb Fa Fb. set (m := Z.max (denom a) (denom b)) in *.
  assert (0 < m) as M by (destruct Va, Vb; unfold m; lia).
  destruct (rebase_numer a m Va M Fa) as [A1 A2]. destruct (rebase_numer b m Vb M Fb) as [B1 B2].
  unfold tadd, same_base. fold m. rewrite A1, B1.
  destruct Va as [Ha Hda], Vb as [Hb Hdb].
  pose proof (Z.div_mod (numer a * m) (denom a) ltac:(lia)) as MA.
  pose proof (Z.mod_pos_bound (numer a * m) (denom a) ltac:(lia)) as BA.
  pose proof (Z.div_mod (numer b * m) (denom b) ltac:(lia)) as MB.
  pose proof (Z.mod_pos_bound (numer b * m) (denom b) ltac:(lia)) as BB.
  set (qa := numer a * m / denom a) in *. set (qb := numer b * m / denom b) in *.
  set (ra := (numer a * m) mod denom a) in *. set (rb := (numer b * m) mod denom b) in *.
  assert (m = denom a /\ ra = 0 \/ m = denom b /\ rb = 0) as C.
  { unfold m. destruct (Z.max_spec (denom a) (denom b)) as [[_ E]|[_ E]]; rewrite E in *; [right|left];
      (split; [reflexivity|]); unfold ra, rb, m; rewrite E; apply Z.mod_mul; lia. }
  clearbody qa qb ra rb m.
  assert (m * (numer a * denom b) = denom b * (denom a * qa + ra)) as XA by (rewrite <- MA; ring).
  assert (m * (numer b * denom a) = denom a * (denom b * qb + rb)) as XB by (rewrite <- MB; ring).
  assert (m * (numer a * denom b + numer b * denom a) = (qa + qb) * (denom a * denom b) + (denom b * ra + denom a * rb)) as XS
    by (rewrite Z.mul_add_distr_l, XA, XB; ring).
  destruct (qa + qb <? U64) eqn:E2; cbn [numer denom].
  - rewrite A2. split; [reflexivity|]. rewrite XS.
    replace ((qa + qb) * (denom a * denom b) + (denom b * ra + denom a * rb) - (qa + qb) * (denom a * denom b))
      with (denom b * ra + denom a * rb) by ring.
    destruct C as [(_ & ->)|(_ & ->)]; nia.
  - rewrite XS. unfold U64 in *. nia.
Qed.
Print Assumptions C13_add.

(** A duration survives the round trip to whole microseconds. *)
Theorem C13_duration_round_trip : forall ns, 0 <= ns -> ns / 1000 < U64 ->
  to_duration (from_duration ns) = ns - ns mod 1000.
Proof.
  intros ns H F. unfold to_duration, as_micros, from_duration, rebase. cbn [numer denom].
  rewrite Z.eqb_refl. cbn [numer]. rewrite Z.mod_small by (split; [apply Z.div_pos; lia|exact F]).
  pose proof (Z.div_mod ns 1000). lia.
Qed.
Print Assumptions C13_duration_round_trip.

(** The 64-bit hypothesis is needed: past it rebase silently wraps, so order is not preserved. *)
Theorem C13_overflow_refuted : exists a b, valid a /\ valid b /\ qlt a b /\
  numer (rebase b 2) < numer (rebase a 2).
Proof. exists (mkT 9223372036854775807 1), (mkT 9223372036854775808 1). unfold valid, qlt. vm_compute. repeat split; congruence. Qed.
Print Assumptions C13_overflow_refuted.

Example C13_case : valid (mkT 3000 90000) /\ valid (mkT 1600 48000) /\
  fits (mkT 1600 48000) 90000 /\ tcmp (mkT 3000 90000) (mkT 1600 48000) = Eq /\
  tcmp (mkT 3001 90000) (mkT 1600 48000) = Gt /\ tadd (mkT 3000 90000) (mkT 1601 48000) = Ok (mkT 6001 90000) /\
  checked_sub (mkT 3000 90000) (mkT 1700 48000) = None.
Proof. unfold valid, fits. vm_compute. repeat split; congruence. Qed.

From Verif Require Import Base BaseFacts SeqModel.

Lemma extend_arith b prev seq : width b -> 0 <= prev < U64 ->
  extend b (Some prev) seq =
  let m := 2 ^ b in
  let s := seq mod m in let ps := prev mod m in let roc := prev / m in
  let R := U64 / m in
  (if ps <? m / 2 then if m / 2 + ps <? s then (roc - 1) mod R else roc
   else if s + m / 2 <? ps then (roc + 1) mod R else roc) * m + s.
Proof.
  intros W P. unfold extend. cbv zeta.
  rewrite Z.shiftl_1_l, !Z.shiftr_div_pow2 by (unfold width in W; lia).
  rewrite !land_mask by (unfold width in W; lia).
  replace ((U64 - 1) / 2 ^ b) with (2 ^ (64 - b) - 1)
    by (destruct W as [->|[->|[->|[->| ->]]]]; reflexivity).
  rewrite !land_mask by (unfold width in W; lia).
  replace (2 ^ (64 - b)) with (U64 / 2 ^ b)
    by (destruct W as [->|[->|[->|[->| ->]]]]; reflexivity).
  match goal with |- (if ?v <? 0 then _ else _) = _ => destruct (v <? 0) eqn:E end; [|reflexivity].
  exfalso.
  assert (0 < U64 / 2 ^ b) by (destruct W as [->|[->|[->|[->| ->]]]]; reflexivity).
  assert (0 <= prev / 2 ^ b) by (apply Z.div_pos; lia).
  pose proof (Z.mod_pos_bound (prev / 2 ^ b - 1) (U64 / 2 ^ b)).
  pose proof (Z.mod_pos_bound (prev / 2 ^ b + 1) (U64 / 2 ^ b)).
  repeat match goal with H : context [if ?c then _ else _] |- _ => destruct c end; lia.
Qed.

Lemma extend_none b seq : width b -> extend b None seq = seq mod 2 ^ b.
Proof.
  intros W; unfold extend; cbv zeta.
  rewrite Z.shiftl_1_l, land_mask by (unfold width in W; lia). reflexivity.
Qed.

Ltac widths W := destruct W as [->|[->|[->|[->| ->]]]].

Lemma extend_spec b prev seq : width b -> 0 <= prev < U64 ->
  let r := extend b (Some prev) seq in
  0 <= r < U64 /\ r mod 2 ^ b = seq mod 2 ^ b /\
  exists d, - (2 ^ b / 2) <= d <= 2 ^ b / 2 /\ r = (prev + d) mod U64 /\
    (Z.abs d = 2 ^ b / 2 -> r / 2 ^ b = prev / 2 ^ b).
Proof.
  intros W P r. subst r. rewrite extend_arith by assumption. cbv zeta.
  assert (exists R, U64 = R * 2 ^ b /\ U64 / 2 ^ b = R /\ 0 < R /\ 2 ^ b = 2 * (2 ^ b / 2) /\ 0 < 2 ^ b / 2)
    as (R & HR & HR' & HR0 & Hh & Hh0).
  { exists (U64 / 2 ^ b). widths W; repeat split; reflexivity. }
  rewrite HR', HR in *. clear HR HR'.
  set (h := 2 ^ b / 2) in *. rewrite Hh in *. clearbody h. clear Hh W b.
  set (k := 2 * h) in *.
  set (ps := prev mod k) in *. set (s := seq mod k) in *. set (roc := prev / k) in *.
  assert (prev = roc * k + ps /\ 0 <= ps < k) as [Hp Hps] by (subst ps roc k; dlia).
  assert (0 <= s < k) as Hs by (subst s k; dlia).
  assert (0 <= roc < R) as Hroc by (subst roc k; split; [apply Z.div_pos; lia|apply Z.div_lt_upper_bound; lia]).
  clearbody ps s roc. assert (Hk : k = 2 * h) by reflexivity. clearbody k.
  assert (Hmod : forall v, (v * k + s) mod k = s).
  { intro v. rewrite Z.add_comm, Z.mod_add by (clear -Hk Hh0; lia). apply Z.mod_small; exact Hs. }
  assert (Hdiv : forall v, (v * k + s) / k = v).
  { intro v. rewrite Z.add_comm, Z.div_add by (clear -Hk Hh0; lia). rewrite Z.div_small by exact Hs; lia. }
  assert (Hrng : forall v, 0 <= v < R -> 0 <= v * k + s < R * k) by (intros; clear -Hs Hk Hh0 H; nia).
  assert (Hdp : (roc * k + ps) / k = roc).
  { rewrite Z.add_comm, Z.div_add by (clear -Hk Hh0; lia). rewrite Z.div_small by exact Hps; lia. }
  subst prev.
  assert (Hm : forall v e, 0 <= v * k + s < R * k -> (roc * k + ps + e) = v * k + s + R * k * 0 \/
      (roc * k + ps + e) = v * k + s + R * k * 1 \/ (roc * k + ps + e) = v * k + s + R * k * (-1) ->
      v * k + s = (roc * k + ps + e) mod (R * k)).
  { intros v e H0 [->|[->| ->]]; rewrite (Z.mul_comm (R * k)), Z.mod_add by (clear -Hk Hh0 HR0; nia);
    symmetry; apply Z.mod_small; assumption. }
  destruct (ps <? h) eqn:E1;
  [ destruct (h + ps <? s) eqn:E2 | destruct (s + h <? ps) eqn:E2 ].
  - assert ((roc - 1) mod R = if roc =? 0 then R - 1 else roc - 1) as ->.
    { destruct (roc =? 0) eqn:E; [replace (roc - 1) with (R - 1 + (-1) * R) by lia;
      rewrite Z.mod_add by (clear -HR0; lia)|]; apply Z.mod_small; clear -E Hroc HR0; lia. }
    set (v := if roc =? 0 then R - 1 else roc - 1) in *.
    assert (0 <= v < R) by (subst v; destruct (roc =? 0) eqn:E; lia).
    split; [auto|]. split; [auto|]. exists (s - ps - k).
    split; [clear -E1 E2 Hps Hs Hk; lia|]. split; [|clear -E1 E2 Hps Hs Hk; lia]. apply Hm; [auto|].
    subst v; destruct (roc =? 0) eqn:E; [right; right|left]; clear -E; nia.
  - split; [auto|]. split; [auto|]. exists (s - ps).
    split; [clear -E1 E2 Hps Hs Hk; lia|]. split; [|intros; rewrite Hdiv; reflexivity]. apply Hm; [auto|]. left; lia.
  - assert ((roc + 1) mod R = if roc =? R - 1 then 0 else roc + 1) as ->.
    { destruct (roc =? R - 1) eqn:E; [replace (roc + 1) with (0 + 1 * R) by lia;
      rewrite Z.mod_add by (clear -HR0; lia)|]; apply Z.mod_small; clear -E Hroc HR0; lia. }
    set (v := if roc =? R - 1 then 0 else roc + 1) in *.
    assert (0 <= v < R) by (subst v; destruct (roc =? R - 1) eqn:E; lia).
    split; [auto|]. split; [auto|]. exists (s - ps + k).
    split; [clear -E1 E2 Hps Hs Hk; lia|]. split; [|clear -E1 E2 Hps Hs Hk; lia]. apply Hm; [auto|].
    subst v; destruct (roc =? R - 1) eqn:E; [right; left|left]; clear -E; nia.
  - split; [auto|]. split; [auto|]. exists (s - ps).
    split; [clear -E1 E2 Hps Hs Hk; lia|]. split; [|intros; rewrite Hdiv; reflexivity]. apply Hm; [auto|]. left; lia.
Qed.

Lemma extend_exact b prev x : width b -> 0 <= prev < U64 -> 0 <= x < U64 ->
  Z.abs (x - prev) < 2 ^ b / 2 ->
  extend b (Some prev) (x mod 2 ^ b) = x.
Proof.
  intros W P X H.
  destruct (extend_spec b prev (x mod 2 ^ b) W P) as (R & C & d & D & E & T).
  cbv zeta in *. set (r := extend b (Some prev) (x mod 2 ^ b)) in *. clearbody r.
  unfold U64 in *.
  rewrite Z.mod_mod in C by (widths W; discriminate).
  widths W.
  - change (2 ^ 7) with 128 in *. change (128 / 2) with 64 in *. clear -C D E H X P; dlia.
  - change (2 ^ 8) with 256 in *. change (256 / 2) with 128 in *. clear -C D E H X P; dlia.
  - change (2 ^ 15) with 32768 in *. change (32768 / 2) with 16384 in *. clear -C D E H X P; dlia.
  - change (2 ^ 16) with 65536 in *. change (65536 / 2) with 32768 in *. clear -C D E H X P; dlia.
  - change (2 ^ 32) with 4294967296 in *. change (4294967296 / 2) with 2147483648 in *. clear -C D E H X P; dlia.
Qed.

Lemma extend_exact_none b x : width b -> 0 <= x < 2 ^ b -> extend b None x = x.
Proof. intros W X. rewrite extend_none by assumption. apply Z.mod_small; lia. Qed.

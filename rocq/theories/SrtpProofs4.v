(** Key derivation and uniqueness of cipher inputs. *)
From Verif Require Import Base BaseFacts SrtpModel SrtpSpec HeaderModel SrtpProofs SrtpProofs2 SrtpProofs3.

Definition salt112 (salt : list Z) : Z := rdn salt * 2 ^ (8 * (14 - zlen salt)).
Lemma salt112_range salt : bytes_ok salt -> zlen salt <= 14 -> 0 <= salt112 salt < 2 ^ 112.
Proof.
  intros B L. pose proof (rdn_range salt B) as R. pose proof (zlen_nonneg salt) as N. unfold salt112. rewrite pow256 in R by lia.
  assert (2 ^ (8 * zlen salt) * 2 ^ (8 * (14 - zlen salt)) = 2 ^ 112) as E by (rewrite <- Z.pow_add_r by lia; f_equal; lia).
  assert (0 < 2 ^ (8 * (14 - zlen salt))) by (apply Z.pow_pos_nonneg; lia). nia.
Qed.
Lemma kdf_range salt label : bytes_ok salt -> zlen salt <= 14 -> byte_ok label -> 0 <= Z.lxor (label * 2 ^ 48) (salt112 salt) < 2 ^ 112.
Proof.
  intros B L LB. apply lxor_lt; [lia| |apply salt112_range; assumption]. unfold byte_ok in LB. change (2 ^ 48) with 281474976710656. change (2 ^ 112) with 5192296858534827628530496329220096. lia.
Qed.
Lemma ctr_block_at N j : 0 <= N < 2 ^ 112 -> 0 <= j < 65536 -> ctr_block (ben 16 (N * 2 ^ 16)) j = ben 16 (N * 2 ^ 16 + j).
Proof.
  intros H J. unfold ctr_block. change (2 ^ 112) with 5192296858534827628530496329220096 in H. change (2 ^ 16) with 65536.
  rewrite rdn_ben by (change (256 ^ Z.of_nat 16) with 340282366920938463463374607431768211456; lia). change (2 ^ 128) with 340282366920938463463374607431768211456.
  rewrite Z.mod_small by lia. reflexivity.
Qed.
Lemma ctr_block_inj N1 j1 N2 j2 : 0 <= N1 < 2 ^ 112 -> 0 <= j1 < 65536 -> 0 <= N2 < 2 ^ 112 -> 0 <= j2 < 65536 ->
  ctr_block (ben 16 (N1 * 2 ^ 16)) j1 = ctr_block (ben 16 (N2 * 2 ^ 16)) j2 -> N1 = N2 /\ j1 = j2.
Proof.
  intros H1 J1 H2 J2 E. rewrite !ctr_block_at in E by assumption. apply (f_equal rdn) in E.
  change (2 ^ 112) with 5192296858534827628530496329220096 in *. change (2 ^ 16) with 65536 in *.
  rewrite !rdn_ben in E by (change (256 ^ Z.of_nat 16) with 340282366920938463463374607431768211456; lia). lia.
Qed.

Lemma derive_input_block salt label r : bytes_ok salt -> zlen salt <= 14 -> byte_ok label -> 0 <= r < 65536 ->
  derive_input salt label r = ctr_block (ben 16 (Z.lxor (label * 2 ^ 48) (salt112 salt) * 2 ^ 16)) r.
Proof.
  intros B L LB R. rewrite ctr_block_at by (try apply kdf_range; assumption). unfold derive_input. pose proof (zlen_nonneg salt) as NS.
  set (a := salt ++ rep 0 (14 - zlen salt)). set (b := rep 0 7 ++ [label] ++ rep 0 6).
  assert (length a = 14%nat) as LA by (unfold a, rep; rewrite app_length, repeat_length; unfold zlen in *; lia).
  assert (length b = 14%nat) as LBB by reflexivity.
  assert (bytes_ok a) as OA. { unfold a. apply bytes_ok_app. split; [exact B|]. unfold rep. apply Forall_forall. intros x X. apply repeat_spec in X. subst. red. lia. }
  assert (bytes_ok b) as OBB by (unfold b, rep; cbn; repeat (constructor; [unfold byte_ok in *; lia|]); constructor).
  assert (bytes_ok (xorl a b ++ be16 r)) as OO by (apply bytes_ok_app; split; [apply xorl_ok; assumption|apply be16_ok]).
  rewrite <- (ben_rdn _ OO). rewrite app_length, xorl_length by lia. rewrite LA. cbn [length be16 Nat.add]. f_equal.
  rewrite rdn_app, rdn_xorl by (assumption || lia). rewrite rdn_be16 by lia. change (256 ^ zlen (be16 r)) with (2 ^ 16). f_equal. f_equal.
  rewrite Z.lxor_comm. f_equal.
  - unfold b. rewrite !rdn_app, !rdn_rep0. change (256 ^ zlen (rep 0 6)) with (2 ^ 48). change (rdn [label]) with (0 * 256 + label). lia.
  - unfold a, salt112. rewrite rdn_app, rdn_rep0, zlen_rep by lia. rewrite pow256 by lia. lia.
Qed.

Lemma xorl_zeros n ks : (n <= length ks)%nat -> xorl (repeat 0 n) ks = firstn n ks.
Proof.
  intro H. rewrite <- (xorl_trim (repeat 0 n) ks), repeat_length. replace n with (length (firstn n ks)) at 1 by (rewrite firstn_length; lia). apply xorl_0.
Qed.
Lemma skipn_repeat (x : Z) k n : skipn k (repeat x n) = repeat x (n - k).
Proof. revert n. induction k; intros [|n]; cbn [skipn repeat Nat.sub]; try reflexivity. apply IHk. Qed.
Lemma firstn_repeat (x : Z) k n : firstn k (repeat x n) = repeat x (Nat.min k n).
Proof. revert n. induction k; intros [|n]; cbn [firstn repeat Nat.min]; try reflexivity. rewrite IHk. reflexivity. Qed.

Lemma derive_loop_ctr P m salt label : prims_ok P -> bytes_ok salt -> zlen salt <= 14 -> byte_ok label ->
  forall fuel need r, 0 <= r -> 16 * r + Z.of_nat need <= 1048576 ->
  derive_loop P m salt label r fuel need =
  ctr_from P m (ben 16 (Z.lxor (label * 2 ^ 48) (salt112 salt) * 2 ^ 16)) r fuel (repeat 0 need).
Proof.
  intros HP B L LB. pose proof HP as (HA & _). induction fuel as [|f IH]; intros need r R H; [reflexivity|]. destruct need as [|need]; [reflexivity|].
  assert (ctr_from P m (ben 16 (Z.lxor (label * 2 ^ 48) (salt112 salt) * 2 ^ 16)) r (S f) (repeat 0 (S need)) =
     xorl (firstn 16 (repeat 0 (S need))) (aes P m (ctr_block (ben 16 (Z.lxor (label * 2 ^ 48) (salt112 salt) * 2 ^ 16)) r)) ++
     ctr_from P m (ben 16 (Z.lxor (label * 2 ^ 48) (salt112 salt) * 2 ^ 16)) (r + 1) f (skipn 16 (repeat 0 (S need)))) as -> by reflexivity.
  assert (derive_loop P m salt label r (S f) (S need) = firstn (S need) (aes P m (derive_input salt label r)) ++ derive_loop P m salt label (r + 1) f (S need - 16)) as -> by reflexivity.
  rewrite <- derive_input_block by (assumption || lia). set (ks := aes P m (derive_input salt label r)).
  assert (length ks = 16%nat) as LK by (destruct (HA m (derive_input salt label r)) as [X _]; unfold ks, zlen in *; lia).
  rewrite firstn_repeat, skipn_repeat, xorl_zeros by lia. f_equal.
  - destruct (le_lt_dec 16 (S need)); [rewrite !firstn_all2 by lia; reflexivity|f_equal; lia].
  - destruct (le_lt_dec 16 (S need)) as [G|G]; [apply IH; lia|].
    replace (S need - 16)%nat with 0%nat by lia. destruct f; reflexivity.
Qed.

Lemma derive_kdf P m salt label n : prims_ok P -> bytes_ok salt -> zlen salt <= 14 -> byte_ok label -> Z.of_nat n <= 1048576 ->
  derive P m salt label n = rfc_kdf P m salt label n.
Proof.
  intros. unfold derive, rfc_kdf, ctr. cbn zeta. rewrite repeat_length. apply derive_loop_ctr; try assumption; lia.
Qed.
Lemma ctr_zlen P k iv l : prims_ok P -> length (ctr P k iv l) = length l.
Proof. intro. pose proof (ctr_len P k iv l H). unfold zlen in *. lia. Qed.
Lemma derive_len P m salt label n : prims_ok P -> bytes_ok salt -> zlen salt <= 14 -> byte_ok label -> Z.of_nat n <= 1048576 ->
  zlen (derive P m salt label n) = Z.of_nat n /\ bytes_ok (derive P m salt label n).
Proof.
  intros. rewrite derive_kdf by assumption. unfold rfc_kdf. cbn zeta. split; [unfold zlen; rewrite ctr_zlen, repeat_length by assumption; reflexivity|].
  apply ctr_ok; [assumption|]. apply Forall_forall. intros x X. apply repeat_spec in X. subst. red. lia.
Qed.

Lemma nonces_disjoint d s1 i1 s2 i2 b : derived_ok d -> 0 <= s1 < U32 -> 0 <= s2 < U32 -> 0 <= i1 < 2 ^ 48 -> 0 <= i2 < 2 ^ 48 ->
  nonces d s1 i1 b -> nonces d s2 i2 b -> s1 = s2 /\ i1 = i2.
Proof.
  intros HD S1 S2 I1 I2 N1 N2. destruct d as [auth salt key|salt key]; cbn [nonces derived_ok] in *; destruct HD as [L B].
  - destruct N1 as (j1 & J1 & ->), N2 as (j2 & J2 & E). pose proof (rdn_range salt B) as R. rewrite L in R. change (256 ^ 14) with (2 ^ 112) in R.
    rewrite !rfc3711_iv_alt in E by assumption. apply ctr_block_inj in E as [E _]; try assumption; try (apply rfc3711_iv_range; assumption).
    apply lxor_cancel_l in E. apply pair_inj; assumption.
  - rewrite N1 in N2. apply (f_equal rdn) in N2. pose proof (rdn_range salt B) as R. rewrite L in R. change (256 ^ 12) with (2 ^ 96) in R.
    assert (forall s i, 0 <= s < U32 -> 0 <= i < 2 ^ 48 -> 0 <= rfc7714_rtp_iv (rdn salt) s i < 256 ^ Z.of_nat 12) as RR.
    { intros s i S I. change (256 ^ Z.of_nat 12) with (2 ^ 96). unfold rfc7714_rtp_iv. apply lxor_lt; [lia| |exact R]. unfold U32 in S.
      change (2 ^ 48) with 281474976710656 in *. change (2 ^ 96) with 79228162514264337593543950336. lia. }
    rewrite !rdn_ben in N2 by (apply RR; assumption). unfold rfc7714_rtp_iv in N2. rewrite !(Z.lxor_comm _ (rdn salt)) in N2. apply lxor_cancel_l in N2. apply pair_inj; assumption.
Qed.

(** Lemmas for the SRTP theorems. *)
From Verif Require Import Base BaseFacts SrtpModel SrtpSpec HeaderModel.
Ltac spl := repeat match goal with |- _ /\ _ => split end.

(** ** Numbers *)
Lemma rdn_acc l : forall a, fold_left (fun a b => a * 256 + b) l a = a * 256 ^ zlen l + rdn l.
Proof.
  unfold rdn. induction l as [|x l IH]; intro a; [cbn; lia|]. cbn [fold_left]. rewrite IH, (IH (0 * 256 + x)), zlen_cons.
  rewrite Z.pow_add_r by (pose proof (zlen_nonneg l); lia). lia.
Qed.
Lemma rdn_app a b : rdn (a ++ b) = rdn a * 256 ^ zlen b + rdn b.
Proof. unfold rdn at 1. rewrite fold_left_app. apply rdn_acc. Qed.
Lemma rdn_cons x l : rdn (x :: l) = x * 256 ^ zlen l + rdn l.
Proof. change (x :: l) with ([x] ++ l). rewrite rdn_app. unfold rdn at 1. cbn [fold_left]. lia. Qed.
Lemma rdn_range l : bytes_ok l -> 0 <= rdn l < 256 ^ zlen l.
Proof.
  induction 1 as [|x l B _ IH]; [cbn; lia|]. rewrite rdn_cons, zlen_cons, Z.pow_add_r by (pose proof (zlen_nonneg l); lia).
  red in B. nia.
Qed.
Lemma rdn_rep0 n : rdn (rep 0 n) = 0.
Proof. unfold rep. induction (Z.to_nat n) as [|k IH]; [reflexivity|]. cbn [repeat]. rewrite rdn_cons, IH. lia. Qed.
Lemma ben_length n : forall v, length (ben n v) = n.
Proof. induction n; intro v; cbn [ben]; [reflexivity|]. rewrite app_length, IHn. cbn. lia. Qed.
Lemma ben_zlen n v : zlen (ben n v) = Z.of_nat n.
Proof. unfold zlen. rewrite ben_length. reflexivity. Qed.
Lemma ben_ok n : forall v, bytes_ok (ben n v).
Proof. induction n; intro v; cbn [ben]; [constructor|]. apply bytes_ok_app. split; [apply IHn|]. repeat constructor; dlia. Qed.
Lemma rdn_ben n : forall v, 0 <= v < 256 ^ Z.of_nat n -> rdn (ben n v) = v.
Proof.
  induction n; intros v H; cbn [ben]; [cbn in *; lia|]. rewrite rdn_app, IHn.
  - change (zlen [v mod 256]) with 1. rewrite rdn_cons. cbn [zlen length]. change (rdn []) with 0. rewrite Z.pow_1_r. change (zlen []) with 0. rewrite Z.pow_0_r. dlia.
  - rewrite Nat2Z.inj_succ, Z.pow_succ_r in H by lia. split; [apply Z.div_pos; lia|]. apply Z.div_lt_upper_bound; lia.
Qed.
Lemma ben_rdn l : bytes_ok l -> ben (length l) (rdn l) = l.
Proof.
  induction l as [|x l IH] using rev_ind; intro B; [reflexivity|]. apply bytes_ok_app in B as [B1 B2]. inversion B2 as [|? ? X _]; subst. red in X.
  rewrite app_length. cbn [length]. rewrite Nat.add_1_r. cbn [ben]. rewrite rdn_app. change (zlen [x]) with 1. rewrite Z.pow_1_r.
  change (rdn [x]) with (0 * 256 + x). replace ((rdn l * 256 + (0 * 256 + x)) / 256) with (rdn l) by dlia.
  replace ((rdn l * 256 + (0 * 256 + x)) mod 256) with x by dlia. rewrite IH by exact B1. reflexivity.
Qed.
Lemma rdn_inj a b : bytes_ok a -> bytes_ok b -> length a = length b -> rdn a = rdn b -> a = b.
Proof. intros A B L E. rewrite <- (ben_rdn a A), <- (ben_rdn b B), L, E. reflexivity. Qed.
Lemma rdn_be32 x : 0 <= x < U32 -> rdn (be32 x) = x.
Proof. unfold U32, be32, rdn. cbn [fold_left]. intro. dlia. Qed.
Lemma be32_ben x : be32 x = ben 4 x.
Proof. unfold be32. cbn [ben app]. rewrite !Z.div_div by lia. reflexivity. Qed.
Lemma rdn_be64 x : 0 <= x < U64 -> rdn (be64 x) = x.
Proof.
  unfold U64, be64. intro. rewrite rdn_app, rdn_be32 by (unfold U32; dlia). change (zlen (be32 x)) with 4.
  replace (rdn (be32 x)) with (x mod 4294967296); [change (256 ^ 4) with 4294967296; dlia|].
  unfold be32, rdn. cbn [fold_left]. dlia.
Qed.
Lemma rdn_be16 x : 0 <= x < 65536 -> rdn (be16 x) = x.
Proof. unfold be16, rdn. cbn [fold_left]. intro. dlia. Qed.

(** ** XOR of byte strings *)
Lemma add_lxor a x n : 0 <= n -> 0 <= x < 2 ^ n -> a * 2 ^ n + x = Z.lxor (a * 2 ^ n) x.
Proof. intros N H. apply Z.add_nocarry_lxor. apply (land_disj _ _ n); [exact N|exact H|apply Z.mod_mul; lia]. Qed.
Lemma lxor_lt x y n : 0 <= n -> 0 <= x < 2 ^ n -> 0 <= y < 2 ^ n -> 0 <= Z.lxor x y < 2 ^ n.
Proof.
  intros N X Y. assert (0 <= Z.lxor x y) as P by (apply Z.lxor_nonneg; lia). split; [exact P|].
  destruct (Z.eq_dec (Z.lxor x y) 0) as [->|NZ]; [lia|]. apply Z.log2_lt_pow2; [lia|].
  pose proof (Z.log2_lxor x y ltac:(lia) ltac:(lia)).
  assert (n <> 0) by (intros ->; cbn in *; assert (x = 0) by lia; assert (y = 0) by lia; subst; apply NZ; reflexivity).
  assert (forall z, 0 <= z < 2 ^ n -> Z.log2 z < n) as Q.
  { intros z Hz. destruct (Z.eq_dec z 0) as [->|]; [cbn; lia|apply Z.log2_lt_pow2; lia]. }
  pose proof (Q x X). pose proof (Q y Y). lia.
Qed.
Lemma lxor_mul_pow a b n : 0 <= n -> Z.lxor (a * 2 ^ n) (b * 2 ^ n) = Z.lxor a b * 2 ^ n.
Proof. intro. rewrite <- !Z.shiftl_mul_pow2 by lia. symmetry. apply Z.shiftl_lxor. Qed.
Lemma lxor_split a b x y n : 0 <= n -> 0 <= x < 2 ^ n -> 0 <= y < 2 ^ n ->
  Z.lxor (a * 2 ^ n + x) (b * 2 ^ n + y) = Z.lxor a b * 2 ^ n + Z.lxor x y.
Proof.
  intros N X Y. pose proof (lxor_lt x y n N X Y).
  rewrite (add_lxor a), (add_lxor b), (add_lxor (Z.lxor a b)) by assumption. rewrite <- lxor_mul_pow by exact N.
  rewrite !Z.lxor_assoc. f_equal. rewrite <- !Z.lxor_assoc. f_equal. apply Z.lxor_comm.
Qed.
Lemma xorl_length a : forall b, length a = length b -> length (xorl a b) = length a.
Proof. induction a as [|x a IH]; intros [|y b] L; cbn in *; try lia. rewrite IH; lia. Qed.
Lemma xorl_length_min a : forall b, length (xorl a b) = Nat.min (length a) (length b).
Proof. induction a as [|x a IH]; intros [|y b]; cbn; try lia. rewrite IH. lia. Qed.
Lemma byte_lxor x y : byte_ok x -> byte_ok y -> byte_ok (Z.lxor x y).
Proof. unfold byte_ok. intros. apply (lxor_lt x y 8); cbn; lia. Qed.
Lemma xorl_ok a : forall b, bytes_ok a -> bytes_ok b -> bytes_ok (xorl a b).
Proof.
  induction a as [|x a IH]; intros [|y b] A B; cbn [xorl]; try constructor.
  - inversion A; inversion B; subst. apply byte_lxor; assumption.
  - inversion A; inversion B; subst. apply IH; assumption.
Qed.
Lemma pow256 n : 0 <= n -> 256 ^ n = 2 ^ (8 * n).
Proof. intro. change 256 with (2 ^ 8). rewrite <- Z.pow_mul_r by lia. reflexivity. Qed.
Lemma rdn_xorl a : forall b, bytes_ok a -> bytes_ok b -> length a = length b -> rdn (xorl a b) = Z.lxor (rdn a) (rdn b).
Proof.
  induction a as [|x a IH]; intros [|y b] A B L; cbn [length] in L; try discriminate L; [reflexivity|].
  inversion A as [|? ? A1 A2]; inversion B as [|? ? B1 B2]; subst. cbn [xorl]. rewrite !rdn_cons.
  assert (zlen (xorl a b) = zlen a) as -> by (unfold zlen; rewrite xorl_length by lia; reflexivity).
  assert (zlen b = zlen a) as -> by (unfold zlen; lia). rewrite IH by (assumption || lia).
  pose proof (rdn_range a A2) as RA. pose proof (rdn_range b B2) as RB. replace (zlen b) with (zlen a) in RB by (unfold zlen; lia).
  pose proof (zlen_nonneg a). rewrite pow256 in * by lia. rewrite lxor_split by lia. reflexivity.
Qed.
Lemma xorl_invol a : forall k, length a = length k -> xorl (xorl a k) k = a.
Proof.
  induction a as [|x a IH]; intros [|y k] L; cbn in *; try lia; [reflexivity|]. rewrite IH by lia. f_equal.
  rewrite Z.lxor_assoc, Z.lxor_nilpotent, Z.lxor_0_r. reflexivity.
Qed.
Lemma xorl_trim a : forall k, xorl a (firstn (length a) k) = xorl a k.
Proof. induction a as [|x a IH]; intros [|y k]; cbn; try reflexivity. rewrite IH. reflexivity. Qed.
Lemma xorl_0 k : xorl (repeat 0 (length k)) k = k.
Proof. induction k as [|y k IH]; [reflexivity|]. cbn [length repeat xorl]. rewrite IH, Z.lxor_0_l. reflexivity. Qed.

(** ** IVs *)
Lemma cm_iv_rfc salt ssrc i : zlen salt = 14 -> bytes_ok salt -> 0 <= ssrc < U32 -> 0 <= i < U64 ->
  cm_iv salt ssrc i = ben 16 (rfc3711_iv (rdn salt) ssrc i).
Proof.
  intros L B S I.
  assert (length salt = 14%nat) as L' by (unfold zlen in L; lia).
  set (a := rep 0 4 ++ be32 ssrc ++ rep 0 8). set (b := rep 0 6 ++ be64 i ++ rep 0 2). set (s := salt ++ rep 0 2).
  assert (bytes_ok a) as OA by (unfold a; rewrite !bytes_ok_app; spl; try apply be32_ok; unfold rep; cbn; repeat constructor; lia).
  assert (bytes_ok b) as OB by (unfold b; rewrite !bytes_ok_app; spl; try apply be64_ok; unfold rep; cbn; repeat constructor; lia).
  assert (bytes_ok s) as OS by (unfold s; rewrite !bytes_ok_app; spl; try assumption; unfold rep; cbn; repeat constructor; lia).
  assert (length s = 16%nat) as LS by (unfold s; rewrite app_length, L'; reflexivity).
  assert (length (xorl a b) = 16%nat) as LAB by (rewrite xorl_length; reflexivity).
  assert (length (xorl (xorl a b) s) = 16%nat) as LX by (rewrite xorl_length; lia).
  unfold cm_iv. fold a b s. rewrite <- (ben_rdn (xorl (xorl a b) s)) by (repeat apply xorl_ok; assumption).
  rewrite LX. f_equal. rewrite !rdn_xorl by (try apply xorl_ok; try assumption; try reflexivity; lia).
  unfold rfc3711_iv. rewrite Z.lxor_comm, <- Z.lxor_assoc. f_equal; [f_equal|].
  - unfold s. rewrite rdn_app, rdn_rep0. change (256 ^ zlen (rep 0 2)) with (2 ^ 16). lia.
  - unfold a. rewrite !rdn_app, !rdn_rep0, rdn_be32 by exact S. change (256 ^ zlen (rep 0 8)) with (2 ^ 64). lia.
  - unfold b. rewrite !rdn_app, !rdn_rep0, rdn_be64 by exact I. change (256 ^ zlen (rep 0 2)) with (2 ^ 16). lia.
Qed.
Lemma gcm_iv_rfc salt ssrc i : zlen salt = 12 -> bytes_ok salt -> 0 <= ssrc < U32 -> 0 <= i < 2 ^ 48 ->
  gcm_iv salt ssrc (roc_of i) (i mod 65536) = ben 12 (rfc7714_rtp_iv (rdn salt) ssrc i).
Proof.
  intros L B S I. assert (length salt = 12%nat) as L' by (unfold zlen in L; lia).
  set (a := rep 0 2 ++ be32 ssrc ++ be32 (roc_of i) ++ be16 (i mod 65536)).
  assert (bytes_ok a) as OA by (unfold a; rewrite !bytes_ok_app; spl; try apply be32_ok; try apply be16_ok; unfold rep; cbn; repeat constructor; lia).
  unfold gcm_iv. fold a. assert (length (xorl a salt) = 12%nat) as LX by (rewrite xorl_length; [reflexivity|rewrite L'; reflexivity]).
  rewrite <- (ben_rdn (xorl a salt)) by (apply xorl_ok; assumption). rewrite LX. f_equal.
  rewrite rdn_xorl by (try assumption; rewrite L'; reflexivity). unfold rfc7714_rtp_iv. f_equal.
  unfold a. rewrite !rdn_app, rdn_rep0, rdn_be32 by exact S. rewrite rdn_be32 by (unfold roc_of, U32; dlia). rewrite rdn_be16 by dlia.
  rewrite !zlen_app. change (zlen (be32 (roc_of i))) with 4. change (zlen (be16 (i mod 65536))) with 2.
  unfold roc_of, U32. change (2 ^ 48) with 281474976710656 in *. change (256 ^ (4 + 2)) with 281474976710656. change (256 ^ 2) with 65536.
  rewrite (Z.mod_small (i / 65536)) by dlia. dlia.
Qed.
Lemma gcm_rtcp_iv_rfc salt ssrc i : zlen salt = 12 -> bytes_ok salt -> 0 <= ssrc < U32 -> 0 <= i < U32 ->
  gcm_rtcp_iv salt ssrc i = ben 12 (rfc7714_rtcp_iv (rdn salt) ssrc i).
Proof.
  intros L B S I. assert (length salt = 12%nat) as L' by (unfold zlen in L; lia).
  set (a := rep 0 2 ++ be32 ssrc ++ rep 0 2 ++ be32 i).
  assert (bytes_ok a) as OA by (unfold a; rewrite !bytes_ok_app; spl; try apply be32_ok; unfold rep; cbn; repeat constructor; lia).
  unfold gcm_rtcp_iv. fold a. assert (length (xorl a salt) = 12%nat) as LX by (rewrite xorl_length; [reflexivity|rewrite L'; reflexivity]).
  rewrite <- (ben_rdn (xorl a salt)) by (apply xorl_ok; assumption). rewrite LX. f_equal.
  rewrite rdn_xorl by (try assumption; rewrite L'; reflexivity). unfold rfc7714_rtcp_iv. f_equal.
  unfold a. rewrite !rdn_app, !rdn_rep0, !rdn_be32 by assumption. rewrite !zlen_app. change (zlen (be32 i)) with 4. change (zlen (rep 0 2)) with 2.
  change (256 ^ (2 + 4)) with (2 ^ 48). lia.
Qed.
Lemma lxor_cancel_l a x y : Z.lxor a x = Z.lxor a y -> x = y.
Proof.
  intro H. assert (Z.lxor a (Z.lxor a x) = Z.lxor a (Z.lxor a y)) as K by (rewrite H; reflexivity).
  rewrite <- !Z.lxor_assoc, Z.lxor_nilpotent, !Z.lxor_0_l in K. exact K.
Qed.
Lemma pair_inj s1 i1 s2 i2 : 0 <= i1 < 2 ^ 48 -> 0 <= i2 < 2 ^ 48 -> s1 * 2 ^ 48 + i1 = s2 * 2 ^ 48 + i2 -> s1 = s2 /\ i1 = i2.
Proof. change (2 ^ 48) with 281474976710656. lia. Qed.
(** The CM IV is a multiple of 2^16. *)
Lemma rfc3711_iv_alt ks s i : 0 <= i < 2 ^ 48 -> rfc3711_iv ks s i = Z.lxor ks (s * 2 ^ 48 + i) * 2 ^ 16.
Proof.
  intro I. unfold rfc3711_iv. replace (s * 2 ^ 64) with (s * 2 ^ 48 * 2 ^ 16) by (rewrite <- Z.mul_assoc, <- Z.pow_add_r by lia; reflexivity).
  rewrite !lxor_mul_pow by lia. f_equal. rewrite (add_lxor s i 48) by lia. apply Z.lxor_assoc.
Qed.
Lemma rfc3711_iv_range ks s i : 0 <= ks < 2 ^ 112 -> 0 <= s < U32 -> 0 <= i < 2 ^ 48 -> 0 <= Z.lxor ks (s * 2 ^ 48 + i) < 2 ^ 112.
Proof.
  intros K S I. apply lxor_lt; [lia|exact K|]. unfold U32 in S. change (2 ^ 48) with 281474976710656 in *. change (2 ^ 112) with 5192296858534827628530496329220096. lia.
Qed.

(** ** Counter mode *)
Lemma ctr_block_len iv j : length (ctr_block iv j) = 16%nat. Proof. apply ben_length. Qed.
Lemma ctr_from_fuel P k iv fuel : forall j input, (length input <= fuel)%nat -> ctr_from P k iv j fuel input = ctr_from P k iv j (length input) input.
Proof.
  assert (forall n m j input, (length input <= n)%nat -> (length input <= m)%nat -> ctr_from P k iv j n input = ctr_from P k iv j m input) as G.
  { induction n as [|n IH]; intros m j input H1 H2.
    - destruct input; [destruct m; reflexivity|cbn in H1; lia].
    - destruct input as [|x r]; [destruct m; reflexivity|]. destruct m as [|m]; [cbn in H2; lia|]. cbn [ctr_from]. f_equal.
      apply IH; rewrite skipn_length; cbn [length] in *; lia. }
  intros j input H. apply G; lia.
Qed.
Lemma ctr_from_len P k iv fuel : prims_ok P -> forall j input, (length input <= fuel)%nat -> length (ctr_from P k iv j fuel input) = length input.
Proof.
  intros (HA & _). induction fuel as [|f IH]; intros j input H; [destruct input; cbn in *; lia|].
  destruct input as [|x r]; [reflexivity|]. set (inp := x :: r) in *.
  change (ctr_from P k iv j (S f) inp) with (xorl (firstn 16 inp) (aes P k (ctr_block iv j)) ++ ctr_from P k iv (j + 1) f (skipn 16 inp)).
  rewrite app_length, xorl_length_min, IH, firstn_length, skipn_length by (rewrite skipn_length; unfold inp in *; cbn [length] in *; lia).
  destruct (HA k (ctr_block iv j)) as [L _]. unfold zlen in L. lia.
Qed.
Lemma ctr_len P k iv input : prims_ok P -> zlen (ctr P k iv input) = zlen input.
Proof. intro H. unfold zlen, ctr. rewrite ctr_from_len by (assumption || lia). reflexivity. Qed.
Lemma ctr_from_ok P k iv fuel : prims_ok P -> forall j input, bytes_ok input -> bytes_ok (ctr_from P k iv j fuel input).
Proof.
  intros (HA & _). induction fuel as [|f IH]; intros j input B; [constructor|]. cbn [ctr_from]. destruct input as [|x r]; [constructor|].
  apply bytes_ok_app. split; [apply xorl_ok; [apply bytes_ok_firstn; exact B|apply HA]|apply IH, bytes_ok_skipn; exact B].
Qed.
Lemma ctr_ok P k iv input : prims_ok P -> bytes_ok input -> bytes_ok (ctr P k iv input).
Proof. intros. apply ctr_from_ok; assumption. Qed.
Lemma ctr_from_invol P k iv fuel : prims_ok P -> forall j input, (length input <= fuel)%nat -> ctr_from P k iv j fuel (ctr_from P k iv j fuel input) = input.
Proof.
  intro HP. pose proof HP as (HA & _). induction fuel as [|f IH]; intros j input H; [destruct input; cbn in *; [reflexivity|lia]|].
  destruct input as [|x r]; [reflexivity|]. set (inp := x :: r) in *.
  set (ks := aes P k (ctr_block iv j)). assert (length ks = 16%nat) as LK by (destruct (HA k (ctr_block iv j)) as [L _]; unfold ks, zlen in *; lia).
  assert (ctr_from P k iv j (S f) inp = xorl (firstn 16 inp) ks ++ ctr_from P k iv (j + 1) f (skipn 16 inp)) as E by reflexivity.
  set (c1 := xorl (firstn 16 inp) ks) in *. set (c2 := ctr_from P k iv (j + 1) f (skipn 16 inp)) in *.
  assert (length c2 = (length inp - 16)%nat) as L2.
  { unfold c2. rewrite ctr_from_len by (assumption || (rewrite skipn_length; unfold inp in *; cbn [length] in *; lia)). apply skipn_length. }
  assert (length c1 = Nat.min 16 (length inp)) as L1.
  { unfold c1. rewrite xorl_length_min, firstn_length. lia. }
  rewrite E.
  assert (ctr_from P k iv j (S f) (c1 ++ c2) = xorl (firstn 16 (c1 ++ c2)) ks ++ ctr_from P k iv (j + 1) f (skipn 16 (c1 ++ c2))) as E2.
  { assert (c1 ++ c2 <> []) as NE. { intro X. apply (f_equal (@length Z)) in X. rewrite app_length, L1, L2 in X. unfold inp in X. cbn [length] in X. lia. }
    destruct (c1 ++ c2) as [|y z]; [congruence|]. reflexivity. }
  rewrite E2. destruct (le_lt_dec 16 (length inp)) as [G|G].
  - assert (length c1 = 16%nat) as L1' by lia.
    rewrite firstn_app, skipn_app, L1', Nat.sub_diag, firstn_O, skipn_O. rewrite firstn_all2, skipn_all2, app_nil_r by lia. cbn [app].
    unfold c1. rewrite xorl_invol by (rewrite firstn_length; lia). unfold c2. rewrite IH by (rewrite skipn_length; unfold inp in *; cbn [length] in *; lia).
    apply firstn_skipn.
  - assert (c2 = []) as -> by (apply length_zero_iff_nil; lia). rewrite app_nil_r, firstn_all2, skipn_all2 by lia.
    replace (ctr_from P k iv (j + 1) f []) with (@nil Z) by (destruct f; reflexivity). rewrite app_nil_r. unfold c1.
    rewrite (firstn_all2 inp) by lia. rewrite <- (xorl_trim inp ks).
    set (kk := firstn (length inp) ks). assert (length (xorl inp kk) = length inp) as LL by (rewrite xorl_length; [reflexivity|unfold kk; rewrite firstn_length; lia]).
    rewrite <- (xorl_trim (xorl inp kk) ks). rewrite LL. fold kk. apply xorl_invol. unfold kk. rewrite firstn_length. lia.
Qed.
Lemma ctr_invol P k iv input : prims_ok P -> ctr P k iv (ctr P k iv input) = input.
Proof.
  intro H. unfold ctr at 1. pose proof (ctr_len P k iv input H) as L. unfold zlen in L.
  replace (length (ctr P k iv input)) with (length input) by lia. unfold ctr. apply ctr_from_invol; [exact H|lia].
Qed.

(** ** Blits *)
Lemma blit_at a m b s : zlen s = zlen m -> blit (a ++ m ++ b) (zlen a) s = Ok (a ++ s ++ b).
Proof.
  intro L. unfold blit. rewrite !zlen_app. pose proof (zlen_nonneg a). pose proof (zlen_nonneg b).
  replace ((zlen a <? 0) || (zlen a + (zlen m + zlen b) <? zlen a + zlen s)) with false by lia.
  assert (skipn (Z.to_nat (zlen a + zlen s)) (a ++ m ++ b) = b) as ->.
  { replace (Z.to_nat (zlen a + zlen s)) with (length (a ++ m)) by (rewrite app_length; unfold zlen in *; lia).
    rewrite app_assoc, skipn_app, skipn_all, Nat.sub_diag. reflexivity. }
  assert (firstn (Z.to_nat (zlen a)) (a ++ m ++ b) = a) as ->.
  { replace (Z.to_nat (zlen a)) with (length a) by (unfold zlen; lia). rewrite firstn_app, firstn_all, Nat.sub_diag, firstn_O. apply app_nil_r. }
  reflexivity.
Qed.
Lemma blit_front m b s : zlen s = zlen m -> blit (m ++ b) 0 s = Ok (s ++ b).
Proof. intro L. exact (blit_at [] m b s L). Qed.
Lemma split3 (l : list Z) a n : 0 <= a -> 0 <= n -> a + n <= zlen l -> exists x m y, l = x ++ m ++ y /\ zlen x = a /\ zlen m = n /\ zlen y = zlen l - a - n.
Proof.
  intros A N H. exists (firstn (Z.to_nat a) l), (firstn (Z.to_nat n) (skipn (Z.to_nat a) l)), (skipn (Z.to_nat n) (skipn (Z.to_nat a) l)).
  rewrite !zlen_firstn, !zlen_skipn. rewrite !firstn_skipn. spl; try lia. reflexivity.
Qed.
Lemma rep_app n m : 0 <= n -> 0 <= m -> rep 0 (n + m) = rep 0 n ++ rep 0 m :> list Z.
Proof. intros. unfold rep. rewrite Z2Nat.inj_add by lia. apply repeat_app. Qed.
Lemma eqb_list_spec a b : eqb_list a b = true <-> a = b.
Proof. unfold eqb_list. destruct (list_eq_dec Z.eq_dec a b); split; congruence. Qed.
Lemma tag10_ok P k m : prims_ok P -> tag10 P k m = Ok (firstn 10 (hmac P k m)).
Proof. intros (_ & H & _). unfold tag10. destruct (H k m) as [L _]. rewrite upto_ok by lia. reflexivity. Qed.
Lemma tag_zlen P k m : prims_ok P -> zlen (firstn 10 (hmac P k m)) = 10.
Proof. intros (_ & H & _). destruct (H k m) as [L _]. rewrite zlen_firstn. lia. Qed.

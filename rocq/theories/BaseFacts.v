(** Facts about the common vocabulary. *)
From Verif Require Import Base.

Lemma zlen_nil {A} : zlen (@nil A) = 0. Proof. reflexivity. Qed.
Lemma zlen_cons {A} (x : A) l : zlen (x :: l) = 1 + zlen l.
Proof. unfold zlen; cbn [length]; lia. Qed.
Lemma zlen_app {A} (a b : list A) : zlen (a ++ b) = zlen a + zlen b.
Proof. unfold zlen; rewrite app_length; lia. Qed.
Lemma zlen_nonneg {A} (l : list A) : 0 <= zlen l.
Proof. unfold zlen; lia. Qed.
Lemma zlen_rep {A} (x : A) n : 0 <= n -> zlen (rep x n) = n.
Proof. intros; unfold zlen, rep; rewrite repeat_length; lia. Qed.
Lemma zlen_repeat {A} (x : A) n : zlen (repeat x n) = Z.of_nat n.
Proof. unfold zlen; rewrite repeat_length; lia. Qed.
Lemma zlen_map {A B} (f : A -> B) l : zlen (map f l) = zlen l.
Proof. unfold zlen; rewrite map_length; reflexivity. Qed.
Lemma zlen_rev {A} (l : list A) : zlen (rev l) = zlen l.
Proof. unfold zlen; rewrite rev_length; reflexivity. Qed.
Lemma zlen_0 {A} (l : list A) : zlen l = 0 -> l = [].
Proof. destruct l; [reflexivity|]. rewrite zlen_cons. pose proof (zlen_nonneg l); lia. Qed.
Lemma zlen_firstn {A} (l : list A) n : zlen (firstn n l) = Z.min (Z.of_nat n) (zlen l).
Proof. unfold zlen; rewrite firstn_length; lia. Qed.
Lemma zlen_skipn {A} (l : list A) n : zlen (skipn n l) = Z.max 0 (zlen l - Z.of_nat n).
Proof. unfold zlen; rewrite skipn_length; lia. Qed.

#[export] Hint Rewrite @zlen_nil @zlen_cons @zlen_app @zlen_repeat @zlen_map @zlen_rev
  @zlen_firstn @zlen_skipn : zlen.

Lemma bytes_ok_app a b : bytes_ok (a ++ b) <-> bytes_ok a /\ bytes_ok b.
Proof. apply Forall_app. Qed.
Lemma bytes_ok_cons a b : bytes_ok (a :: b) <-> byte_ok a /\ bytes_ok b.
Proof. unfold bytes_ok; split; intro H; [inversion H; auto | constructor; tauto]. Qed.
Lemma bytes_ok_nil : bytes_ok []. Proof. constructor. Qed.

Lemma Forall_skipn {A} (P : A -> Prop) n l : Forall P l -> Forall P (skipn n l).
Proof.
  intro H. rewrite <- (firstn_skipn n l) in H. apply Forall_app in H. tauto.
Qed.
Lemma Forall_firstn {A} (P : A -> Prop) n l : Forall P l -> Forall P (firstn n l).
Proof.
  intro H. rewrite <- (firstn_skipn n l) in H. apply Forall_app in H. tauto.
Qed.
Lemma bytes_ok_skipn n l : bytes_ok l -> bytes_ok (skipn n l).
Proof. apply Forall_skipn. Qed.
Lemma bytes_ok_firstn n l : bytes_ok l -> bytes_ok (firstn n l).
Proof. apply Forall_firstn. Qed.

Lemma be16_ok x : bytes_ok (be16 x).
Proof. unfold be16, bytes_ok, byte_ok. repeat constructor; dlia. Qed.
Lemma be24_ok x : bytes_ok (be24 x).
Proof. unfold be24, bytes_ok, byte_ok. repeat constructor; dlia. Qed.
Lemma be32_ok x : bytes_ok (be32 x).
Proof. unfold be32, bytes_ok, byte_ok. repeat constructor; dlia. Qed.
Lemma be64_ok x : bytes_ok (be64 x).
Proof. unfold be64. apply bytes_ok_app; split; apply be32_ok. Qed.

Lemma rd16_be16 x : 0 <= x < U16 -> rd16 (x / 256 mod 256) (x mod 256) = x.
Proof. unfold rd16, U16; dlia. Qed.
Lemma rd24_be24 x : 0 <= x < 16777216 ->
  rd24 (x / 65536 mod 256) (x / 256 mod 256) (x mod 256) = x.
Proof. unfold rd24; dlia. Qed.
Lemma rd32_be32 x : 0 <= x < U32 ->
  rd32 (x / 16777216 mod 256) (x / 65536 mod 256) (x / 256 mod 256) (x mod 256) = x.
Proof. unfold rd32, U32; dlia. Qed.
Lemma rd16_range a b : byte_ok a -> byte_ok b -> 0 <= rd16 a b < U16.
Proof. unfold byte_ok, rd16, U16; lia. Qed.
Lemma rd24_range a b c : byte_ok a -> byte_ok b -> byte_ok c -> 0 <= rd24 a b c < 16777216.
Proof. unfold byte_ok, rd24; lia. Qed.
Lemma rd32_range a b c d : byte_ok a -> byte_ok b -> byte_ok c -> byte_ok d ->
  0 <= rd32 a b c d < U32.
Proof. unfold byte_ok, rd32, U32; lia. Qed.

(** indexing *)
Lemma idx_ok {A} (l : list A) i : 0 <= i < zlen l -> exists b, idx l i = Ok b /\ In b l.
Proof.
  intros H. unfold idx. destruct (i <? 0) eqn:E; [lia|].
  destruct (nth_error l (Z.to_nat i)) eqn:N.
  - exists a; split; [reflexivity|]. eapply nth_error_In; eauto.
  - apply nth_error_None in N. unfold zlen in H. lia.
Qed.
Lemma idx_app_l {A} (a b : list A) i : i < zlen a -> idx (a ++ b) i = idx a i.
Proof.
  intro H. unfold idx. destruct (i <? 0) eqn:E; [reflexivity|].
  rewrite nth_error_app1; [reflexivity|]. unfold zlen in H; lia.
Qed.
Lemma idx_app_r {A} (a b : list A) i : zlen a <= i -> idx (a ++ b) i = idx b (i - zlen a).
Proof.
  intro H. unfold idx. pose proof (zlen_nonneg a).
  destruct (i <? 0) eqn:E; [lia|]. destruct (i - zlen a <? 0) eqn:E2; [lia|].
  rewrite nth_error_app2; [|unfold zlen in H; lia].
  replace (Z.to_nat (i - zlen a)) with (Z.to_nat i - length a)%nat; [reflexivity|].
  unfold zlen; lia.
Qed.
Lemma idx_byte l i b : bytes_ok l -> idx l i = Ok b -> byte_ok b.
Proof.
  unfold idx; intros H. destruct (i <? 0); [discriminate|].
  destruct (nth_error l (Z.to_nat i)) eqn:N; [|discriminate].
  intro E; inversion E; subst. apply nth_error_In in N.
  unfold bytes_ok in H; rewrite Forall_forall in H; auto.
Qed.
Lemma idx_inv {A} (l : list A) i b : idx l i = Ok b -> 0 <= i < zlen l.
Proof.
  unfold idx. destruct (i <? 0) eqn:E; [discriminate|].
  destruct (nth_error l (Z.to_nat i)) eqn:N; [|discriminate]. intros _.
  assert (nth_error l (Z.to_nat i) <> None) as H by congruence.
  apply nth_error_Some in H. unfold zlen; lia.
Qed.

Lemma from_ok {A} (l : list A) n : 0 <= n <= zlen l -> from l n = Ok (skipn (Z.to_nat n) l).
Proof. intro H. unfold from. destruct ((n <? 0) || (zlen l <? n)) eqn:E; [lia|reflexivity]. Qed.
Lemma upto_ok {A} (l : list A) n : 0 <= n <= zlen l -> upto l n = Ok (firstn (Z.to_nat n) l).
Proof. intro H. unfold upto. destruct ((n <? 0) || (zlen l <? n)) eqn:E; [lia|reflexivity]. Qed.
Lemma slice_ok {A} (l : list A) a b : 0 <= a <= b -> b <= zlen l ->
  slice l a b = Ok (firstn (Z.to_nat (b - a)) (skipn (Z.to_nat a) l)).
Proof. intros. unfold slice. destruct ((a <? 0) || (b <? a) || (zlen l <? b)) eqn:E; [lia|reflexivity]. Qed.
Lemma from_app {A} (a b : list A) : from (a ++ b) (zlen a) = Ok b.
Proof.
  rewrite from_ok; [|rewrite zlen_app; pose proof (zlen_nonneg a); pose proof (zlen_nonneg b); lia].
  unfold zlen; rewrite Nat2Z.id, skipn_app, skipn_all, Nat.sub_diag; reflexivity.
Qed.
Lemma upto_app {A} (a b : list A) : upto (a ++ b) (zlen a) = Ok a.
Proof.
  rewrite upto_ok; [|rewrite zlen_app; pose proof (zlen_nonneg a); pose proof (zlen_nonneg b); lia].
  unfold zlen; rewrite Nat2Z.id, firstn_app, firstn_all, Nat.sub_diag; cbn [firstn].
  rewrite app_nil_r; reflexivity.
Qed.
Lemma slice_mid {A} (a b c : list A) : slice (a ++ b ++ c) (zlen a) (zlen a + zlen b) = Ok b.
Proof.
  pose proof (zlen_nonneg a); pose proof (zlen_nonneg b); pose proof (zlen_nonneg c).
  rewrite slice_ok; [|lia|rewrite !zlen_app; lia].
  f_equal. replace (Z.to_nat (zlen a + zlen b - zlen a)) with (length b) by (unfold zlen; lia).
  unfold zlen; rewrite Nat2Z.id, skipn_app, skipn_all, Nat.sub_diag; cbn [skipn app].
  rewrite firstn_app, firstn_all, Nat.sub_diag; cbn [firstn]. apply app_nil_r.
Qed.

(** bit operations as arithmetic *)
Lemma land_mask x n : 0 <= n -> Z.land x (2 ^ n - 1) = x mod 2 ^ n.
Proof. intro. rewrite <- Z.land_ones by lia. rewrite Z.ones_equiv. f_equal; lia. Qed.
Lemma land_disj a b n : 0 <= n -> 0 <= b < 2 ^ n -> a mod 2 ^ n = 0 -> Z.land a b = 0.
Proof.
  intros Hn Hb Ha.
  apply Z.bits_inj_iff'. intros i Hi. rewrite Z.land_spec, Z.bits_0.
  destruct (Z.lt_ge_cases i n) as [L|G].
  - replace (Z.testbit a i) with false; [reflexivity|].
    replace a with (a / 2 ^ n * 2 ^ n).
    + rewrite Z.mul_pow2_bits_low; auto.
    + pose proof (Z.div_mod a (2 ^ n)). lia.
  - replace (Z.testbit b i) with false; [apply andb_false_r|].
    symmetry. destruct (Z.eq_dec b 0) as [->|]; [apply Z.bits_0|].
    apply Z.bits_above_log2; [lia|]. apply Z.log2_lt_pow2; [lia|].
    apply Z.lt_le_trans with (2 ^ n); [lia|]. apply Z.pow_le_mono_r; lia.
Qed.
Lemma lor_add a b n : 0 <= n -> 0 <= b < 2 ^ n -> a mod 2 ^ n = 0 -> Z.lor a b = a + b.
Proof.
  intros Hn Hb Ha. rewrite Z.add_nocarry_lxor by (eapply land_disj; eauto).
  rewrite <- Z.lxor_lor by (eapply land_disj; eauto). reflexivity.
Qed.

Lemma zseq_in n : forall a p, In p (zseq a n) <-> a <= p < a + Z.of_nat n.
Proof.
  induction n as [|n IH]; intros a p; cbn [zseq In]; [lia|].
  rewrite IH. lia.
Qed.
Lemma zseq_app n : forall m a, zseq a (n + m) = zseq a n ++ zseq (a + Z.of_nat n) m.
Proof.
  induction n as [|n IH]; intros m a; cbn [zseq Nat.add app].
  - f_equal; lia.
  - rewrite IH. f_equal. f_equal. f_equal; lia.
Qed.
Lemma zseq_length n : forall a, length (zseq a n) = n.
Proof. induction n as [|n IH]; intros a; cbn; [reflexivity|]. rewrite IH; reflexivity. Qed.
Lemma zseq_NoDup n : forall a, NoDup (zseq a n).
Proof.
  induction n as [|n IH]; intros a; cbn [zseq]; constructor; auto.
  rewrite zseq_in. lia.
Qed.
Lemma filter_all_false {A} (f : A -> bool) l : (forall x, In x l -> f x = false) -> filter f l = [].
Proof.
  induction l as [|x l IH]; intros H; cbn [filter]; [reflexivity|].
  rewrite (H x) by (left; reflexivity). apply IH. intros; apply H; right; assumption.
Qed.
Lemma filter_all_true {A} (f : A -> bool) l : (forall x, In x l -> f x = true) -> filter f l = l.
Proof.
  induction l as [|x l IH]; intros H; cbn [filter]; [reflexivity|].
  rewrite (H x) by (left; reflexivity). f_equal. apply IH. intros; apply H; right; assumption.
Qed.

Lemma lset_length {A} (l : list A) : forall i x, length (lset l i x) = length l.
Proof. induction l as [|y l IH]; intros [|i] x; cbn; auto. Qed.
Lemma lset_nth_eq {A} (l : list A) : forall i x, (i < length l)%nat -> nth_error (lset l i x) i = Some x.
Proof. induction l as [|y l IH]; intros [|i] x H; cbn in *; try lia; [reflexivity|apply IH; lia]. Qed.
Lemma lset_nth_ne {A} (l : list A) : forall i j x, i <> j -> nth_error (lset l i x) j = nth_error l j.
Proof.
  induction l as [|y l IH]; intros [|i] [|j] x H; cbn; auto; try congruence.
Qed.

(** Reduce [idx] of an explicit list at a literal position, and [zlen] of an explicit list. *)
Ltac ridx := repeat match goal with
  | |- context [@idx ?A (?a :: ?l) ?k] =>
      let r := eval cbv [idx Z.ltb Z.compare Z.to_nat Pos.to_nat Pos.iter_op nth_error Nat.add
                         Pos.compare Pos.compare_cont] in (@idx A (a :: l) k) in
      match r with Ok _ => change (@idx A (a :: l) k) with r; cbn [bind] end
  end.

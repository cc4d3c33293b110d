From Verif Require Import Base BaseFacts Brute BufRxSpec Vp8Model Vp8Spec Vp8Proofs Av1Model Av1Spec Av1Proofs Av1Proofs2.

(** * Sizes *)
Lemma leb_size_mono_ : forall n a b, 0 <= a <= b -> leb_size_ n a <= leb_size_ n b.
Proof.
  induction n as [|n IH]; intros a b H; [reflexivity|]. cbn [leb_size_]. rewrite !Z.shiftr_div_pow2 by lia. change (2 ^ 7) with 128.
  assert (a / 128 <= b / 128) by (apply Z.div_le_mono; lia). assert (0 <= a / 128) by (apply Z.div_pos; lia). specialize (IH (a / 128) (b / 128) ltac:(lia)).
  assert (forall n v, 0 <= leb_size_ n v) as P. { clear. induction n as [|n IH]; intro v; cbn [leb_size_]; [lia|]. destruct (v <? 128); [lia|]. specialize (IH (Z.shiftr v 7)). lia. }
  pose proof (P n (b / 128)). destruct (a <? 128) eqn:Qa, (b <? 128) eqn:Qb; lia.
Qed.
Lemma leb_size_mono a b : 0 <= a <= b -> leb_size a <= leb_size b.
Proof. apply leb_size_mono_. Qed.
Lemma leb_size_le_ : forall (n m : nat) v, (1 <= m)%nat -> 0 <= v < 2 ^ (7 * Z.of_nat m) -> leb_size_ n v <= Z.of_nat m.
Proof.
  induction n as [|n IH]; intros m v M V; [cbn [leb_size_]; lia|]. cbn [leb_size_]. destruct (v <? 128) eqn:Q; [lia|].
  destruct m as [|[|m]]; [lia|cbn in V; lia|]. rewrite Z.shiftr_div_pow2 by lia. specialize (IH (S m) (v / 2 ^ 7) ltac:(lia)).
  assert (2 ^ (7 * Z.of_nat (S (S m))) = 2 ^ 7 * 2 ^ (7 * Z.of_nat (S m))) as PW by (rewrite <- Z.pow_add_r by lia; f_equal; lia).
  assert (v / 2 ^ 7 < 2 ^ (7 * Z.of_nat (S m))) by (apply Z.div_lt_upper_bound; lia). assert (0 <= v / 2 ^ 7) by (apply Z.div_pos; lia). specialize (IH ltac:(lia)). lia.
Qed.
Lemma leb_size_le v k : 1 <= k -> 0 <= v < 2 ^ (7 * k) -> leb_size v <= k.
Proof. intros K V. unfold leb_size. pose proof (leb_size_le_ 10 (Z.to_nat k) v ltac:(lia)) as H. rewrite Z2Nat.id in H by lia. auto. Qed.
Lemma max_frag__spec : forall fuel size idx, 1 <= idx -> 2 ^ (7 * (idx - 1)) < size -> size <= 2 ^ (7 * (idx + Z.of_nat fuel - 1)) -> 2 <= size ->
  exists f, max_frag_ fuel size idx = Ok f /\ 1 <= f /\ f + leb_size f <= size.
Proof.
  induction fuel as [|fuel IH]; intros size idx I L H S2.
  - replace (idx + Z.of_nat 0 - 1) with (idx - 1) in H by lia. lia.
  - cbn [max_frag_]. destruct (size <? 2 ^ (7 * idx) + 1) eqn:Q.
    + exists (size - idx). assert (1 <= size - idx) as F.
      { destruct (Z.eq_dec idx 1) as [-> | N]; [lia|]. assert (idx <= 2 ^ (7 * (idx - 1))); [|lia].
        assert (7 * (idx - 1) < 2 ^ (7 * (idx - 1))) by (apply Z.pow_gt_lin_r; lia). lia. }
      unfold sub. destruct (size <? idx) eqn:Q2; [lia|]. split; [reflexivity|]. split; [exact F|]. assert (leb_size (size - idx) <= idx) by (apply leb_size_le; lia). lia.
    + apply (IH size (idx + 1)); [lia|replace (idx + 1 - 1) with idx by lia; lia|replace (idx + 1 + Z.of_nat fuel - 1) with (idx + Z.of_nat (S fuel) - 1) by lia; lia|lia].
Qed.
Lemma max_frag_spec size : 2 <= size <= 2 ^ 63 -> exists f, max_frag size = Ok f /\ 1 <= f /\ f + leb_size f <= size.
Proof.
  intro H. unfold max_frag. destruct (size <=? 1) eqn:Q; [lia|]. apply max_frag__spec; [lia|cbn; lia| |lia]. change (7 * (1 + Z.of_nat 9 - 1)) with 63. lia.
Qed.

(** * A unit in bytes, without its size *)
Definition eo (o : obu) : list Z := Z.land (o_header o) 253 :: (if has_ext o then [o_ext o] else []) ++ o_payload o.
Lemma eo_len o : zlen (eo o) = o_size o.
Proof. unfold eo, o_size. rewrite zlen_cons, zlen_app. destruct (has_ext o); unfold zlen; cbn [length]; lia. Qed.
Lemma o_size_pos o : 1 <= o_size o.
Proof. unfold o_size. pose proof (zlen_nonneg (o_payload o)). destruct (has_ext o); lia. Qed.
(** a piece cut out of a unit, as the writer does it *)
Lemma eo_skip o off : 0 <= off <= o_size o ->
  (if off =? 0 then [Z.land (o_header o) 253] else []) ++ (if (off <=? 1) && has_ext o then [o_ext o] else []) ++
    skipn (Z.to_nat (Z.max 0 (off - (if has_ext o then 2 else 1)))) (o_payload o) = skipn (Z.to_nat off) (eo o).
Proof.
  intro H. unfold eo. destruct (off =? 0) eqn:Q0.
  - assert (off = 0) by lia. subst off. cbn [Z.to_nat skipn app Z.leb Z.compare andb]. f_equal. destruct (has_ext o); cbn [app]; reflexivity.
  - destruct (Z.eq_dec off 1) as [-> | N1].
    + cbn [Z.leb Z.compare andb app]. destruct (has_ext o); cbn [app]; reflexivity.
    + destruct (off <=? 1) eqn:Q1; [lia|]. cbn [andb app]. replace (Z.to_nat off) with (S (Z.to_nat (off - 1))) by lia. cbn [skipn]. destruct (has_ext o).
      * replace (Z.to_nat (off - 1)) with (S (Z.to_nat (off - 2))) by lia. cbn [app skipn]. f_equal. lia.
      * cbn [app]. f_equal. lia.
Qed.
Lemma eo_take o off fs : 0 <= off -> 0 < fs -> off + fs <= o_size o ->
  let head := (off =? 0) && (0 <? fs) in
  let fs1 := if head then fs - 1 else fs in
  let ex := (off <=? 1) && has_ext o && (0 <? fs1) in
  let fs2 := if ex then fs1 - 1 else fs1 in
  let po := Z.max 0 (off - (if has_ext o then 2 else 1)) in
  (zlen (o_payload o) <? po + fs2) = false /\
  (if head then [Z.land (o_header o) 253] else []) ++ (if ex then [o_ext o] else []) ++ firstn (Z.to_nat fs2) (skipn (Z.to_nat po) (o_payload o)) = firstn (Z.to_nat fs) (skipn (Z.to_nat off) (eo o)).
Proof.
  intros O F H. cbv zeta. replace (0 <? fs) with true by lia. rewrite andb_true_r. unfold o_size in H. pose proof (zlen_nonneg (o_payload o)).
  unfold eo. revert H. generalize (has_ext o). intros x H. destruct (off =? 0) eqn:Q0.
  - assert (off = 0) by lia. subst off. cbn [Z.leb Z.compare andb Z.to_nat skipn]. replace (Z.to_nat fs) with (S (Z.to_nat (fs - 1))) by lia. cbn [firstn app].
    destruct x; cbn [andb app].
    + destruct (0 <? fs - 1) eqn:Q1; cbn [app]; (split; [lia|]); f_equal.
      * replace (Z.to_nat (fs - 1)) with (S (Z.to_nat (fs - 1 - 1))) by lia. cbn [firstn]. reflexivity.
      * replace (Z.to_nat (fs - 1)) with 0%nat by lia. reflexivity.
    + split; [lia|]. reflexivity.
  - destruct (Z.eq_dec off 1) as [-> | N1].
    + change (1 <=? 1) with true. cbn [andb app]. replace (0 <? fs) with true by lia. change (Z.to_nat 1) with 1%nat. cbn [skipn]. destruct x; cbn [andb app].
      * split; [lia|]. replace (Z.to_nat fs) with (S (Z.to_nat (fs - 1))) by lia. cbn [firstn]. reflexivity.
      * split; [lia|]. reflexivity.
    + destruct (off <=? 1) eqn:Q1; [lia|]. cbn [andb app]. replace (Z.to_nat off) with (S (Z.to_nat (off - 1))) by lia. cbn [skipn]. destruct x.
      * replace (Z.to_nat (off - 1)) with (S (Z.to_nat (off - 2))) by lia. cbn [app skipn]. split; [lia|]. f_equal. f_equal. lia.
      * cbn [app]. split; [lia|]. f_equal. f_equal. lia.
Qed.

(** * Packets as lists of elements *)
Definition d0 : obu := mkO 0 0 [].
Definition at_ (obus : list obu) (i : Z) : obu := nth (Z.to_nat i) obus d0.
Fixpoint fulls (obus : list obu) (n : nat) (i off : Z) : list (list Z) :=
  match n with O => [] | S n => skipn (Z.to_nat off) (eo (at_ obus i)) :: fulls obus n (i + 1) 0 end.
Definition offl (p : pkt) : Z := if num p =? 1 then first_off p else 0.
Definition last_elem (obus : list obu) (p : pkt) : list Z := firstn (Z.to_nat (last_size p)) (skipn (Z.to_nat (offl p)) (eo (at_ obus (first_obu p + num p - 1)))).
Definition elems (obus : list obu) (p : pkt) : list (list Z) := fulls obus (Z.to_nat (num p - 1)) (first_obu p) (first_off p) ++ [last_elem obus p].
Fixpoint fullw (es : list (list Z)) : Z := match es with [] => 0 | e :: es => leb_size (zlen e) + zlen e + fullw es end.
Definition pref (es : list (list Z)) : list Z := concat (map (fun e => leb128 (zlen e) ++ e) es).
Lemma pref_len es : zlen (pref es) = fullw es.
Proof. induction es as [|e es IH]; [reflexivity|]. unfold pref in *. cbn [map concat fullw]. rewrite !zlen_app, IH, leb_zlen. lia. Qed.
Lemma fullw_app a b : fullw (a ++ b) = fullw a + fullw b.
Proof. induction a as [|e a IH]; [reflexivity|]. cbn [app fullw]. rewrite IH. lia. Qed.
Lemma fullw_nonneg es : 0 <= fullw es.
Proof. induction es as [|e es IH]; [reflexivity|]. cbn [fullw]. pose proof (leb_size_pos (zlen e)). pose proof (zlen_nonneg e). lia. Qed.
Lemma enc_elems_pref all es e : enc_elems all (es ++ [e]) = pref es ++ (if all then leb128 (zlen e) else []) ++ e.
Proof.
  induction es as [|x es IH]; [reflexivity|]. cbn [app]. rewrite enc_elems_cons by (destruct es; discriminate). rewrite IH. unfold pref. cbn [map concat]. rewrite <- !app_assoc. reflexivity.
Qed.
Lemma fulls_len obus : forall n i off, length (fulls obus n i off) = n.
Proof. induction n as [|n IH]; intros; [reflexivity|]. cbn [fulls length]. rewrite IH. reflexivity. Qed.
Lemma fulls_snoc obus : forall n i off, fulls obus (S n) i off = fulls obus n i off ++ [skipn (Z.to_nat (if (Z.of_nat n =? 0) then off else 0)) (eo (at_ obus (i + Z.of_nat n)))].
Proof.
  induction n as [|n IH]; intros i off; [cbn; rewrite Z.add_0_r; reflexivity|]. change (fulls obus (S (S n)) i off) with (skipn (Z.to_nat off) (eo (at_ obus i)) :: fulls obus (S n) (i + 1) 0).
  rewrite IH. cbn [fulls app]. f_equal. f_equal. f_equal. destruct (Z.of_nat (S n) =? 0) eqn:Q; [lia|]. replace (i + 1 + Z.of_nat n) with (i + Z.of_nat (S n)) by lia. destruct (Z.of_nat n =? 0); reflexivity.
Qed.

(** What the packets in the plan satisfy. *)
Definition planned (obus : list obu) (max : Z) (p : pkt) : Prop :=
  1 <= num p /\ 0 <= first_obu p /\ first_obu p + num p <= zlen obus /\ 0 <= first_off p < o_size (at_ obus (first_obu p)) /\
  0 < last_size p /\ offl p + last_size p <= o_size (at_ obus (first_obu p + num p - 1)) /\
  psize p = fullw (fulls obus (Z.to_nat (num p - 1)) (first_obu p) (first_off p)) + (if 3 <? num p then leb_size (last_size p) else 0) + last_size p /\ psize p <= max.
Definition kp (obus : list obu) (n : bool) (p : pkt) : apkt :=
  mkK (0 <? first_off p) (offl p + last_size p <? o_size (at_ obus (first_obu p + num p - 1))) n (if num p <=? 3 then num p else 0) (elems obus p).
Lemma at_nth obus i : 0 <= i < zlen obus -> nth_error obus (Z.to_nat i) = Some (at_ obus i).
Proof. intro H. unfold at_. apply nth_error_nth'. unfold zlen in H. lia. Qed.
Lemma write_init_spec obus : forall n i off, 0 <= i -> i + Z.of_nat n <= zlen obus -> 0 <= off -> (n = O \/ off <= o_size (at_ obus i)) ->
  write_init obus n i off = Ok (pref (fulls obus n i off)).
Proof.
  induction n as [|n IH]; intros i off I N O S; [reflexivity|]. destruct S as [S|S]; [discriminate|]. cbn [write_init]. rewrite at_nth by lia. set (o := at_ obus i) in *.
  unfold sub. destruct (o_size o <? off) eqn:Q; [lia|]. cbn [bind]. set (po := Z.max 0 (off - (if has_ext o then 2 else 1))).
  destruct (zlen (o_payload o) <? po) eqn:Q2. { unfold po, o_size in *. pose proof (zlen_nonneg (o_payload o)). destruct (has_ext o); lia. }
  cbn [bind]. pose proof (o_size_pos (at_ obus (i + 1))). rewrite IH by (auto; lia). cbn [bind]. f_equal. cbn [fulls]. fold o. unfold pref. cbn [map concat]. rewrite leb_eq.
  pose proof (eo_skip o off ltac:(lia)) as ES. fold po in ES. rewrite <- ES.
  assert (zlen (skipn (Z.to_nat off) (eo o)) = o_size o - off) as LE by (rewrite <- eo_len; unfold zlen; rewrite skipn_length; unfold zlen in *; pose proof (eo_len o); unfold zlen in *; lia).
  rewrite <- ES in LE. rewrite LE. rewrite <- !app_assoc. reflexivity.
Qed.
Lemma last_elem_len obus max p : planned obus max p -> zlen (last_elem obus p) = last_size p.
Proof.
  intros (N & F & B & O & L & OL & _). unfold last_elem. unfold zlen. rewrite firstn_length, skipn_length. pose proof (eo_len (at_ obus (first_obu p + num p - 1))) as EL. unfold zlen in EL.
  assert (0 <= offl p) by (unfold offl; destruct (num p =? 1); lia). lia.
Qed.
Lemma write_packet_spec obus max p isf : obus <> [] -> planned obus max p ->
  write_packet obus p isf = Ok (enc_pkt (kp obus ((obu_type (o_header (at_ obus 0)) =? 1) && isf) p)).
Proof.
  intros NE P. pose proof (last_elem_len obus max p P) as LL. destruct P as (N & F & B & O & L & OL & PS & PM). unfold write_packet. destruct (num p =? 0) eqn:Q0; [lia|].
  set (nb := (obu_type (o_header (at_ obus 0)) =? 1) && isf).
  assert (agg_header p obus isf = Ok (ahead (0 <? first_off p) (offl p + last_size p <? o_size (at_ obus (first_obu p + num p - 1))) nb (if num p <=? 3 then num p else 0))) as ->.
  { unfold agg_header. rewrite at_nth by lia. destruct obus as [|o0 obus]; [congruence|]. change (at_ (o0 :: obus) 0) with o0 in nb. fold (offl p). fold nb. f_equal.
    destruct (0 <? first_off p), (offl p + last_size p <? _), nb; destruct (num p <=? 3) eqn:Q3; try reflexivity;
      (assert (num p = 1 \/ num p = 2 \/ num p = 3) as [-> | [-> | ->]] by lia; reflexivity). }
  cbn [bind]. rewrite write_init_spec by (try lia; right; lia). cbn [bind]. fold (offl p).
  unfold write_last. rewrite at_nth by lia. set (o := at_ obus (first_obu p + num p - 1)) in *.
  assert (0 <= offl p) as OP by (unfold offl; destruct (num p =? 1); lia).
  destruct (eo_take o (offl p) (last_size p) OP L OL) as (T1 & T2). cbv zeta in T1, T2. rewrite T1, T2. cbn [bind].
  fold o. assert (firstn (Z.to_nat (last_size p)) (skipn (Z.to_nat (offl p)) (eo o)) = last_elem obus p) as -> by reflexivity.
  set (body := pref (fulls obus (Z.to_nat (num p - 1)) (first_obu p) (first_off p)) ++ (if 3 <? num p then leb (last_size p) else []) ++ last_elem obus p).
  assert (zlen body = psize p) as BL.
  { unfold body. rewrite !zlen_app, pref_len, LL, PS. rewrite leb_eq. destruct (3 <? num p); [rewrite leb_zlen; lia|change (zlen []) with 0; lia]. }
  destruct (psize p <? zlen body) eqn:Q; [lia|]. replace (psize p - zlen body) with 0 by lia. cbn [Z.to_nat repeat]. rewrite app_nil_r. f_equal. unfold enc_pkt, kp. cbn [k_z k_y k_n k_w k_elems].
  fold o. unfold ahead. f_equal. unfold elems. rewrite enc_elems_pref. unfold body. f_equal. rewrite LL, leb_eq.
  destruct (3 <? num p) eqn:Q3; destruct (num p <=? 3) eqn:Q4; try lia; [reflexivity|]. replace (num p =? 0) with false by lia. reflexivity.
Qed.

(** Parsing: no panic, the shape of accepted messages, what MESSAGE-INTEGRITY covers. *)
From Verif Require Import Base BaseFacts Brute StunModel StunSpec StunProofs.

Lemma num_np b i n : 0 <= i -> 0 <= n -> i + n <= zlen b -> exists v, num b i n = Ok v.
Proof. intros. unfold num. rewrite slice_ok by lia. cbn [bind]. eauto. Qed.
Lemma decode_str_np max b len : 0 <= len <= zlen b -> decode_str max b len <> Panic.
Proof. intro. unfold decode_str. destruct (max <? len); [discriminate|]. rewrite upto_ok by lia. cbn [bind]. destruct (utf8 _); discriminate. Qed.
Lemma decode_xor_np b tid : decode_xor b tid <> Panic.
Proof.
  unfold decode_xor. destruct (zlen b <? 4) eqn:L; [discriminate|].
  destruct (idx_ok b 2 ltac:(lia)) as (x & -> & _). destruct (idx_ok b 3 ltac:(lia)) as (y & -> & _). cbn [bind].
  rewrite from_ok by lia. destruct (idx_ok b 1 ltac:(lia)) as (z & -> & _). cbn [bind]. destruct (_ && _); [discriminate|]. destruct (_ && _); discriminate.
Qed.
Lemma one_attr_np typ len b tid off a mio ign : 0 <= len -> len <= zlen b - 4 -> one_attr typ len b tid off a mio ign <> Panic.
Proof.
  intros L0 L1. unfold one_attr.
  assert (from b 4 = Ok (skipn 4 b)) as F4 by (apply from_ok; lia).
  assert (zlen (skipn 4 b) = zlen b - 4) as Z4 by (rewrite zlen_skipn; lia).
  assert (forall max, decode_str max (skipn 4 b) len <> Panic) as DS by (intro; apply decode_str_np; lia).
  assert (forall (f : list Z -> attrs) max, bind (decode_str max (skipn 4 b) len) (fun s => Ok (f s, mio, ign)) <> Panic) as KS.
  { intros f max. specialize (DS max). destruct (decode_str _ _ _); cbn [bind]; congruence. }
  assert (forall f : addr -> attrs, bind (decode_xor (skipn 4 b) tid) (fun s => Ok (f s, mio, ign)) <> Panic) as KX.
  { intros f. pose proof (decode_xor_np (skipn 4 b) tid). destruct (decode_xor _ _); cbn [bind]; congruence. }
  repeat match goal with
  | |- (if ?c then _ else _) <> Panic => destruct c eqn:?
  | |- context[from b 4] => rewrite F4; cbn [bind]
  | |- Err <> Panic => discriminate
  | |- Ok _ <> Panic => discriminate
  | |- bind (decode_str _ _ _) _ <> Panic => apply KS
  | |- bind (decode_xor _ _) _ <> Panic => apply KX
  | |- context[num b ?i ?n] => let v := fresh "v" in let E := fresh "E" in destruct (num_np b i n ltac:(lia) ltac:(lia) ltac:(lia)) as [v E]; rewrite E; cbn [bind]
  | |- context[idx b ?i] => let v := fresh "v" in let E := fresh "E" in destruct (idx_ok b i ltac:(lia)) as (v & E & _); rewrite E; cbn [bind]
  | |- context[slice b ?i ?j] => rewrite (slice_ok b i j) by lia; cbn [bind]
  end.
  rewrite from_ok by lia. cbn [bind].
  pose proof (decode_str_np 763 (skipn (Z.to_nat 8) b) (len - 4)) as D. rewrite zlen_skipn in D. specialize (D ltac:(lia)).
  destruct (decode_str _ _ _); cbn [bind]; congruence.
Qed.
Lemma attrs_parse_np tid fuel : forall b off a mio ign, bytes_ok b -> (length b < fuel)%nat -> zlen b mod 4 = 0 -> attrs_parse fuel b tid off a mio ign <> Panic.
Proof.
  induction fuel as [|f IH]; intros b off a mio ign BO F M; [lia|]. cbn [attrs_parse].
  destruct (zlen b =? 0) eqn:Z0; [discriminate|]. pose proof (zlen_nonneg b). assert (4 <= zlen b) as L4 by dlia.
  destruct (idx_ok b 1 ltac:(lia)) as (b1 & -> & I1). destruct (idx_ok b 0 ltac:(lia)) as (b0 & -> & I0).
  destruct (idx_ok b 3 ltac:(lia)) as (b3 & -> & I3). destruct (idx_ok b 2 ltac:(lia)) as (b2 & -> & I2). cbn [bind].
  replace (zlen b <? 4) with false by lia.
  unfold bytes_ok in BO. rewrite Forall_forall in BO. pose proof (rd16_range b2 b3 (BO _ I2) (BO _ I3)) as R.
  destruct (zlen b - 4 <? rd16 b2 b3) eqn:LL; [discriminate|].
  assert ((if negb ign || (rd16 b0 b1 =? 32808) then one_attr (rd16 b0 b1) (rd16 b2 b3) b tid off a mio ign else Ok (a, mio, ign)) <> Panic) as NP.
  { destruct (_ || _); [|discriminate]. apply one_attr_np; lia. }
  destruct (if negb ign || _ then _ else _) as [[[a' m'] i']| |]; cbn [bind]; try congruence.
  assert (0 <= calculate_pad (rd16 b2 b3) < 4) by (unfold calculate_pad; dlia).
  assert ((rd16 b2 b3 + calculate_pad (rd16 b2 b3)) mod 4 = 0) as M4 by (unfold calculate_pad; dlia).
  assert (4 + (rd16 b2 b3 + calculate_pad (rd16 b2 b3)) <= zlen b) as FIT.
  { set (q := rd16 b2 b3 + calculate_pad (rd16 b2 b3)) in *. assert (q < zlen b - 4 + 4) by lia. dlia. }
  rewrite from_ok by lia. cbn [bind]. apply IH.
  - unfold bytes_ok. apply Forall_skipn, Forall_forall. exact BO.
  - rewrite skipn_length. unfold zlen in *. lia.
  - rewrite zlen_skipn. replace (Z.max 0 (zlen b - Z.of_nat (Z.to_nat (4 + (rd16 b2 b3 + calculate_pad (rd16 b2 b3)))))) with (zlen b - (4 + (rd16 b2 b3 + calculate_pad (rd16 b2 b3)))) by lia.
    dlia.
Qed.

(** MESSAGE-INTEGRITY's offset is one of the body *)
Lemma one_attr_mio typ len b tid off a mio ign a' mio' ign' : one_attr typ len b tid off a mio ign = Ok (a', mio', ign') ->
  (typ <> 8 -> mio' = mio /\ ign' = ign /\ message_integrity a' = message_integrity a) /\
  (typ = 8 -> len = 20 /\ mio' = off /\ ign' = true /\ slice b 4 24 = Ok (match message_integrity a' with Some v => v | None => [] end)
     /\ exists v, a' = set_integrity (Some v) a).
Proof.
  unfold one_attr. intro H.
  assert (forall T (r : res T) (k : T -> res (attrs * Z * bool)), bind r k = Ok (a', mio', ign') -> exists x, r = Ok x /\ k x = Ok (a', mio', ign')) as BI.
  { intros T r k E. destruct r; cbn in E; try discriminate. eauto. }
  split; intro TY.
  - replace (typ =? 8) with false in H by lia.
    repeat match type of H with
    | (if ?c then _ else _) = Ok _ => destruct c eqn:?
    | bind ?r ?k = Ok _ => apply (BI _ r k) in H; destruct H as (? & ? & H)
    end; try discriminate H; inversion H; subst; auto.
  - subst typ. change (8 =? 6) with false in H. change (8 =? 8) with true in H. cbv iota in H. destruct (len =? 20) eqn:L; cbn [negb] in H; [|discriminate].
    apply (BI _ _ _) in H. destruct H as (v & Hv & H). inversion H; subst. split; [lia|]. split; [reflexivity|]. split; [reflexivity|]. split; [exact Hv|]. eauto.
Qed.

(** After MESSAGE-INTEGRITY only FINGERPRINT is looked at. *)
Lemma one_attr_fp len b tid off a mio ign r : one_attr 32808 len b tid off a mio ign = Ok r -> exists v, r = (set_fingerprint (Some v) a, mio, ign).
Proof.
  unfold one_attr. change (32808 =? 32808) with true. repeat match goal with |- context[32808 =? ?x] => change (32808 =? x) with false end. cbv iota.
  destruct (len =? 4); cbn [negb]; [|discriminate]. intro H. destruct (num b 4 4); cbn [bind] in H; inversion H; subst. eauto.
Qed.

(** A step on a Body *)
Lemma idx_hd4 a b c d (l : list Z) : idx (a :: b :: c :: d :: l) 0 = Ok a /\ idx (a :: b :: c :: d :: l) 1 = Ok b /\ idx (a :: b :: c :: d :: l) 2 = Ok c /\ idx (a :: b :: c :: d :: l) 3 = Ok d.
Proof. spl; reflexivity. Qed.
Definition item_bytes ty (v pad b : list Z) := be16 ty ++ be16 (zlen v) ++ v ++ pad ++ b.
Lemma item_len ty v pad b : zlen (item_bytes ty v pad b) = 4 + zlen v + zlen pad + zlen b.
Proof. unfold item_bytes. rewrite !zlen_app, !zlen_be16. lia. Qed.
Lemma attrs_parse_step f ty v pad b tid off a mio ign : 0 <= ty < 65536 -> zlen v < 65536 -> zlen pad = padding (zlen v) ->
  attrs_parse (S f) (item_bytes ty v pad b) tid off a mio ign =
  bind (if negb ign || (ty =? 32808) then one_attr ty (zlen v) (item_bytes ty v pad b) tid off a mio ign else Ok (a, mio, ign))
       (fun '(a, mio, ign) => attrs_parse f b tid (off + zlen (tlv (ty, v))) a mio ign).
Proof.
  intros T V P. cbn [attrs_parse]. pose proof (zlen_nonneg v). pose proof (zlen_nonneg pad). pose proof (zlen_nonneg b).
  rewrite item_len. replace (4 + zlen v + zlen pad + zlen b =? 0) with false by lia.
  assert (item_bytes ty v pad b = (ty / 256 mod 256) :: (ty mod 256) :: (zlen v / 256 mod 256) :: (zlen v mod 256) :: v ++ pad ++ b) as E by reflexivity.
  destruct (idx_hd4 (ty / 256 mod 256) (ty mod 256) (zlen v / 256 mod 256) (zlen v mod 256) (v ++ pad ++ b)) as (I0 & I1 & I2 & I3).
  rewrite <- E in I0, I1, I2, I3. rewrite I0, I1, I2, I3. cbn [bind].
  rewrite !rd16_be16 by (unfold U16; lia). replace (4 + zlen v + zlen pad + zlen b <? 4) with false by lia.
  replace (4 + zlen v + zlen pad + zlen b - 4 <? zlen v) with false by lia.
  destruct (if negb ign || _ then _ else _) as [[[a' m'] i']| |]; cbn [bind]; [|reflexivity|reflexivity].
  rewrite pad_eq by lia. rewrite <- P.
  assert (from (item_bytes ty v pad b) (4 + (zlen v + zlen pad)) = Ok b) as ->.
  { assert (item_bytes ty v pad b = (be16 ty ++ be16 (zlen v) ++ v ++ pad) ++ b) as -> by (unfold item_bytes; rewrite <- !app_assoc; reflexivity).
    replace (4 + (zlen v + zlen pad)) with (zlen (be16 ty ++ be16 (zlen v) ++ v ++ pad)) by (rewrite !zlen_app, !zlen_be16; lia). apply from_app. }
  cbn [bind]. f_equal. rewrite tlv_len. cbn [snd]. lia.
Qed.
Lemma Body_len l b : Body l b -> zlen b = zlen (body l).
Proof.
  induction 1; [reflexivity|]. rewrite body_cons, !zlen_app, tlv_len. cbn [snd]. rewrite !zlen_be16. lia.
Qed.
Lemma Body_app_inv l1 : forall l2 b, Body (l1 ++ l2) b -> exists b1 b2, b = b1 ++ b2 /\ Body l1 b1 /\ Body l2 b2.
Proof.
  induction l1 as [|[ty v] l1 IH]; intros l2 b H.
  - exists [], b. split; [reflexivity|]. split; [constructor|exact H].
  - cbn [app] in H. inversion H as [|? ? pad ? b' T V B P H']; subst. destruct (IH _ _ H') as (b1 & b2 & -> & H1 & H2).
    exists (be16 ty ++ be16 (zlen v) ++ v ++ pad ++ b1), b2. split; [rewrite <- !app_assoc; reflexivity|]. split; [constructor; assumption|exact H2].
Qed.
Lemma cut3 (w : list Z) n k : w = firstn n w ++ firstn k (skipn n w) ++ skipn (n + k) w.
Proof.
  assert (skipn (n + k) w = skipn k (skipn n w)) as ->.
  { revert w. induction n as [|n IH]; intro w; [reflexivity|]. destruct w; cbn [skipn plus]; [destruct k; reflexivity|]. apply IH. }
  rewrite firstn_skipn, firstn_skipn. reflexivity.
Qed.
(** Everything that parses is a sequence of attributes. *)
Lemma attrs_parse_Body tid fuel : forall b off a mio ign r, bytes_ok b -> attrs_parse fuel b tid off a mio ign = Ok r -> exists l, Body l b.
Proof.
  induction fuel as [|f IH]; intros b off a mio ign r BO; [discriminate|]. cbn [attrs_parse].
  destruct (zlen b =? 0) eqn:Z0; intro H.
  - exists []. rewrite (zlen_0 b) by lia. constructor.
  - destruct b as [|b0 [|b1 [|b2 [|b3 w]]]]; try discriminate H.
    destruct (idx_hd4 b0 b1 b2 b3 w) as (I0 & I1 & I2 & I3). rewrite I0, I1, I2, I3 in H. cbn [bind] in H.
    assert (zlen (b0 :: b1 :: b2 :: b3 :: w) = 4 + zlen w) as LW by (rewrite !zlen_cons; lia). rewrite LW in H. pose proof (zlen_nonneg w).
    replace (4 + zlen w <? 4) with false in H by lia.
    destruct (4 + zlen w - 4 <? rd16 b2 b3) eqn:LL; [discriminate|].
    assert (byte_ok b0 /\ byte_ok b1 /\ byte_ok b2 /\ byte_ok b3 /\ bytes_ok w) as (B0 & B1 & B2 & B3 & BW).
    { repeat (apply bytes_ok_cons in BO; destruct BO as [? BO]). auto. }
    pose proof (rd16_range b2 b3 B2 B3) as R. pose proof (rd16_range b0 b1 B0 B1) as RT. unfold U16 in *. red in B0, B1, B2, B3.
    destruct (if negb ign || _ then _ else _) as [[[a' m'] i']| |]; cbn [bind] in H; try discriminate.
    destruct (from _ _) as [rest| |] eqn:F; cbn [bind] in H; try discriminate.
    unfold from in F. rewrite LW in F. rewrite pad_eq in F by lia. pose proof (padding_range (rd16 b2 b3)) as PR.
    destruct (_ || _) eqn:C; [discriminate|]. assert (skipn (Z.to_nat (4 + (rd16 b2 b3 + padding (rd16 b2 b3)))) (b0 :: b1 :: b2 :: b3 :: w) = rest) as F' by congruence. clear F.
    assert (rest = skipn (Z.to_nat (rd16 b2 b3 + padding (rd16 b2 b3))) w) as ->.
    { rewrite <- F'. replace (Z.to_nat (4 + (rd16 b2 b3 + padding (rd16 b2 b3)))) with (S (S (S (S (Z.to_nat (rd16 b2 b3 + padding (rd16 b2 b3))))))) by lia. reflexivity. }
    apply IH in H as [l HB]; [|apply Forall_skipn; exact BW].
    set (v := firstn (Z.to_nat (rd16 b2 b3)) w). set (pad := firstn (Z.to_nat (padding (rd16 b2 b3))) (skipn (Z.to_nat (rd16 b2 b3)) w)).
    assert (zlen v = rd16 b2 b3) as LV by (unfold v; rewrite zlen_firstn; lia).
    assert (zlen pad = padding (rd16 b2 b3)) as LP by (unfold pad; rewrite zlen_firstn, zlen_skipn; lia).
    exists ((rd16 b0 b1, v) :: l).
    assert (b0 :: b1 :: b2 :: b3 :: w = be16 (rd16 b0 b1) ++ be16 (zlen v) ++ v ++ pad ++ skipn (Z.to_nat (rd16 b2 b3 + padding (rd16 b2 b3))) w) as ->.
    { rewrite LV. unfold be16, rd16 in *. cbn [app].
      replace ((b0 * 256 + b1) / 256 mod 256) with b0 by dlia. replace ((b0 * 256 + b1) mod 256) with b1 by dlia.
      replace ((b2 * 256 + b3) / 256 mod 256) with b2 by dlia. replace ((b2 * 256 + b3) mod 256) with b3 by dlia.
      unfold v, pad, rd16. rewrite (Z2Nat.inj_add (b2 * 256 + b3) (padding (b2 * 256 + b3))) by lia. pose proof (cut3 w (Z.to_nat (b2 * 256 + b3)) (Z.to_nat (padding (b2 * 256 + b3)))) as CT. rewrite <- CT. reflexivity. }
    constructor; [unfold U16 in *; lia|lia|apply Forall_firstn; exact BW|rewrite LV; exact LP|exact HB].
Qed.
(** Parsing with everything after MESSAGE-INTEGRITY ignored *)
Lemma attrs_parse_ign tid fuel : forall l b off a mio r, Body l b -> attrs_parse fuel b tid off a mio true = Ok r ->
  r = (a, mio) \/ exists v, r = (set_fingerprint (Some v) a, mio).
Proof.
  induction fuel as [|f IH]; intros l b off a mio r HB H; [discriminate|]. destruct HB as [|ty v pad l b T V BV P HB].
  - cbn in H. inversion H; auto.
  - change (be16 ty ++ be16 (zlen v) ++ v ++ pad ++ b) with (item_bytes ty v pad b) in H. rewrite attrs_parse_step in H by assumption.
    cbn [negb orb] in H. destruct (ty =? 32808) eqn:E.
    + replace ty with 32808 in H by lia. destruct (one_attr _ _ _ _ _ _ _ _) as [r'| |] eqn:O; cbn [bind] in H; try discriminate.
      apply one_attr_fp in O as [x ->]. apply IH with (l := l) in H; [|exact HB]. destruct H as [->|[y ->]]; right; eexists; reflexivity.
    + cbn [bind] in H. eapply IH; eassumption.
Qed.
(** ... and before it *)
Lemma attrs_parse_none tid fuel : forall l b off a mio r, Body l b -> ~ In 8 (map fst l) -> attrs_parse fuel b tid off a mio false = Ok r ->
  exists a', r = (a', mio) /\ message_integrity a' = message_integrity a.
Proof.
  induction fuel as [|f IH]; intros l b off a mio r HB NI H; [discriminate|]. destruct HB as [|ty v pad l b T V BV P HB].
  - cbn in H. inversion H; eauto.
  - change (be16 ty ++ be16 (zlen v) ++ v ++ pad ++ b) with (item_bytes ty v pad b) in H. rewrite attrs_parse_step in H by assumption.
    cbn [negb orb] in H. cbn [map fst In] in NI. destruct (one_attr _ _ _ _ _ _ _ _) as [[[a1 m1] i1]| |] eqn:O; cbn [bind] in H; try discriminate.
    apply one_attr_mio in O as [O _]. destruct (O ltac:(intro; apply NI; auto)) as (-> & -> & M).
    apply IH with (l := l) in H; [|exact HB|tauto]. destruct H as (a' & -> & M'). exists a'. rewrite M', M. auto.
Qed.
Lemma attrs_parse_mi tid fuel : forall l1 mac l2 b off a mio r, Body (l1 ++ (8, mac) :: l2) b -> ~ In 8 (map fst l1) ->
  attrs_parse fuel b tid off a mio false = Ok r ->
  exists a', r = (a', off + zlen (body l1)) /\ message_integrity a' = Some mac /\ zlen mac = 20.
Proof.
  induction fuel as [|f IH]; intros l1 mac l2 b off a mio r HB NI H; [discriminate|]. destruct l1 as [|[ty v] l1]; cbn [app] in HB.
  - inversion HB as [|ty' v' pad l b' T V BV P HB']; subst. change (be16 8 ++ be16 (zlen mac) ++ mac ++ pad ++ b') with (item_bytes 8 mac pad b') in H.
    rewrite attrs_parse_step in H by assumption. cbn [negb orb] in H.
    destruct (one_attr _ _ _ _ _ _ _ _) as [[[a1 m1] i1]| |] eqn:O; cbn [bind] in H; try discriminate.
    apply one_attr_mio in O as [_ O]. destruct (O eq_refl) as (L & -> & -> & S & w & ->). cbn [message_integrity set_integrity] in S.
    assert (slice (item_bytes 8 mac pad b') 4 24 = Ok mac) as S2.
    { pose proof (slice_mid (be16 8 ++ be16 (zlen mac)) mac (pad ++ b')) as Q. rewrite L in Q. unfold item_bytes. rewrite L. rewrite <- app_assoc in Q. exact Q. }
    rewrite S2 in S. inversion S; subst w. apply attrs_parse_ign with (l := l2) in H; [|exact HB'].
    destruct H as [->|[x ->]]; eexists; (split; [unfold body; cbn [map concat]; rewrite zlen_nil, Z.add_0_r; reflexivity|split; [reflexivity|exact L]]).
  - inversion HB as [|ty' v' pad l b' T V BV P HB']; subst. change (be16 ty ++ be16 (zlen v) ++ v ++ pad ++ b') with (item_bytes ty v pad b') in H.
    rewrite attrs_parse_step in H by assumption. cbn [negb orb] in H. cbn [map fst In] in NI.
    destruct (one_attr _ _ _ _ _ _ _ _) as [[[a1 m1] i1]| |] eqn:O; cbn [bind] in H; try discriminate.
    apply one_attr_mio in O as [O _]. destruct (O ltac:(intro; apply NI; auto)) as (-> & -> & M).
    apply (IH l1 mac l2) in H; [|exact HB'|tauto]. destruct H as (a' & -> & M' & L). exists a'. rewrite body_cons, zlen_app. split; [f_equal; lia|auto].
Qed.

(** * Whole messages *)
Lemma parse_inv b m : bytes_ok b -> parse b = Ok m -> exists a mio,
  b = firstn 20 b ++ skipn 20 b /\ zlen (firstn 20 b) = 20 /\ zlen b <= 65535 + 20 /\ zlen (skipn 20 b) mod 4 = 0 /\
  attrs_parse (S (length (skipn 20 b))) (skipn 20 b) (trans_id m) 0 attrs0 0 false = Ok (a, mio) /\
  m_attrs m = a /\
  (0 < mio -> upto b (mio + 20) = Ok (integrity m) /\ integrity_len m = (mio + 24) mod 65536) /\
  (mio <= 0 -> integrity m = [] /\ integrity_len m = 0).
Proof.
  intros BO H. unfold parse in H. destruct (zlen b <? 4) eqn:L4; [discriminate|].
  destruct (idx_ok b 0 ltac:(lia)) as (b0 & I0 & J0). destruct (idx_ok b 1 ltac:(lia)) as (b1 & I1 & J1).
  destruct (idx_ok b 2 ltac:(lia)) as (b2 & I2 & J2). destruct (idx_ok b 3 ltac:(lia)) as (b3 & I3 & J3).
  rewrite I0, I1, I2, I3 in H. cbn [bind] in H.
  pose proof (idx_byte _ _ _ BO I2) as B2. pose proof (idx_byte _ _ _ BO I3) as B3. red in B2, B3.
  assert (Z.lor (Z.shiftl b2 8) b3 = b2 * 256 + b3) as EL.
  { rewrite (lor_add _ _ 8); [rewrite Z.shiftl_mul_pow2 by lia; reflexivity|lia|cbn; lia|rewrite Z.shiftl_mul_pow2 by lia; apply Z.mod_mul; cbn; lia]. }
  rewrite EL in H. change 3 with (2 ^ 2 - 1) in H. rewrite land_mask in H by lia. change (2 ^ 2) with 4 in H.
  destruct (0 <? (b2 * 256 + b3) mod 4) eqn:M4; [discriminate|]. destruct (b2 * 256 + b3 + 20 =? zlen b) eqn:LE; cbn [negb] in H; [|discriminate].
  rewrite slice_ok in H by lia. cbn [bind] in H. destruct (eqb_bytes _ _); cbn [negb] in H; [|discriminate].
  rewrite slice_ok in H by lia. cbn [bind] in H. rewrite from_ok in H by lia. cbn [bind] in H. change (Z.to_nat 20) with 20%nat in H.
  destruct (attrs_parse _ _ _ _ _ _ _) as [[a mio]| |] eqn:AP; cbn [bind] in H; try discriminate.
  exists a, mio. split; [symmetry; apply firstn_skipn|]. split; [rewrite zlen_firstn; lia|]. split; [lia|]. split; [rewrite zlen_skipn; dlia|].
  destruct (0 <? mio) eqn:Em.
  - destruct (upto b (mio + 20)) as [ig| |] eqn:U; cbn [bind] in H; try discriminate.
    assert (m = mkM (method_from_typ (Z.lor (Z.shiftl (Z.land b0 63) 8) b1)) (class_from_typ (Z.lor (Z.shiftl (Z.land b0 63) 8) b1))
      (firstn (Z.to_nat (20 - 8)) (skipn (Z.to_nat 8) b)) a ig ((mio + 24) mod 65536)) as ->.
    { destruct (is_binding _); [destruct (class_from_typ _)|]; repeat match type of H with (if ?c then _ else _) = _ => destruct c end; congruence. }
    split; [exact AP|]. split; [reflexivity|]. split; [intros _; cbn; auto|lia].
  - cbn [bind] in H.
    assert (m = mkM (method_from_typ (Z.lor (Z.shiftl (Z.land b0 63) 8) b1)) (class_from_typ (Z.lor (Z.shiftl (Z.land b0 63) 8) b1))
      (firstn (Z.to_nat (20 - 8)) (skipn (Z.to_nat 8) b)) a [] 0) as ->.
    { destruct (is_binding _); [destruct (class_from_typ _)|]; repeat match type of H with (if ?c then _ else _) = _ => destruct c end; congruence. }
    split; [exact AP|]. split; [reflexivity|]. split; [lia|auto].
Qed.
Lemma attrs_parse_mio_range tid fuel : forall l b off a mio a' mio' ign, Body l b -> 0 <= mio <= off + zlen b -> 0 <= off ->
  attrs_parse fuel b tid off a mio ign = Ok (a', mio') -> 0 <= mio' <= off + zlen b.
Proof.
  induction fuel as [|f IH]; intros l b off a mio a' mio' ign HB R O H; [discriminate|]. destruct HB as [|ty v pad l b T V BV P HB].
  - cbn in H. inversion H; subst. lia.
  - change (be16 ty ++ be16 (zlen v) ++ v ++ pad ++ b) with (item_bytes ty v pad b) in *. rewrite attrs_parse_step in H by assumption. rewrite item_len in *.
    pose proof (zlen_nonneg v). pose proof (zlen_nonneg pad). pose proof (zlen_nonneg b). pose proof (tlv_len (ty, v)) as TL. cbn [snd] in TL.
    destruct (negb ign || (ty =? 32808)).
    + destruct (one_attr _ _ _ _ _ _ _ _) as [[[a1 m1] i1]| |] eqn:OA; cbn [bind] in H; try discriminate.
      apply one_attr_mio in OA as [O1 O2].
      assert (m1 = mio \/ m1 = off) as M1. { destruct (Z.eq_dec ty 8); [right; apply O2; assumption|left; apply O1; assumption]. }
      apply IH with (l := l) in H; [lia|exact HB|lia|lia].
    + cbn [bind] in H. apply IH with (l := l) in H; [lia|exact HB|lia|lia].
Qed.
Lemma parse_np b : bytes_ok b -> parse b <> Panic.
Proof.
  intros BO. unfold parse. destruct (zlen b <? 4) eqn:L4; [discriminate|].
  destruct (idx_ok b 0 ltac:(lia)) as (b0 & I0 & J0). destruct (idx_ok b 1 ltac:(lia)) as (b1 & I1 & J1).
  destruct (idx_ok b 2 ltac:(lia)) as (b2 & I2 & J2). destruct (idx_ok b 3 ltac:(lia)) as (b3 & I3 & J3).
  rewrite I0, I1, I2, I3. cbn [bind].
  pose proof (idx_byte _ _ _ BO I2) as B2. pose proof (idx_byte _ _ _ BO I3) as B3. red in B2, B3.
  assert (Z.lor (Z.shiftl b2 8) b3 = b2 * 256 + b3) as EL.
  { rewrite (lor_add _ _ 8); [rewrite Z.shiftl_mul_pow2 by lia; reflexivity|lia|cbn; lia|rewrite Z.shiftl_mul_pow2 by lia; apply Z.mod_mul; cbn; lia]. }
  rewrite EL. change 3 with (2 ^ 2 - 1). rewrite land_mask by lia. change (2 ^ 2) with 4.
  destruct (0 <? (b2 * 256 + b3) mod 4) eqn:M4; [discriminate|]. destruct (b2 * 256 + b3 + 20 =? zlen b) eqn:LE; cbn [negb]; [|discriminate].
  rewrite slice_ok by lia. cbn [bind]. destruct (eqb_bytes _ _); cbn [negb]; [|discriminate].
  rewrite slice_ok by lia. cbn [bind]. rewrite from_ok by lia. cbn [bind]. change (Z.to_nat 20) with 20%nat.
  assert (bytes_ok (skipn 20 b)) as BS by (apply Forall_skipn; exact BO).
  assert (zlen (skipn 20 b) = zlen b - 20) as LS by (rewrite zlen_skipn; lia).
  destruct (attrs_parse _ _ _ _ _ _ _) as [[a mio]| |] eqn:AP; cbn [bind]; [|discriminate|].
  2:{ exfalso. revert AP. apply attrs_parse_np; [exact BS|lia|dlia]. }
  assert (0 <= mio <= zlen b - 20) as R.
  { destruct (attrs_parse_Body _ _ _ _ _ _ _ _ BS AP) as [l HB].
    assert (0 <= 0 <= 0 + zlen (skipn 20 b)) as R0 by lia. pose proof (attrs_parse_mio_range _ _ _ _ _ _ _ _ _ _ HB R0 (Z.le_refl 0) AP). lia. }
  destruct (0 <? mio).
  - rewrite upto_ok by lia. cbn [bind]. destruct (is_binding _); [destruct (class_from_typ _)|]; repeat match goal with |- context[if ?c then _ else _] => destruct c end; discriminate.
  - cbn [bind]. destruct (is_binding _); [destruct (class_from_typ _)|]; repeat match goal with |- context[if ?c then _ else _] => destruct c end; discriminate.
Qed.

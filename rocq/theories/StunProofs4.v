(** Whole messages: integrity, round trip. *)
From Verif Require Import Base BaseFacts Brute StunModel StunSpec StunProofs StunProofs2 StunProofs3.

Lemma eqb_bytes_eq a : forall b, eqb_bytes a b = true <-> a = b.
Proof.
  unfold eqb_bytes. induction a as [|x a IH]; intros [|y b]; cbn [combine forallb]; rewrite ?zlen_cons, ?zlen_nil.
  - split; auto.
  - pose proof (zlen_nonneg b). split; [lia|discriminate].
  - pose proof (zlen_nonneg a). split; [lia|discriminate].
  - specialize (IH b). rewrite !andb_true_iff in *. split.
    + intros [L [E F]]. f_equal; [lia|]. apply IH. split; [lia|exact F].
    + intro E. inversion E; subst. split; [lia|]. split; [lia|]. apply IH. reflexivity.
Qed.
Lemma Body_app_len hdr bytes (b : list Z) : b = hdr ++ bytes -> zlen hdr = 20 -> firstn 20 b = hdr /\ skipn 20 b = bytes.
Proof.
  intros -> L. assert (length hdr = 20%nat) as LH by (unfold zlen in L; lia). rewrite firstn_app, skipn_app, LH, Nat.sub_diag, <- LH, firstn_all, skipn_all. cbn [firstn skipn app].
  rewrite app_nil_r. auto.
Qed.
Lemma Body_nil_len l b : Body l b -> l <> [] -> 0 < zlen b.
Proof. intros H N. destruct H as [|ty v pad l b]; [congruence|]. rewrite !zlen_app, !zlen_be16. pose proof (zlen_nonneg v). pose proof (zlen_nonneg pad). pose proof (zlen_nonneg b). lia. Qed.
Lemma upto_pre (hdr before rest : list Z) n : n = zlen hdr + zlen before -> upto (hdr ++ before ++ rest) n = Ok (hdr ++ before).
Proof. intros ->. rewrite <- zlen_app, app_assoc. apply upto_app. Qed.

Lemma verify_none P b m pw hdr bytes l : bytes_ok b -> parse b = Ok m -> b = hdr ++ bytes -> zlen hdr = 20 -> Body l bytes -> ~ In 8 (map fst l) ->
  verify P m pw = Ok false.
Proof.
  intros BO H E L HB NI. destruct (parse_inv b m BO H) as (a & mio & _ & _ & _ & _ & AP & A & _ & _).
  destruct (Body_app_len _ _ _ E L) as [_ S]. rewrite S in AP.
  destruct (attrs_parse_none _ _ _ _ _ _ _ _ HB NI AP) as (a' & E' & M). inversion E'; subst a'. unfold verify. rewrite A, M. reflexivity.
Qed.
Lemma verify_some P b m pw hdr before after l1 mac l2 : bytes_ok b -> parse b = Ok m ->
  b = hdr ++ before ++ be16 8 ++ be16 (zlen mac) ++ mac ++ after -> zlen hdr = 20 -> Body l1 before -> Body l2 after -> ~ In 8 (map fst l1) ->
  zlen mac < 65536 -> padding (zlen mac) = 0 ->
  verify P m pw = if zlen before =? 0 then Panic else Ok (eqb_bytes (hmac P pw (firstn 2 hdr ++ be16 (zlen before + 24) ++ skipn 4 hdr ++ before)) mac).
Proof.
  intros BO H E L B1 B2 NI LM PM. destruct (parse_inv b m BO H) as (a & mio & _ & _ & LB & _ & AP & A & I1 & I2).
  set (bytes := before ++ be16 8 ++ be16 (zlen mac) ++ mac ++ after) in *.
  assert (Body (l1 ++ (8, mac) :: l2) bytes) as HB.
  { unfold bytes. clear - B1 B2 LM PM BO E. assert (bytes_ok mac) as BM by (rewrite E in BO; subst bytes; unfold bytes_ok in *; rewrite !Forall_app in BO; tauto).
    clear E BO. clear b bytes. induction B1 as [|ty v pad l b T V BV P B1 IH].
    - cbn [app]. exact (BCons 8 mac [] l2 after ltac:(lia) LM BM (eq_sym PM) B2).
    - cbn [app] in *. replace ((be16 ty ++ be16 (zlen v) ++ v ++ pad ++ b) ++ be16 8 ++ be16 (zlen mac) ++ mac ++ after)
        with (be16 ty ++ be16 (zlen v) ++ v ++ pad ++ (b ++ be16 8 ++ be16 (zlen mac) ++ mac ++ after)) by (rewrite <- !app_assoc; reflexivity).
      constructor; assumption. }
  destruct (Body_app_len _ _ _ E L) as [_ S]. rewrite S in AP.
  destruct (attrs_parse_mi _ _ _ _ _ _ _ _ _ _ HB NI AP) as (a' & E' & M & LMAC). inversion E'; subst a' mio. clear E'.
  rewrite <- (Body_len _ _ B1) in *. rewrite ?Z.add_0_l in *. pose proof (zlen_nonneg before).
  assert (zlen b = 20 + zlen before + 4 + zlen mac + zlen after) as LBB by (rewrite E; unfold bytes; rewrite !zlen_app, !zlen_be16; lia). pose proof (zlen_nonneg after).
  unfold verify. rewrite A, M. destruct (zlen before =? 0) eqn:Z0.
  - destruct (I2 ltac:(lia)) as [-> ->]. reflexivity.
  - destruct (I1 ltac:(lia)) as [U IL]. rewrite E in U. unfold bytes in U. rewrite upto_pre in U by lia.
    assert (integrity m = hdr ++ before) as -> by congruence. rewrite IL.
    rewrite (Z.mod_small (zlen before + 24) 65536) by lia.
    assert (length hdr = 20%nat) as LH by (unfold zlen in L; lia).
    rewrite upto_ok by (rewrite zlen_app; lia). rewrite from_ok by (rewrite zlen_app; lia). cbn [bind].
    change (Z.to_nat 2) with 2%nat. change (Z.to_nat 4) with 4%nat. rewrite firstn_app, skipn_app, LH. change (2 - 20)%nat with 0%nat. change (4 - 20)%nat with 0%nat.
    cbn [firstn skipn]. rewrite app_nil_r. reflexivity.
Qed.

(** * Round trip *)
Lemma typ_back c m : m <> UnknownMethod ->
  let t := Z.lor (Z.shiftl (Z.land (type_code c m / 256 mod 256) 63) 8) (type_code c m mod 256) in class_from_typ t = c /\ method_from_typ t = m.
Proof. intro K. destruct m; try congruence; destruct c; vm_compute; auto. Qed.
Lemma split_colon_spec x y : ~ In 58 x -> split_colon (x ++ 58 :: y) = Some (x, y).
Proof.
  induction x as [|c x IH]; intro N; cbn [app split_colon]; [reflexivity|]. cbn [In] in N. replace (c =? 58) with false by (destruct (Z.eqb_spec c 58); [exfalso; apply N; auto|reflexivity]).
  rewrite IH by tauto. reflexivity.
Qed.
Definition final (P : prims) (m : msg) (pw : option (list Z)) : attrs * Z :=
  let b := body (items (m_attrs m) (trans_id m)) in
  let mac pw := hmac P pw (header (m_class m) (m_method m) (zlen b + 24) (trans_id m) ++ b) in
  (match pw with Some pw => set_integrity (Some (mac pw)) (m_attrs m) | None => m_attrs m end, match pw with Some _ => zlen b | None => 0 end).

Lemma num4 x rest : 0 <= x < U32 -> num (tlv (32808, be32 x) ++ rest) 4 4 = Ok x.
Proof. intro H. rewrite num_v by reflexivity. rewrite fold_be32 by exact H. reflexivity. Qed.
Lemma AP_nil tid off a mio ign : AP [] tid off a mio ign = Ok (a, mio). Proof. reflexivity. Qed.
Lemma AP_tail P m pw x : prims_ok P -> 0 <= x < U32 ->
  AP (match pw with Some pw => tlv (8, hmac P pw (header (m_class m) (m_method m) (zlen (body (items (m_attrs m) (trans_id m))) + 24) (trans_id m) ++ body (items (m_attrs m) (trans_id m)))) | None => [] end
      ++ tlv (32808, be32 x)) (trans_id m) (zlen (body (items (m_attrs m) (trans_id m)))) (m_attrs m) 0 false
  = Ok (set_fingerprint (Some x) (fst (final P m pw)), snd (final P m pw)).
Proof.
  intros [PH _] X. set (b := body (items (m_attrs m) (trans_id m))).
  assert (Body [(32808, be32 x)] (tlv (32808, be32 x))) as HF.
  { pose proof (body_Body [(32808, be32 x)]) as Q. unfold body in Q. cbn [map concat] in Q. rewrite app_nil_r in Q. apply Q. constructor; [|constructor]. split; [lia|]. split; [cbn; lia|apply be32_ok]. }
  destruct pw as [pw|].
  - set (mac := hmac P pw _). destruct (PH pw (header (m_class m) (m_method m) (zlen b + 24) (trans_id m) ++ b)) as [LM BM]. fold mac in LM, BM.
    rewrite AP_step with (l := [(32808, be32 x)]) by (exact HF || lia). cbn [negb orb].
    assert (one_attr 8 (zlen mac) (tlv (8, mac) ++ tlv (32808, be32 x)) (trans_id m) (zlen b) (m_attrs m) 0 false = Ok (set_integrity (Some mac) (m_attrs m), zlen b, true)) as ->.
    { transitivity (if negb (zlen mac =? 20) then Err else do v <- slice (tlv (8, mac) ++ tlv (32808, be32 x)) 4 24; Ok (set_integrity (Some v) (m_attrs m), zlen b, true)); [reflexivity|].
      rewrite LM. cbn [negb Z.eqb Pos.eqb]. pose proof (slice_v 8 mac (tlv (32808, be32 x))) as S. rewrite LM in S. change (20 + 4) with 24 in S. rewrite S. reflexivity. }
    cbn [bind]. rewrite <- (app_nil_r (tlv (32808, be32 x))) at 1. rewrite AP_step with (l := []) by (first [lia | cbn; lia | constructor]). cbn [negb orb Z.eqb Pos.eqb].
    assert (forall o a mi ig, one_attr 32808 (zlen (be32 x)) (tlv (32808, be32 x) ++ []) (trans_id m) o a mi ig = Ok (set_fingerprint (Some x) a, mi, ig)) as O.
    { intros. transitivity (do v <- num (tlv (32808, be32 x) ++ []) 4 4; Ok (set_fingerprint (Some v) a, mi, ig)); [reflexivity|]. rewrite num4 by exact X. reflexivity. }
    rewrite O. cbn [bind]. rewrite AP_nil. unfold final. cbv zeta. fold b. cbn [fst snd]. fold mac. reflexivity.
  - cbn [app]. rewrite <- (app_nil_r (tlv (32808, be32 x))) at 1. rewrite AP_step with (l := []) by (first [lia | cbn; lia | constructor]). cbn [negb orb Z.eqb Pos.eqb].
    assert (forall o a mi ig, one_attr 32808 (zlen (be32 x)) (tlv (32808, be32 x) ++ []) (trans_id m) o a mi ig = Ok (set_fingerprint (Some x) a, mi, ig)) as O.
    { intros. transitivity (do v <- num (tlv (32808, be32 x) ++ []) 4 4; Ok (set_fingerprint (Some v) a, mi, ig)); [reflexivity|]. rewrite num4 by exact X. reflexivity. }
    rewrite O. cbn [bind]. rewrite AP_nil. reflexivity.
Qed.

Lemma parse_wire P m pw : prims_ok P -> attrs_ok (m_attrs m) -> plain (m_attrs m) -> bytes_ok (trans_id m) -> zlen (trans_id m) = 12 ->
  m_method m <> UnknownMethod -> zlen (wire P m pw) < 65536 + 20 ->
  demanded (m_class m) (m_method m) (m_attrs m) ->
  (pw = None -> m_method m = Binding -> m_class m <> Request /\ m_class m <> Success) ->
  (pw <> None -> items (m_attrs m) (trans_id m) <> []) ->
  exists m', parse (wire P m pw) = Ok m' /\ m_method m' = m_method m /\ m_class m' = m_class m /\ trans_id m' = trans_id m
    /\ exists x, m_attrs m' = set_fingerprint (Some x) (fst (final P m pw)).
Proof.
  intros PO AO PL BT T MK SZ DM PWN NE. rewrite zlen_wire in SZ by assumption.
  set (b := body (items (m_attrs m) (trans_id m))) in *. set (milen := match pw with Some _ => 24 | None => 0 end) in *.
  pose proof (zlen_nonneg b) as NB. assert (0 <= milen <= 24) as NM by (unfold milen; destruct pw; lia).
  set (mi := match pw with Some pw => tlv (8, hmac P pw (header (m_class m) (m_method m) (zlen b + 24) (trans_id m) ++ b)) | None => [] end).
  assert (zlen mi = milen) as LMI.
  { unfold mi, milen. destruct pw as [p|]; [|reflexivity]. rewrite tlv_len. cbn [snd]. destruct PO as [PH _].
    match goal with |- context[zlen (hmac P p ?x)] => destruct (PH p x) as [-> _] end. reflexivity. }
  set (h := header (m_class m) (m_method m) (zlen b + zlen mi + 8) (trans_id m)).
  set (fp := Z.lxor (crc P (h ++ b ++ mi)) 1398035790).
  assert (0 <= fp < U32) as FP. { unfold fp. destruct PO as [_ PC]. apply (lxor_lt _ _ 32); [lia|apply (PC (h ++ b ++ mi))|cbn; lia]. }
  assert (wire P m pw = h ++ b ++ mi ++ tlv (32808, be32 fp)) as W by reflexivity.
  rewrite W. assert (zlen h = 20) as LH by (apply header_len; exact T).
  set (rest := b ++ mi ++ tlv (32808, be32 fp)).
  assert (zlen rest = zlen b + milen + 8) as LR by (unfold rest; rewrite !zlen_app, tlv_len; cbn [snd]; rewrite zlen_be32; change (padding 4) with 0; lia).
  set (tc := type_code (m_class m) (m_method m)). set (n := zlen b + zlen mi + 8).
  assert (h ++ rest = (tc / 256 mod 256) :: (tc mod 256) :: (n / 256 mod 256) :: (n mod 256) :: MAGIC ++ trans_id m ++ rest) as HE.
  { unfold h, header. rewrite <- !app_assoc. reflexivity. }
  unfold parse. assert (zlen (h ++ rest) = n + 20) as LHR by (rewrite zlen_app; unfold n; lia).
  rewrite LHR. replace (n + 20 <? 4) with false by lia.
  destruct (idx_hd4 (tc / 256 mod 256) (tc mod 256) (n / 256 mod 256) (n mod 256) (MAGIC ++ trans_id m ++ rest)) as (I0 & I1 & I2 & I3).
  rewrite <- HE in I0, I1, I2, I3. rewrite I0, I1, I2, I3. cbn [bind].
  assert (0 <= n < 65536) as NR by (unfold n; lia).
  assert (Z.lor (Z.shiftl (n / 256 mod 256) 8) (n mod 256) = n) as ->.
  { rewrite (lor_add _ _ 8); [rewrite Z.shiftl_mul_pow2 by lia; cbn; dlia|lia|cbn; dlia|rewrite Z.shiftl_mul_pow2 by lia; apply Z.mod_mul; cbn; lia]. }
  change 3 with (2 ^ 2 - 1). rewrite land_mask by lia. change (2 ^ 2) with 4.
  assert (n mod 4 = 0) as N4.
  { unfold n. rewrite LMI. pose proof (body_len4 (items (m_attrs m) (trans_id m))) as B4. fold b in B4. unfold milen. clear - B4. destruct pw; dlia. }
  rewrite N4. change (0 <? 0) with false. cbv iota. rewrite Z.eqb_refl. cbn [negb].
  assert (slice (h ++ rest) 4 8 = Ok MAGIC) as ->.
  { rewrite HE. exact (slice_mid [tc / 256 mod 256; tc mod 256; n / 256 mod 256; n mod 256] MAGIC (trans_id m ++ rest)). }
  cbn [bind]. replace (eqb_bytes MAGIC MAGIC) with true by (symmetry; apply eqb_bytes_eq; reflexivity). cbn [negb].
  assert (slice (h ++ rest) 8 20 = Ok (trans_id m)) as ->.
  { rewrite HE. pose proof (slice_mid ([tc / 256 mod 256; tc mod 256; n / 256 mod 256; n mod 256] ++ MAGIC) (trans_id m) rest) as Q. rewrite T in Q. rewrite <- app_assoc in Q. exact Q. }
  cbn [bind]. replace (from (h ++ rest) 20) with (Ok rest) by (rewrite <- LH; symmetry; apply from_app). cbn [bind].
  fold (AP rest (trans_id m) 0 attrs0 0 false). unfold rest.
  assert (Body (match pw with Some pw => [(8, hmac P pw (header (m_class m) (m_method m) (zlen b + 24) (trans_id m) ++ b))] | None => [] end ++ [(32808, be32 fp)]) (mi ++ tlv (32808, be32 fp))) as HT.
  { assert (mi = body (match pw with Some pw => [(8, hmac P pw (header (m_class m) (m_method m) (zlen b + 24) (trans_id m) ++ b))] | None => [] end)) as ->.
    { unfold mi, body. destruct pw; cbn [map concat]; [rewrite app_nil_r; reflexivity|reflexivity]. }
    apply Body_cat.
    - destruct pw as [p|]; [|constructor]. constructor; [|constructor]. destruct PO as [PH _]. destruct (PH p (header (m_class m) (m_method m) (zlen b + 24) (trans_id m) ++ b)) as [L B].
      split; [cbn; lia|]. split; [cbn [snd]; lia|exact B].
    - pose proof (body_Body [(32808, be32 fp)]) as Q. unfold body in Q. cbn [map concat] in Q. rewrite app_nil_r in Q. apply Q. constructor; [|constructor]. split; [lia|]. split; [cbn; lia|apply be32_ok]. }
  destruct PL as (P1 & P2 & P3 & P4).
  pose proof (AP_items (m_attrs m) (trans_id m) _ _ AO BT T HT P1 P2 P3 P4) as AI. fold b in AI. rewrite AI.
  pose proof (AP_tail P m pw fp PO FP) as AT. fold b in AT. fold mi in AT. rewrite AT. cbn [bind].
  destruct (typ_back (m_class m) (m_method m) MK) as [TC TM]. cbv zeta in TC, TM. fold tc in TC, TM. rewrite TC, TM.
  assert (snd (final P m pw) = match pw with Some _ => zlen b | None => 0 end) as FS by reflexivity.
  set (A := set_fingerprint (Some fp) (fst (final P m pw))).
  assert (username A = username (m_attrs m) /\ priority A = priority (m_attrs m) /\ xor_mapped_address A = xor_mapped_address (m_attrs m)) as (AU & APR & AM) by (unfold A, final; destruct pw; cbn; auto).
  assert (pw <> None -> 0 < zlen b) as PB.
  { intro Q. specialize (NE Q). unfold b. destruct (items (m_attrs m) (trans_id m)) as [|x l] eqn:EI; [congruence|]. rewrite body_cons, zlen_app. pose proof (tlv_pos x). pose proof (zlen_nonneg (body l)). lia. }
  assert (exists il ig, (if 0 <? snd (final P m pw) then do i <- upto (h ++ b ++ mi ++ tlv (32808, be32 fp)) (snd (final P m pw) + 20); Ok ((snd (final P m pw) + 24) mod 65536, i) else Ok (0, [])) = Ok (il, ig)) as (il & ig & ->).
  { rewrite FS. destruct pw as [p|]; [|cbn; eauto]. rewrite (proj2 (Z.ltb_lt 0 (zlen b))) by (apply PB; discriminate).
    rewrite upto_pre by lia. cbn [bind]. eauto. }
  cbn [bind].
  assert (match is_binding (m_method m), m_class m with
    | true, Success => if snd (final P m pw) =? 0 then Err else if is_none (xor_mapped_address A) then Err else Ok (mkM (m_method m) (m_class m) (trans_id m) A ig il)
    | true, Request => if snd (final P m pw) =? 0 then Err else if is_none (split_username A) then Err else if is_none (priority A) then Err else Ok (mkM (m_method m) (m_class m) (trans_id m) A ig il)
    | _, _ => Ok (mkM (m_method m) (m_class m) (trans_id m) A ig il)
    end = Ok (mkM (m_method m) (m_class m) (trans_id m) A ig il)) as R.
  { destruct (m_method m) eqn:EM; cbn [is_binding]; try reflexivity. destruct (m_class m) eqn:EC; try reflexivity.
    - destruct pw as [p|]; [|destruct (PWN eq_refl eq_refl); congruence]. rewrite FS. specialize (PB ltac:(discriminate)). replace (zlen b =? 0) with false by lia.
      cbn [demanded] in DM. destruct DM as [(x & y & EU & NI & NY) PRI]. unfold split_username. rewrite AU, EU, split_colon_spec by exact NI. destruct y as [|y0 y]; [congruence|].
      cbn [is_none]. rewrite APR. destruct (priority (m_attrs m)); [reflexivity|congruence].
    - destruct pw as [p|]; [|destruct (PWN eq_refl eq_refl); congruence]. rewrite FS. specialize (PB ltac:(discriminate)). replace (zlen b =? 0) with false by lia.
      cbn [demanded] in DM. rewrite AM. destruct (xor_mapped_address (m_attrs m)); [reflexivity|congruence]. }
  exists (mkM (m_method m) (m_class m) (trans_id m) A ig il). split; [exact R|]. cbn. split; [reflexivity|]. split; [reflexivity|]. split; [reflexivity|]. exists fp. reflexivity.
Qed.

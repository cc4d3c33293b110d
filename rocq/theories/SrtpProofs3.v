(** SRTCP and the key derivation. *)
From Verif Require Import Base BaseFacts SrtpModel SrtpSpec HeaderModel SrtpProofs SrtpProofs2.

Lemma idx_at (a b : list Z) x n : n = zlen a -> idx (a ++ x :: b) n = Ok x.
Proof. intros ->. rewrite idx_app_r by lia. rewrite Z.sub_diag. reflexivity. Qed.
Lemma rd32_at_split (a m b : list Z) n : n = zlen a -> zlen m = 4 -> rd32_at (a ++ m ++ b) n = Ok (rdn m).
Proof.
  intros -> L. destruct m as [|x [|y [|z [|w [|]]]]]; try (unfold zlen in L; cbn [length] in L; lia). unfold rd32_at.
  pose proof (zlen_nonneg a). rewrite (idx_app_r a _ (zlen a)), (idx_app_r a _ (zlen a + 1)), (idx_app_r a _ (zlen a + 2)), (idx_app_r a _ (zlen a + 3)) by lia.
  replace (zlen a - zlen a) with 0 by lia. replace (zlen a + 1 - zlen a) with 1 by lia. replace (zlen a + 2 - zlen a) with 2 by lia. replace (zlen a + 3 - zlen a) with 3 by lia.
  change (idx ([x; y; z; w] ++ b) 0) with (Ok x). change (idx ([x; y; z; w] ++ b) 1) with (Ok y).
  change (idx ([x; y; z; w] ++ b) 2) with (Ok z). change (idx ([x; y; z; w] ++ b) 3) with (Ok w). cbn [bind]. f_equal.
  unfold rd32, rdn. cbn [fold_left]. lia.
Qed.
Lemma lor_bit31 i : 0 <= i < 2147483648 -> Z.lor 2147483648 i = 2 ^ 31 + i.
Proof. intro. change 2147483648 with (1 * 2 ^ 31). rewrite (lor_add _ _ 31); [lia|lia|lia|reflexivity]. Qed.
Lemma land_bit31 v : 0 <= v < U32 -> (0 <? Z.land v 2147483648) = (2147483648 <=? v).
Proof.
  unfold U32. intro H. destruct (2147483648 <=? v) eqn:E.
  - replace v with (1 * 2 ^ 31 + (v - 2147483648)) by lia. change 2147483648 with (1 * 2 ^ 31) at 2.
    assert (Z.land (1 * 2 ^ 31 + (v - 2147483648)) (1 * 2 ^ 31) = 2 ^ 31) as ->; [|reflexivity].
    rewrite <- (lor_add (1 * 2 ^ 31) (v - 2147483648) 31) by (cbn; lia). rewrite Z.land_lor_distr_l, Z.land_diag.
    rewrite Z.land_comm, (land_disj (1 * 2 ^ 31) (v - 2147483648) 31); [reflexivity|lia|lia|reflexivity].
  - rewrite Z.land_comm. rewrite (land_disj _ _ 31); [reflexivity|lia|lia|reflexivity].
Qed.
Lemma land_low31 v : 0 <= v -> Z.land v 2147483647 = v mod 2147483648.
Proof. intro. change 2147483647 with (2 ^ 31 - 1). rewrite land_mask by lia. reflexivity. Qed.

Lemma protect_rtcp_conforms P c pre sx rest : prims_ok P -> derived_ok (c_rtcp c) -> 0 <= c_index c < 2 ^ 31 ->
  zlen pre = 4 -> zlen sx = 4 -> bytes_ok sx ->
  protect_rtcp P c (pre ++ sx ++ rest) =
    Ok (srtcp_packet P (c_rtcp c) (pre ++ sx) rest (rdn sx) (c_index c),
        mkCtx (c_rtp c) (c_rtcp c) ((c_index c + 1) mod 2 ^ 31) (c_scratch c)).
Proof.
  intros HP HD HI L1 L2 OS. change (2 ^ 31) with 2147483648 in HI. unfold protect_rtcp.
  replace (U32 <=? c_index c + 1) with false by (unfold U32; lia). cbn zeta. rewrite lor_bit31 by lia. rewrite rd32_at_split by lia. cbn [bind].
  assert (0 <= rdn sx < U32) as RS by (pose proof (rdn_range sx OS) as R; rewrite L2 in R; exact R).
  pose proof (zlen_nonneg rest) as NR. rewrite app_assoc. set (hdr := pre ++ sx). assert (zlen hdr = 8) as LH by (unfold hdr; rewrite zlen_app; lia).
  set (e := be32 (2 ^ 31 + c_index c)). assert (zlen e = 4) as LE by reflexivity.
  assert (e = ben 4 (2 ^ 31 + c_index c)) as EE by apply be32_ben.
  destruct (c_rtcp c) as [auth salt key|salt key]; cbn [derived_ok srtcp_packet] in *; destruct HD as [L B].
  - rewrite cm_iv_rfc by (assumption || (unfold U64; lia)). set (iv := ben 16 _). set (ct := ctr P key iv rest). assert (zlen ct = zlen rest) as LC by (apply ctr_len; exact HP).
    change (Z.max 0 (15 - (4 + 10))) with 1.
    replace (rep 0 (zlen (hdr ++ rest) + 4 + 10 + 1)) with (rep 0 8 ++ rep 0 (zlen rest) ++ rep 0 4 ++ rep 0 10 ++ rep 0 1 : list Z)
      by (rewrite zlen_app, <- !rep_app by lia; f_equal; lia).
    change (hdr ++ rest) with ([] ++ hdr ++ rest) at 1. rewrite slice_at by (rewrite ?LH; reflexivity). cbn [bind].
    rewrite blit_front by (rewrite zlen_rep by lia; lia). cbn [bind]. rewrite from_at by lia. cbn [bind]. fold ct.
    rewrite (blit_at' hdr) by (rewrite ?zlen_rep by lia; lia). cbn [bind].
    rewrite (app_assoc hdr ct). rewrite (blit_at' (hdr ++ ct)) by (rewrite ?zlen_app, ?zlen_rep by lia; lia). cbn [bind]. unfold rtcp_hmac.
    rewrite (app_assoc (hdr ++ ct) e). rewrite upto_at by (rewrite !zlen_app; lia). cbn [bind]. rewrite tag10_ok by exact HP. cbn [bind].
    rewrite <- EE. rewrite <- (app_assoc hdr ct e). set (t := firstn 10 _). assert (zlen t = 10) as LT by (apply tag_zlen; exact HP).
    rewrite (blit_at' (hdr ++ ct ++ e)) by (rewrite ?zlen_app, ?zlen_rep by lia; lia). cbn [bind]. rewrite (app_assoc _ t). rewrite firstn_at by (rewrite !zlen_app; lia). reflexivity.
  - rewrite gcm_rtcp_iv_rfc by (assumption || (unfold U32; lia)). set (iv := ben 12 _). rewrite upto_at by lia. cbn [bind].
    replace (rep 0 (zlen (hdr ++ rest) + 4 + 16)) with (rep 0 8 ++ rep 0 (zlen rest + 16) ++ rep 0 4 : list Z)
      by (rewrite zlen_app, <- !rep_app by lia; f_equal; lia).
    rewrite blit_front by (rewrite zlen_rep by lia; lia). cbn [bind]. rewrite from_at by lia. cbn [bind].
    rewrite (slice_at hdr) by (rewrite ?zlen_rep by lia; lia). cbn [bind]. unfold gcm_encrypt. rewrite zlen_app, LH, LE. cbn [Z.add Z.ltb Z.compare Pos.compare Pos.compare_cont Pos.add].
    destruct HP as (_ & _ & HSeal & _). destruct (HSeal key iv (hdr ++ e) rest) as [LS _].
    match goal with |- context [blit (rep 0 (zlen rest + 16)) 0 ?s] => replace (blit (rep 0 (zlen rest + 16)) 0 s) with (Ok s) end.
    2:{ rewrite <- (app_nil_r (rep 0 (zlen rest + 16))), blit_front by (rewrite zlen_rep by lia; lia). rewrite app_nil_r. reflexivity. }
    cbn [bind].
    rewrite (blit_at' hdr) by (rewrite ?zlen_rep by lia; lia). cbn [bind]. rewrite app_assoc. rewrite <- (app_nil_r (rep 0 4)).
    rewrite (blit_at' (hdr ++ _)) by (rewrite ?zlen_app, ?zlen_rep by lia; lia). cbn [bind]. rewrite app_nil_r, <- app_assoc, <- EE. reflexivity.
Qed.

Lemma split_rtcp (buf : list Z) k : 0 <= k -> 12 + k <= zlen buf -> exists pre sx mid e t, buf = pre ++ sx ++ mid ++ e ++ t /\
  zlen pre = 4 /\ zlen sx = 4 /\ zlen mid = zlen buf - 12 - k /\ zlen e = 4 /\ zlen t = k.
Proof.
  intros K H. destruct (split2 buf 4) as (pre & b1 & -> & L1 & _); [lia|]. rewrite zlen_app in H.
  destruct (split2 b1 4) as (sx & b2 & -> & L2 & _); [lia|]. rewrite zlen_app in H.
  destruct (split2 b2 (zlen b2 - 4 - k)) as (mid & b3 & -> & L3 & L3'); [lia|]. rewrite zlen_app in L3, L3', H.
  destruct (split2 b3 4) as (e & t & -> & L4 & L4'); [lia|]. rewrite zlen_app in *.
  exists pre, sx, mid, e, t. rewrite !zlen_app. spl; try reflexivity; lia.
Qed.
Lemma split_gcm (buf : list Z) : 28 <= zlen buf -> exists pre sx mid t e, buf = pre ++ sx ++ mid ++ t ++ e /\
  zlen pre = 4 /\ zlen sx = 4 /\ zlen mid = zlen buf - 28 /\ zlen t = 16 /\ zlen e = 4.
Proof.
  intros H. destruct (split2 buf 4) as (pre & b1 & -> & L1 & _); [lia|]. rewrite zlen_app in H.
  destruct (split2 b1 4) as (sx & b2 & -> & L2 & _); [lia|]. rewrite zlen_app in H.
  destruct (split2 b2 (zlen b2 - 20)) as (mid & b3 & -> & L3 & L3'); [lia|]. rewrite zlen_app in L3, L3', H.
  destruct (split2 b3 16) as (t & e & -> & L4 & L4'); [lia|]. rewrite zlen_app in *.
  exists pre, sx, mid, t, e. rewrite !zlen_app. spl; try reflexivity; lia.
Qed.
Lemma ben4_inj a b : 0 <= a < U32 -> 0 <= b < U32 -> ben 4 a = ben 4 b -> a = b.
Proof. intros A B E. apply (f_equal rdn) in E. rewrite !rdn_ben in E by assumption. exact E. Qed.

Lemma app_inj_tail_len (a b x y : list Z) : zlen b = zlen y -> a ++ b = x ++ y -> b = y.
Proof.
  intros L E. assert (zlen a = zlen x) as L2 by (apply (f_equal (@zlen Z)) in E; rewrite !zlen_app in E; lia).
  apply app_inj_len in E as [_ E]; assumption.
Qed.
Lemma blit_whole m s : zlen s = zlen m -> blit m 0 s = Ok s.
Proof. intro L. rewrite <- (app_nil_r m), blit_front, app_nil_r by exact L. reflexivity. Qed.
Lemma blit_tail a m s n : n = zlen a -> zlen s = zlen m -> blit (a ++ m) n s = Ok (a ++ s).
Proof. intros N L. rewrite <- (app_nil_r m), blit_at', app_nil_r by assumption. reflexivity. Qed.
Definition rtcp_form P d (buf p : list Z) : Prop :=
  bytes_ok p /\ exists pre sx rest i, zlen pre = 4 /\ zlen sx = 4 /\ p = pre ++ sx ++ rest /\ 0 <= i < 2 ^ 31 /\
    (buf = srtcp_packet P d (pre ++ sx) rest (rdn sx) i \/ buf = srtcp_plain P d (pre ++ sx) rest (rdn sx) i).

Lemma unprotect_rtcp_run P c buf : prims_ok P -> derived_ok (c_rtcp c) -> bytes_ok buf ->
  exists r, unprotect_rtcp P c buf = Ok r /\ forall p, r = Some p <-> rtcp_form P (c_rtcp c) buf p.
Proof.
  intros HP HD OB. unfold unprotect_rtcp, rtcp_form. change (2 ^ 31) with 2147483648. destruct (c_rtcp c) as [auth salt key|salt key]; cbn [derived_ok] in *; destruct HD as [L B].
  - cbn [srtcp_packet srtcp_plain]. change (8 + 4 + 10) with 22. change (2 ^ 31) with 2147483648. destruct (zlen buf <? 22) eqn:E0.
    { eexists. split; [reflexivity|]. intro p. split; [discriminate|]. intros (_ & pre & sx & rest & i & L1 & L2 & -> & HI & [->| ->]); exfalso;
        rewrite !zlen_app, tag_zlen, ben_zlen in E0 by exact HP.
      - pose proof (zlen_nonneg (ctr P key (ben 16 (rfc3711_iv (rdn salt) (rdn sx) i)) rest)). lia.
      - pose proof (zlen_nonneg rest). lia. }
    destruct (split_rtcp buf 10) as (pre & sx & mid & e & t & EB & L1 & L2 & L3 & L4 & L5); [lia|lia|].
    assert (bytes_ok pre /\ bytes_ok sx /\ bytes_ok mid /\ bytes_ok e) as (O1 & O2 & O3 & O4) by (rewrite EB, !bytes_ok_app in OB; tauto).
    set (body := pre ++ sx ++ mid ++ e). assert (buf = body ++ t) as EB2 by (unfold body; rewrite EB, <- !app_assoc; reflexivity).
    cbn zeta. assert (zlen body = zlen buf - 10) as LB by (unfold body; rewrite !zlen_app; lia).
    assert (upto buf (zlen buf - 10) = Ok body) as -> by (rewrite EB2 at 1; apply upto_at; lia). cbn [bind].
    assert (from buf (zlen buf - 10) = Ok t) as -> by (rewrite EB2 at 1; apply from_at; lia). cbn [bind].
    unfold rtcp_verify. rewrite tag10_ok by exact HP. cbn [bind].
    destruct (eqb_list _ t) eqn:ET; cbn [negb].
    2:{ eexists. split; [reflexivity|]. intro p. split; [discriminate|].
        assert (forall b', buf = b' ++ firstn 10 (hmac P auth b') -> False) as X.
        { intros b' EQ. assert (zlen b' = zlen body) as LL by (apply (f_equal (@zlen Z)) in EQ; rewrite EB2, !zlen_app, tag_zlen in EQ by exact HP; lia).
          rewrite EB2 in EQ. apply app_inj_len in EQ as [<- EQ]; [|lia]. rewrite EQ in ET. assert (eqb_list (firstn 10 (hmac P auth body)) (firstn 10 (hmac P auth body)) = true) by (apply eqb_list_spec; reflexivity). congruence. }
        intros (_ & pre' & sx' & rest & i & _ & _ & _ & _ & [EQ|EQ]); exfalso; apply (X _ EQ). }
    apply eqb_list_spec in ET.
    assert (rd32_at buf (zlen buf - 10 - 4) = Ok (rdn e)) as ->.
    { rewrite EB at 1. rewrite (app_assoc pre), (app_assoc (pre ++ sx)). apply rd32_at_split; [rewrite !zlen_app; lia|exact L4]. }
    cbn [bind]. pose proof (rdn_range e O4) as RE. rewrite L4 in RE. change (256 ^ 4) with U32 in RE. set (v := rdn e) in *.
    assert (e = ben 4 v) as Ee by (rewrite <- (ben_rdn e O4); unfold zlen in L4; replace (length e) with 4%nat by lia; reflexivity).
    rewrite land_bit31 by exact RE. rewrite land_low31 by lia.
    assert (forall b', buf = b' ++ firstn 10 (hmac P auth b') -> b' = body) as X.
    { intros b' EQ. assert (zlen b' = zlen body) as LL by (apply (f_equal (@zlen Z)) in EQ; rewrite EB2, !zlen_app, tag_zlen in EQ by exact HP; lia).
      rewrite EB2 in EQ. apply app_inj_len in EQ as [<- EQ]; [reflexivity|lia]. }
    unfold U32 in RE. destruct (2147483648 <=? v) eqn:EV; cbn [negb].
    + assert (rd32_at buf 4 = Ok (rdn sx)) as -> by (rewrite EB at 1; apply rd32_at_split; lia). cbn [bind].
      assert (slice buf 8 (zlen buf - 10 - 4) = Ok mid) as ->.
      { rewrite EB at 1. rewrite (app_assoc pre). apply slice_at; rewrite !zlen_app; lia. } cbn [bind].
      assert (slice buf 0 8 = Ok (pre ++ sx)) as ->.
      { rewrite EB at 1. rewrite (app_assoc pre). change ((pre ++ sx) ++ mid ++ e ++ t) with ([] ++ (pre ++ sx) ++ mid ++ e ++ t). apply slice_at; rewrite ?zlen_app; change (zlen (@nil Z)) with 0; lia. } cbn [bind].
      assert (0 <= rdn sx < U32) as RS by (pose proof (rdn_range sx O2) as R; rewrite L2 in R; exact R).
      rewrite cm_iv_rfc by (assumption || (unfold U64; dlia)). set (i := v mod 2147483648). assert (v = 2147483648 + i) as Ev by (unfold i; dlia). assert (0 <= i < 2147483648) as RI by (unfold i; dlia).
      set (iv := ben 16 _). pose proof (zlen_nonneg mid) as NM.
      replace (rep 0 (zlen mid + 8 + 15)) with (rep 0 8 ++ rep 0 (zlen mid) ++ rep 0 15 : list Z) by (rewrite <- !rep_app by lia; f_equal; lia).
      rewrite blit_front by (rewrite zlen_rep, zlen_app by lia; lia). cbn [bind].
      rewrite (blit_at' (pre ++ sx)) by (rewrite ?ctr_len, ?zlen_rep, ?zlen_app by (exact HP || lia); lia). cbn [bind].
      rewrite (app_assoc (pre ++ sx)). rewrite firstn_at by (rewrite !zlen_app, ctr_len by exact HP; lia).
      eexists. split; [reflexivity|]. intro p. split.
      * intros [= <-]. split; [rewrite !bytes_ok_app; spl; try assumption; apply ctr_ok; assumption|].
        exists pre, sx, (ctr P key iv mid), i. spl; try lia; [rewrite <- app_assoc; reflexivity|]. left. cbn zeta. fold iv. rewrite ctr_invol by exact HP.
        rewrite <- Ev, <- Ee. rewrite <- (app_assoc pre sx). fold body. rewrite ET. exact EB2.
      * intros (OP & pre' & sx' & rest & i' & L1' & L2' & -> & RI' & [EQ|EQ]); apply X in EQ; unfold body in EQ; rewrite <- app_assoc in EQ.
        -- apply app_inj_len in EQ as [-> EQ]; [|lia]. apply app_inj_len in EQ as [-> EQ]; [|lia].
           assert (zlen rest = zlen mid) as LL by (apply (f_equal (@zlen Z)) in EQ; rewrite !zlen_app, ctr_len, ben_zlen in EQ by exact HP; lia).
           apply app_inj_len in EQ as [<- EQ]; [|rewrite ctr_len by exact HP; lia]. rewrite Ee in EQ. apply ben4_inj in EQ; [|unfold U32; lia|unfold U32; lia].
           assert (i' = i) as -> by lia. fold iv. rewrite ctr_invol by exact HP. rewrite <- app_assoc. reflexivity.
        -- apply app_inj_len in EQ as [-> EQ]; [|lia]. apply app_inj_len in EQ as [-> EQ]; [|lia].
           assert (zlen rest = zlen mid) as LL by (apply (f_equal (@zlen Z)) in EQ; rewrite !zlen_app, ben_zlen in EQ; lia).
           apply app_inj_len in EQ as [<- EQ]; [|lia]. rewrite Ee in EQ. apply ben4_inj in EQ; unfold U32; lia.
    + assert (slice buf 0 (zlen buf - 10 - 4) = Ok (pre ++ sx ++ mid)) as ->.
      { rewrite EB at 1. rewrite (app_assoc sx), (app_assoc pre). change ((pre ++ sx ++ mid) ++ e ++ t) with ([] ++ (pre ++ sx ++ mid) ++ e ++ t). apply slice_at; rewrite ?zlen_app; change (zlen (@nil Z)) with 0; lia. } cbn [bind].
      eexists. split; [reflexivity|]. intro p. split.
      * intros [= <-]. split; [rewrite !bytes_ok_app; tauto|]. exists pre, sx, mid, v. spl; try lia; [reflexivity|]. right.
        rewrite <- Ee, <- (app_assoc pre sx). fold body. rewrite ET. exact EB2.
      * intros (OP & pre' & sx' & rest & i' & L1' & L2' & -> & RI' & [EQ|EQ]); apply X in EQ; unfold body in EQ; rewrite <- app_assoc in EQ.
        -- apply app_inj_len in EQ as [-> EQ]; [|lia]. apply app_inj_len in EQ as [-> EQ]; [|lia].
           assert (zlen rest = zlen mid) as LL by (apply (f_equal (@zlen Z)) in EQ; rewrite !zlen_app, ctr_len, ben_zlen in EQ by exact HP; lia).
           apply app_inj_len in EQ as [<- EQ]; [|rewrite ctr_len by exact HP; lia]. rewrite Ee in EQ. apply ben4_inj in EQ; unfold U32; lia.
        -- apply app_inj_len in EQ as [-> EQ]; [|lia]. apply app_inj_len in EQ as [-> EQ]; [|lia].
           assert (zlen rest = zlen mid) as LL by (apply (f_equal (@zlen Z)) in EQ; rewrite !zlen_app, ben_zlen in EQ; lia).
           apply app_inj_len in EQ as [<- EQ]; [|lia]. reflexivity.
  - cbn [srtcp_packet srtcp_plain]. change (8 + 4 + 16) with 28. change (2 ^ 31) with 2147483648.
    pose proof HP as (_ & _ & HSeal & HU).
    destruct (zlen buf <? 28) eqn:E0.
    { eexists. split; [reflexivity|]. intro p. split; [discriminate|]. intros (_ & pre & sx & rest & i & L1 & L2 & -> & HI & [->| ->]); exfalso.
      - match goal with _ : (zlen (_ ++ seal P key ?iv ?a ?q ++ _) <? 28) = true |- _ => destruct (HSeal key iv a q) as [LS _] end.
        rewrite !zlen_app, LS, ben_zlen in E0. pose proof (zlen_nonneg rest). lia.
      - match goal with _ : (zlen (_ ++ _ ++ seal P key ?iv ?a ?q ++ _) <? 28) = true |- _ => destruct (HSeal key iv a q) as [LS _] end.
        rewrite !zlen_app, LS, ben_zlen in E0. change (zlen (@nil Z)) with 0 in E0. pose proof (zlen_nonneg rest). lia. }
    destruct (split_gcm buf) as (pre & sx & mid & t & e & EB & L1 & L2 & L3 & L5 & L4); [lia|].
    assert (bytes_ok pre /\ bytes_ok sx /\ bytes_ok mid /\ bytes_ok e) as (O1 & O2 & O3 & O4) by (rewrite EB, !bytes_ok_app in OB; tauto).
    cbn zeta.
    assert (rd32_at buf (zlen buf - 4) = Ok (rdn e)) as ->.
    { rewrite EB at 1. rewrite (app_assoc mid), (app_assoc sx), (app_assoc pre). rewrite <- (app_nil_r e) at 1. apply rd32_at_split; [rewrite !zlen_app; lia|exact L4]. }
    cbn [bind]. pose proof (rdn_range e O4) as RE. rewrite L4 in RE. change (256 ^ 4) with U32 in RE. set (v := rdn e) in *.
    assert (e = ben 4 v) as Ee by (rewrite <- (ben_rdn e O4); unfold zlen in L4; replace (length e) with 4%nat by lia; reflexivity).
    assert (be32 v = e) as E4 by (rewrite be32_ben; congruence).
    rewrite land_bit31 by exact RE. rewrite land_low31 by lia.
    assert (rd32_at buf 4 = Ok (rdn sx)) as -> by (rewrite EB at 1; apply rd32_at_split; lia).
    assert (slice buf 0 8 = Ok (pre ++ sx)) as ->.
    { rewrite EB at 1. rewrite (app_assoc pre). change ((pre ++ sx) ++ mid ++ t ++ e) with ([] ++ (pre ++ sx) ++ mid ++ t ++ e). apply slice_at; rewrite ?zlen_app; change (zlen (@nil Z)) with 0; lia. }
    assert (0 <= rdn sx < U32) as RS by (pose proof (rdn_range sx O2) as R; rewrite L2 in R; exact R).
    cbn [bind]. rewrite gcm_rtcp_iv_rfc by (assumption || (unfold U32; dlia)). set (i := v mod 2147483648). assert (0 <= i < 2147483648) as RI by (unfold i; dlia).
    set (iv := ben 12 _). pose proof (zlen_nonneg mid) as NM.
    assert (rep 0 (zlen buf - 16 - 4) = rep 0 8 ++ rep 0 (zlen mid) :> list Z) as -> by (rewrite <- !rep_app by lia; f_equal; lia).
    unfold U32 in RE. destruct (2147483648 <=? v) eqn:EV.
    + assert (v = 2147483648 + i) as Ev by (unfold i; dlia).
      assert (slice buf 8 (zlen buf - 4) = Ok (mid ++ t)) as ->.
      { rewrite EB at 1. rewrite (app_assoc mid), (app_assoc pre). apply slice_at; rewrite !zlen_app; lia. } cbn [bind].
      rewrite blit_front by (rewrite zlen_rep, zlen_app by lia; lia). cbn [bind]. rewrite from_at by (rewrite zlen_app; lia). cbn [bind].
      unfold gcm_decrypt. rewrite zlen_app. replace (zlen mid + zlen t <? 16) with false by lia. cbn [concat]. rewrite !app_nil_r, E4.
      assert (forall q, unseal P key iv ((pre ++ sx) ++ e) (mid ++ t) = Some q <-> bytes_ok q /\ buf = (pre ++ sx) ++ seal P key iv ((pre ++ sx) ++ e) q ++ e) as UQ.
      { intro q. rewrite HU. split; intros [OQ EQ]; split; try exact OQ.
        - rewrite EQ, EB, <- !app_assoc. reflexivity.
        - rewrite EB, <- !app_assoc in EQ. do 2 apply app_inv_head in EQ. rewrite (app_assoc mid) in EQ. apply app_inv_tail in EQ. rewrite app_assoc in EQ. congruence. }
      destruct (unseal P key iv ((pre ++ sx) ++ e) (mid ++ t)) as [q|] eqn:EU.
      * destruct (proj1 (UQ q) eq_refl) as [OQ EQ]. assert (zlen q = zlen mid) as LQ.
        { destruct (HSeal key iv ((pre ++ sx) ++ e) q) as [LS _]. apply (f_equal (@zlen Z)) in EQ. rewrite !zlen_app, LS in EQ. lia. }
        rewrite blit_whole by (rewrite zlen_rep by lia; lia). cbn [bind].
        rewrite blit_tail by (rewrite ?zlen_app, ?zlen_rep by lia; lia). cbn [bind]. rewrite <- (app_nil_r ((pre ++ sx) ++ q)).
        rewrite firstn_at by (rewrite !zlen_app; lia).
        eexists. split; [reflexivity|]. intro p. split.
        -- intros [= <-]. split; [rewrite !bytes_ok_app; tauto|]. exists pre, sx, q, i. spl; try lia; [rewrite <- app_assoc; reflexivity|]. left. fold iv. rewrite <- Ev, <- Ee. exact EQ.
        -- intros (OP & pre' & sx' & rest & i' & L1' & L2' & -> & RI' & [EQ'|EQ']).
           ++ assert (zlen rest = zlen mid) as LL.
              { match type of EQ' with _ = _ ++ seal P key ?iv0 ?a0 ?q0 ++ _ => destruct (HSeal key iv0 a0 q0) as [LS _] end. apply (f_equal (@zlen Z)) in EQ'. rewrite !zlen_app, LS, ben_zlen in EQ'. lia. }
              pose proof EQ' as EQ2. rewrite EB, <- !app_assoc in EQ2. apply app_inj_len in EQ2 as [<- EQ2]; [|lia]. apply app_inj_len in EQ2 as [<- EQ2]; [|lia].
              rewrite (app_assoc mid) in EQ2. apply app_inj_len in EQ2 as [EQ2 EQ3].
              2:{ match goal with |- _ = zlen (seal P key ?iv0 ?a0 ?q0) => destruct (HSeal key iv0 a0 q0) as [LS _] end. rewrite LS, zlen_app. lia. }
              rewrite Ee in EQ3. apply ben4_inj in EQ3; [|unfold U32; lia|unfold U32; lia]. assert (i' = i) as -> by lia. fold iv in EQ'. rewrite <- Ev, <- Ee in EQ'.
              assert (Some q = Some rest) as [= ->] by (apply UQ; split; [rewrite !bytes_ok_app in OP; tauto|exact EQ']). rewrite <- ?app_assoc. reflexivity.
           ++ exfalso. rewrite !app_assoc in EQ'. rewrite EB, !app_assoc in EQ'. apply app_inj_tail_len in EQ'; [|rewrite ben_zlen; lia].
              rewrite Ee in EQ'. apply ben4_inj in EQ'; unfold U32; lia.
      * eexists. split; [reflexivity|]. intro p. split; [discriminate|].
        intros (OP & pre' & sx' & rest & i' & L1' & L2' & -> & RI' & [EQ'|EQ']); exfalso.
        -- pose proof EQ' as EQ2. rewrite !app_assoc in EQ2. rewrite EB, !app_assoc in EQ2. apply app_inj_tail_len in EQ2; [|rewrite ben_zlen; lia].
           rewrite Ee in EQ2. apply ben4_inj in EQ2; [|unfold U32; lia|unfold U32; lia]. assert (i' = i) as -> by lia.
           pose proof EQ' as EQ2'. rewrite EB, <- !app_assoc in EQ2'. apply app_inj_len in EQ2' as [<- EQ2']; [|lia]. apply app_inj_len in EQ2' as [<- EQ2']; [|lia].
           fold iv in EQ'. rewrite <- Ev, <- Ee in EQ'. assert (None = Some rest) by (apply UQ; split; [rewrite !bytes_ok_app in OP; tauto|exact EQ']). discriminate.
        -- rewrite !app_assoc in EQ'. rewrite EB, !app_assoc in EQ'. apply app_inj_tail_len in EQ'; [|rewrite ben_zlen; lia].
           rewrite Ee in EQ'. apply ben4_inj in EQ'; unfold U32; lia.
    + assert (v = i) as Ev by (unfold i; dlia).
      assert (slice buf (zlen buf - 4 - 16) (zlen buf - 4) = Ok t) as ->.
      { rewrite EB at 1. rewrite (app_assoc sx), (app_assoc pre). apply slice_at; rewrite !zlen_app; lia. } cbn [bind].
      assert (slice buf 0 (zlen buf - 4 - 16) = Ok (pre ++ sx ++ mid)) as ->.
      { rewrite EB at 1. rewrite (app_assoc sx), (app_assoc pre). change ((pre ++ sx ++ mid) ++ t ++ e) with ([] ++ (pre ++ sx ++ mid) ++ t ++ e). apply slice_at; rewrite ?zlen_app; change (zlen (@nil Z)) with 0; lia. } cbn [bind].
      assert (from buf (zlen buf - 4) = Ok e) as ->.
      { rewrite EB at 1. rewrite (app_assoc mid), (app_assoc sx), (app_assoc pre). apply from_at. rewrite !zlen_app. lia. } cbn [bind].
      rewrite blit_front by (rewrite zlen_rep, zlen_app by lia; lia). cbn [bind]. rewrite from_at by (rewrite zlen_app; lia). cbn [bind].
      unfold gcm_decrypt. replace (zlen t <? 16) with false by lia. cbn [concat]. rewrite app_nil_r.
      set (aad := (pre ++ sx ++ mid) ++ e).
      assert (forall q, unseal P key iv aad t = Some q -> q = []) as UE.
      { intros q EU. apply HU in EU as [_ EU]. apply zlen_0. destruct (HSeal key iv aad q) as [LS _]. rewrite EU in LS. pose proof (zlen_nonneg q). lia. }
      destruct (unseal P key iv aad t) as [q|] eqn:EU.
      * assert (q = []) as -> by (apply UE; reflexivity). apply HU in EU as [_ EU].
        assert (blit (rep 0 (zlen mid)) 0 [] = Ok (rep 0 (zlen mid))) as ->.
        { change (rep 0 (zlen mid)) with ([] ++ rep 0 (zlen mid) : list Z) at 1. rewrite blit_front by reflexivity. reflexivity. } cbn [bind].
        rewrite blit_tail by (rewrite ?zlen_app, ?zlen_rep by lia; lia). cbn [bind].
        rewrite blit_whole by (rewrite !zlen_app, zlen_rep by lia; lia). cbn [bind].
        eexists. split; [reflexivity|]. intro p. split.
        -- intros [= <-]. split; [rewrite !bytes_ok_app; tauto|]. exists pre, sx, mid, i. spl; try lia; [reflexivity|]. right. fold iv. rewrite <- Ev, <- Ee.
           rewrite <- (app_assoc pre sx). replace ((pre ++ sx) ++ mid ++ e) with aad by (unfold aad; rewrite <- !app_assoc; reflexivity).
           replace (pre ++ sx ++ mid ++ e) with aad by (unfold aad; rewrite <- !app_assoc; reflexivity). rewrite EU. exact EB.
        -- intros (OP & pre' & sx' & rest & i' & L1' & L2' & -> & RI' & [EQ'|EQ']).
           ++ exfalso. rewrite !app_assoc in EQ'. rewrite EB, !app_assoc in EQ'. apply app_inj_tail_len in EQ'; [|rewrite ben_zlen; lia].
              rewrite Ee in EQ'. apply ben4_inj in EQ'; unfold U32; lia.
           ++ assert (zlen rest = zlen mid) as LL.
              { match type of EQ' with _ = _ ++ _ ++ seal P key ?iv0 ?a0 ?q0 ++ _ => destruct (HSeal key iv0 a0 q0) as [LS _] end. apply (f_equal (@zlen Z)) in EQ'. rewrite !zlen_app, LS, ben_zlen in EQ'. change (zlen (@nil Z)) with 0 in EQ'. lia. }
              rewrite EB, <- !app_assoc in EQ'. apply app_inj_len in EQ' as [<- EQ']; [|lia]. apply app_inj_len in EQ' as [<- EQ']; [|lia]. apply app_inj_len in EQ' as [<- EQ']; [|lia]. reflexivity.
      * eexists. split; [reflexivity|]. intro p. split; [discriminate|].
        intros (OP & pre' & sx' & rest & i' & L1' & L2' & -> & RI' & [EQ'|EQ']); exfalso.
        -- rewrite !app_assoc in EQ'. rewrite EB, !app_assoc in EQ'. apply app_inj_tail_len in EQ'; [|rewrite ben_zlen; lia].
           rewrite Ee in EQ'. apply ben4_inj in EQ'; unfold U32; lia.
        -- assert (zlen rest = zlen mid) as LL.
           { match type of EQ' with _ = _ ++ _ ++ seal P key ?iv0 ?a0 ?q0 ++ _ => destruct (HSeal key iv0 a0 q0) as [LS _] end. apply (f_equal (@zlen Z)) in EQ'. rewrite !zlen_app, LS, ben_zlen in EQ'. change (zlen (@nil Z)) with 0 in EQ'. lia. }
           rewrite EB, <- !app_assoc in EQ'. apply app_inj_len in EQ' as [<- EQ']; [|lia]. apply app_inj_len in EQ' as [<- EQ']; [|lia]. apply app_inj_len in EQ' as [<- EQ']; [|lia].
           apply app_inj_len in EQ' as [EQ' EQ3].
           2:{ match goal with |- _ = zlen (seal P key ?iv0 ?a0 ?q0) => destruct (HSeal key iv0 a0 q0) as [LS _] end. rewrite LS. change (zlen (@nil Z)) with 0. lia. }
           rewrite <- EQ3 in EQ'. rewrite Ee in EQ3. apply ben4_inj in EQ3; [|unfold U32; lia|unfold U32; lia]. assert (i' = i) as -> by lia. fold iv in EQ'.
           replace (pre ++ sx ++ mid ++ e) with aad in EQ' by (unfold aad; rewrite <- !app_assoc; reflexivity).
           assert (unseal P key iv aad t = Some []) by (apply HU; split; [constructor|congruence]). congruence.
Qed.

(** The SRTP functions compute exactly the RFC packets. *)
From Verif Require Import Base BaseFacts SrtpModel SrtpSpec HeaderModel SrtpProofs.

Lemma from_at (a b : list Z) n : n = zlen a -> from (a ++ b) n = Ok b.
Proof. intros ->. apply from_app. Qed.
Lemma upto_at (a b : list Z) n : n = zlen a -> upto (a ++ b) n = Ok a.
Proof. intros ->. apply upto_app. Qed.
Lemma slice_at (a b c : list Z) n m : n = zlen a -> m = zlen a + zlen b -> slice (a ++ b ++ c) n m = Ok b.
Proof. intros -> ->. apply slice_mid. Qed.
Lemma blit_at' a m b s n : n = zlen a -> zlen s = zlen m -> blit (a ++ m ++ b) n s = Ok (a ++ s ++ b).
Proof. intros ->. apply blit_at. Qed.
Lemma firstn_at (a b : list Z) n : n = zlen a -> firstn (Z.to_nat n) (a ++ b) = a.
Proof. intros ->. replace (Z.to_nat (zlen a)) with (length a) by (unfold zlen; lia). rewrite firstn_app, firstn_all, Nat.sub_diag, firstn_O. apply app_nil_r. Qed.
Lemma roc_ben i : 0 <= i < 2 ^ 48 -> be32 (roc_of i) = ben 4 (i / 2 ^ 16).
Proof. intro. unfold roc_of, U32. change (2 ^ 48) with 281474976710656 in *. change (2 ^ 16) with 65536. rewrite Z.mod_small by dlia. apply be32_ben. Qed.

Lemma protect_conforms P c hdr payload h i : prims_ok P -> derived_ok (c_rtp c) ->
  12 <= zlen hdr -> header_len h = zlen hdr -> 0 <= ssrc h < U32 -> 0 <= i < 2 ^ 48 -> sequence_number h = i mod 65536 ->
  protect_rtp P c (hdr ++ payload) h i = Ok (srtp_packet P (c_rtp c) hdr payload (ssrc h) i).
Proof.
  intros HP HD HL HH HS HI HQ. unfold protect_rtp. rewrite HH, from_at by reflexivity. cbn [bind].
  pose proof (zlen_nonneg payload) as NP. destruct (c_rtp c) as [auth salt key|salt key]; cbn [derived_ok srtp_packet] in *; destruct HD as [L B].
  - rewrite cm_iv_rfc by (assumption || (change (2 ^ 48) with 281474976710656 in HI; unfold U64; lia)).
    set (iv := ben 16 _). set (ct := ctr P key iv payload). assert (zlen ct = zlen payload) as LC by (apply ctr_len; exact HP).
    cbn zeta. change (Z.max 0 (15 - 10)) with 5.
    replace (rep 0 (zlen (hdr ++ payload) + 10 + 5)) with (rep 0 (zlen hdr) ++ rep 0 (zlen payload) ++ (rep 0 10 ++ rep 0 5) : list Z)
      by (rewrite zlen_app, <- !rep_app by lia; f_equal; lia).
    rewrite (blit_at' (rep 0 (zlen hdr))) by (rewrite zlen_rep by lia; lia). cbn [bind]. rewrite upto_at by reflexivity. cbn [bind].
    rewrite blit_front by (rewrite zlen_rep by lia; lia). cbn [bind]. unfold rtp_hmac.
    rewrite app_assoc. rewrite upto_at by (rewrite !zlen_app; lia). cbn [bind]. rewrite tag10_ok by exact HP. cbn [bind].
    rewrite roc_ben by exact HI. set (t := firstn 10 _). assert (zlen t = 10) as LT by (apply tag_zlen; exact HP).
    rewrite blit_at' by (rewrite ?zlen_app, ?LT; lia || reflexivity). cbn [bind]. f_equal. rewrite (app_assoc _ t).
    apply firstn_at. rewrite !zlen_app. lia.
  - rewrite HQ, gcm_iv_rfc by assumption. set (iv := ben 12 _). rewrite upto_at by reflexivity. cbn [bind].
    replace (rep 0 (zlen (hdr ++ payload) + 16)) with (rep 0 (zlen hdr) ++ rep 0 (zlen payload + 16) : list Z)
      by (rewrite zlen_app, <- !rep_app by lia; f_equal; lia).
    rewrite from_at by (rewrite zlen_rep by lia; reflexivity). cbn [bind]. unfold gcm_encrypt. replace (zlen hdr <? 12) with false by lia.
    destruct HP as (_ & _ & HSeal & _). destruct (HSeal key iv hdr payload) as [LS _].
    rewrite <- (app_nil_r (rep 0 (zlen payload + 16))). rewrite blit_front by (rewrite zlen_rep by lia; lia). cbn [bind]. rewrite !app_nil_r. rewrite <- (app_nil_r (rep 0 (zlen payload + 16))).
    rewrite (blit_at' (rep 0 (zlen hdr))) by (rewrite ?zlen_rep by lia; lia). cbn [bind].
    rewrite blit_front by (rewrite zlen_rep by lia; reflexivity). rewrite app_nil_r. reflexivity.
Qed.

Lemma blit_over dst s : zlen s <= zlen dst -> exists y, blit dst 0 s = Ok (s ++ y) /\ zlen y = zlen dst - zlen s.
Proof.
  intro H. destruct (split3 dst 0 (zlen s)) as (x & m & y & E & X & M & Y); [lia|apply zlen_nonneg|lia|]. apply zlen_0 in X. subst x. cbn [app] in E.
  exists y. rewrite E, blit_front by lia. rewrite <- E. split; [reflexivity|lia].
Qed.
Lemma zlen_resize l n : 0 <= n -> zlen (resize l n) = n.
Proof.
  intro. unfold resize. rewrite zlen_app, zlen_firstn. unfold rep. rewrite zlen_repeat. pose proof (zlen_nonneg l). lia.
Qed.
Lemma split2 (l : list Z) a : 0 <= a <= zlen l -> exists x y, l = x ++ y /\ zlen x = a /\ zlen y = zlen l - a.
Proof. intro H. destruct (split3 l 0 a) as (x & m & y & E & X & M & Y); try lia. apply zlen_0 in X. subst x. exists m, y. cbn in E. spl; try assumption; lia. Qed.
Lemma app_inj_len (a b x y : list Z) : zlen a = zlen x -> a ++ b = x ++ y -> a = x /\ b = y.
Proof.
  intros L E. assert (firstn (length a) (a ++ b) = firstn (length a) (x ++ y)) as F by (rewrite E; reflexivity).
  assert (length a = length x) as L' by (unfold zlen in L; lia). rewrite L' in F at 2.
  rewrite !firstn_app, !firstn_all, !Nat.sub_diag, !firstn_O, !app_nil_r in F. subst x. split; [reflexivity|]. apply app_inv_head in E. exact E.
Qed.

Lemma unprotect_rtp_run P c buf h i : prims_ok P -> derived_ok (c_rtp c) -> bytes_ok buf ->
  0 <= header_len h -> 0 <= ssrc h < U32 -> 0 <= i < 2 ^ 48 -> sequence_number h = i mod 65536 ->
  exists r sc, unprotect_rtp P c buf h i = Ok (r, sc) /\
    (forall p, r = Some p <-> bytes_ok p /\ exists hdr, zlen hdr = header_len h /\ buf = srtp_packet P (c_rtp c) hdr p (ssrc h) i).
Proof.
  intros HP HD OB HH HS HI HQ. unfold unprotect_rtp. destruct (c_rtp c) as [auth salt key|salt key]; cbn [derived_ok srtp_packet] in *; destruct HD as [L B].
  - rewrite cm_iv_rfc by (assumption || (change (2 ^ 48) with 281474976710656 in HI; unfold U64; lia)). set (iv := ben 16 _).
    destruct (zlen buf <? header_len h + 10) eqn:E.
    { do 2 eexists. split; [reflexivity|]. intro p. split; [discriminate|]. intros (_ & hdr & HL & ->). exfalso.
      rewrite !zlen_app, tag_zlen in E by exact HP. pose proof (zlen_nonneg (ctr P key iv p)). lia. }
    destruct (split3 buf (header_len h) (zlen buf - header_len h - 10)) as (hdr & ct & t & EB & L1 & L2 & L3); try lia.
    assert (zlen t = 10) as LT by lia. clear L3. cbn zeta.
    assert (upto buf (zlen buf - 10) = Ok (hdr ++ ct)) as -> by (rewrite EB, app_assoc; apply upto_at; rewrite !zlen_app; lia). cbn [bind].
    assert (from buf (zlen buf - 10) = Ok t) as -> by (rewrite EB, app_assoc; apply from_at; rewrite !zlen_app; lia). cbn [bind]. unfold rtp_verify. rewrite tag10_ok by exact HP. cbn [bind].
    rewrite roc_ben by exact HI. destruct (eqb_list _ t) eqn:ET; cbn [negb].
    + apply eqb_list_spec in ET. assert (slice buf (header_len h) (zlen buf - 10) = Ok ct) as -> by (rewrite EB; apply slice_at; rewrite ?zlen_app; lia). cbn [bind].
      destruct (blit_over (resize (c_scratch c) (zlen ct + 15)) (ctr P key iv ct)) as (y & BE & LY).
      { rewrite zlen_resize, ctr_len by (assumption || (pose proof (zlen_nonneg ct); lia)). lia. }
      rewrite BE. cbn [bind]. rewrite upto_at by (symmetry; apply ctr_len; exact HP). cbn [bind].
      do 2 eexists. split; [reflexivity|]. intro p. split.
      * intros [= <-]. assert (bytes_ok ct) as OC by (rewrite EB in OB; apply bytes_ok_app in OB as [_ OB]; apply bytes_ok_app in OB as [OB _]; exact OB).
        split; [apply ctr_ok; assumption|]. exists hdr. split; [lia|]. rewrite ctr_invol by exact HP. rewrite ET, <- app_assoc. exact EB.
      * intros (OP & hdr' & HL & EB'). f_equal. rewrite EB, <- app_assoc in EB'. apply app_inj_len in EB' as [-> EB']; [|lia].
        apply (f_equal (@zlen Z)) in EB' as LE. rewrite !zlen_app, tag_zlen, ctr_len in LE by exact HP.
        apply app_inj_len in EB' as [-> _]; [apply ctr_invol; exact HP|rewrite ctr_len by exact HP; lia].
    + do 2 eexists. split; [reflexivity|]. intro p. split; [discriminate|]. intros (OP & hdr' & HL & EB'). exfalso.
      assert (zlen p = zlen ct) as LE. { apply (f_equal (@zlen Z)) in EB' as LE. rewrite !zlen_app, tag_zlen, ctr_len in LE by exact HP. lia. }
      rewrite EB, <- app_assoc in EB'. apply app_inj_len in EB' as [-> EB']; [|lia]. apply app_inj_len in EB' as [-> EB']; [|rewrite ctr_len by exact HP; lia].
      rewrite EB' in ET. assert (eqb_list (firstn 10 (hmac P auth ((hdr' ++ ctr P key iv p) ++ ben 4 (i / 2 ^ 16)))) (firstn 10 (hmac P auth ((hdr' ++ ctr P key iv p) ++ ben 4 (i / 2 ^ 16)))) = true) by (apply eqb_list_spec; reflexivity). congruence.
  - rewrite HQ, gcm_iv_rfc by assumption. set (iv := ben 12 _).
    assert (forall p hdr, zlen (hdr ++ seal P key iv hdr p) = zlen hdr + zlen p + 16) as LZ.
    { intros p hdr. destruct HP as (_ & _ & HSeal & _). destruct (HSeal key iv hdr p) as [LS _]. rewrite zlen_app. lia. }
    destruct (zlen buf <? header_len h + 16) eqn:E.
    { do 2 eexists. split; [reflexivity|]. intro p. split; [discriminate|]. intros (_ & hdr & HL & ->). exfalso. rewrite LZ in E. pose proof (zlen_nonneg p). lia. }
    destruct (split2 buf (header_len h)) as (hdr & inp & EB & L1 & L2); [lia|]. cbn zeta.
    assert (upto buf (header_len h) = Ok hdr) as -> by (rewrite EB; apply upto_at; lia). cbn [bind].
    assert (from buf (header_len h) = Ok inp) as -> by (rewrite EB; apply from_at; lia). cbn [bind]. unfold gcm_decrypt. replace (zlen inp <? 16) with false by lia. cbn [concat]. rewrite app_nil_r.
    pose proof HP as (_ & _ & HSeal & HU). destruct (unseal P key iv hdr inp) as [p|] eqn:EU.
    + apply HU in EU as [OP EU]. assert (zlen inp = zlen p + 16) as LI by (rewrite <- EU; apply HSeal).
      destruct (blit_over (resize (c_scratch c) (zlen inp - 16)) p) as (y & BE & LY); [rewrite zlen_resize by lia; lia|]. rewrite zlen_resize in LY by lia.
      assert (y = []) as -> by (apply zlen_0; lia). rewrite app_nil_r in BE. rewrite BE. cbn [bind].
      replace (upto p (zlen inp - 16)) with (Ok p) by (symmetry; rewrite <- (app_nil_r p) at 1; apply upto_at; lia). cbn [bind].
      do 2 eexists. split; [reflexivity|]. intro q. split.
      * intros [= <-]. split; [exact OP|]. exists hdr. split; [lia|]. rewrite EU. exact EB.
      * intros (OQ & hdr' & HL & EB'). f_equal. rewrite EB in EB'. apply app_inj_len in EB' as [-> EB']; [|lia].
        assert (unseal P key iv hdr' inp = Some p) as U1 by (apply HU; split; assumption). assert (unseal P key iv hdr' inp = Some q) as U2 by (apply HU; split; [assumption|congruence]). congruence.
    + do 2 eexists. split; [reflexivity|]. intro q. split; [discriminate|]. intros (OQ & hdr' & HL & EB'). exfalso. rewrite EB in EB'. apply app_inj_len in EB' as [-> EB']; [|lia].
      assert (unseal P key iv hdr' inp = Some q) as U2 by (apply HU; split; [assumption|congruence]). congruence.
Qed.

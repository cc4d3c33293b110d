From Verif Require Import Base BaseFacts Brute BufRxSpec Vp8Model Vp8Spec Vp8Proofs H264Model H264Spec H264Proofs.

Lemma sets_fit_incl mtu a b : incl a b -> sets_fit mtu b -> sets_fit mtu a.
Proof. intros I S x y Hx Hy. apply S; apply I; assumption. Qed.
Lemma prefix_framed avc (n : list Z) : zlen n < U32 -> prefix avc (zlen n) = (if avc then be32 (zlen n) else start_code).
Proof. intro H. unfold prefix. pose proof (zlen_nonneg n). rewrite Z.mod_small by lia. reflexivity. Qed.
Lemma framed_app avc a b : framed avc (a ++ b) = framed avc a ++ framed avc b.
Proof. unfold framed. rewrite map_app, concat_app. reflexivity. Qed.
Lemma framed_cons avc n ns : framed avc (n :: ns) = ((if avc then be32 (zlen n) else start_code) ++ n) ++ framed avc ns.
Proof. reflexivity. Qed.

(** one unit that is neither dropped nor held *)
Lemma unit_round avc mtu n out x : nal n -> 3 <= mtu -> zlen n < U32 ->
  let ps := match n with b0 :: data => if zlen n <=? mtu then [n] else fua mtu b0 data | [] => [] end in
  feed h264_depacketize (mkHd avc None) ps out x = (mkHd avc None, Some (out ++ framed avc [n], mark_key (ty n) x)) /\
  Forall (fun p => 0 < zlen p <= mtu) ps /\ existsb detect_h264_keyframe ps = (ty n =? 5).
Proof.
  intros N M L. destruct N as (BO & (b & r & -> & B & T) & _). cbv zeta. pose proof (Forall_inv BO) as Bb. unfold byte_ok in Bb.
  destruct (zlen (b :: r) <=? mtu) eqn:Q.
  - split; [|split].
    + cbn [feed]. unfold h264_depacketize. destruct ((1 <=? nal_type b) && (nal_type b <=? 23)) eqn:Q2; [|lia]. cbn [is_avc ty].
      rewrite prefix_framed by exact L. unfold framed. cbn [map concat]. rewrite app_nil_r. reflexivity.
    + constructor; [|constructor]. rewrite zlen_cons in *. pose proof (zlen_nonneg r). lia.
    + cbn [existsb]. unfold detect_h264_keyframe. destruct ((1 <=? nal_type b) && (nal_type b <=? 23)) eqn:Q2; [|lia]. cbn [ty]. apply orb_false_r.
  - rewrite zlen_cons in Q. destruct (fua_round avc mtu b r out x ltac:(lia) M ltac:(lia)) as (A & A2 & A3 & _). split; [|split; assumption].
    rewrite A. cbn [ty]. replace (zlen r + 1) with (zlen (b :: r)) by (rewrite zlen_cons; lia). rewrite prefix_framed by exact L.
    unfold framed. cbn [map concat]. rewrite app_nil_r. reflexivity.
Qed.

Lemma emits_ok avc mtu : 3 <= mtu -> forall ns s p st pkts h ds out x, Forall nal ns -> Forall (fun n => zlen n < U32) ns -> holds s p ->
  sets_fit mtu (olist s ++ olist p ++ ns) -> emits (mkHp s p) ns mtu = (st, pkts) -> deliver s p ns = (h, ds) ->
  st = mkHp (fst h) (snd h) /\ holds (fst h) (snd h) /\
  feed h264_depacketize (mkHd avc None) pkts out x = (mkHd avc None, Some (out ++ framed avc ds, marks x ds)) /\
  Forall (fun q => 0 < zlen q <= mtu) pkts /\ existsb detect_h264_keyframe pkts = existsb (fun n => ty n =? 5) ds.
Proof.
  intro M. induction ns as [|n ns IH]; intros s p st pkts h ds out x F LL HO SF E D.
  { cbn in E, D. injection E as <- <-. injection D as <- <-. cbn. rewrite app_nil_r. auto. }
  pose proof (Forall_inv F) as N. pose proof (Forall_inv_tail F) as F'. pose proof (Forall_inv LL) as L. pose proof (Forall_inv_tail LL) as LL'.
  cbn [emits] in E. cbn [deliver] in D. destruct n as [|b r]; [destruct N as (_ & (? & ? & ? & _) & _); discriminate|].
  change (ty (b :: r)) with (nal_type b) in D. unfold emit in E. cbv beta zeta iota in E. cbn [sps pps] in E.
  destruct ((nal_type b =? 9) || (nal_type b =? 12)) eqn:Q1.
  { destruct (emits (mkHp s p) ns mtu) as [st2 qs] eqn:E2. cbn [app] in E. injection E as <- <-.
    eapply (IH s p); eauto. eapply sets_fit_incl; [|exact SF]. intros y Hy. rewrite !in_app_iff in *. cbn. tauto. }
  destruct (nal_type b =? 7) eqn:Q2.
  { destruct (emits (mkHp (Some (b :: r)) p) ns mtu) as [st2 qs] eqn:E2. cbn [app] in E. injection E as <- <-.
    eapply (IH (Some (b :: r)) p); eauto.
    - split; [|apply HO]. constructor; [|constructor]. split; [exact N|cbn; lia].
    - eapply sets_fit_incl; [|exact SF]. intros y Hy. rewrite !in_app_iff in *. cbn in *. tauto. }
  destruct (nal_type b =? 8) eqn:Q3.
  { destruct (emits (mkHp s (Some (b :: r))) ns mtu) as [st2 qs] eqn:E2. cbn [app] in E. injection E as <- <-.
    eapply (IH s (Some (b :: r))); eauto.
    - split; [apply HO|]. constructor; [|constructor]. split; [exact N|cbn; lia].
    - eapply sets_fit_incl; [|exact SF]. intros y Hy. rewrite !in_app_iff in *. cbn in *. tauto. }
  destruct s as [a|]; [destruct p as [c|]|].
  - destruct HO as [HA HC]. pose proof (Forall_inv HA) as [NA TA]. pose proof (Forall_inv HC) as [NC TC].
    destruct (SF a c ltac:(cbn; auto) ltac:(cbn; auto) TA TC) as (S1 & S2 & S3).
    assert (zlen (stap_a a c) = 5 + zlen a + zlen c) as SL. { unfold stap_a. rewrite !zlen_app. change (zlen [120]) with 1. assert (forall v, zlen (be16 v) = 2) as BE by reflexivity. rewrite !BE. lia. }
    rewrite SL in E. destruct (5 + zlen a + zlen c <=? mtu) eqn:Q4; [|lia].
    destruct (emits (mkHp None None) ns mtu) as [st2 qs] eqn:E2. injection E as <- <-.
    destruct (deliver None None ns) as [h2 d2] eqn:D2. injection D as <- <-.
    destruct (unit_round avc mtu (b :: r) (out ++ framed avc [a; c]) (mark_key (ty c) (mark_key (ty a) x)) N M L) as (U1 & U2 & U3).
    edestruct (IH None None st2 qs h2 d2) as (I0 & I1 & I2 & I3 & I4); eauto.
    { split; constructor. }
    { eapply sets_fit_incl; [|exact SF]. intros y Hy. cbn in *. tauto. }
    split; [exact I0|]. split; [exact I1|].
    assert (a <> [] /\ c <> []) as [NEa NEc] by (destruct NA as (_ & (? & ? & -> & _) & _), NC as (_ & (? & ? & -> & _) & _); split; discriminate).
    destruct (stap_round avc a c out x NEa NEc ltac:(unfold U16; lia) ltac:(unfold U16; lia)) as [ST SD].
    split; [|split].
    + cbn [app feed]. rewrite ST. rewrite !prefix_framed by (unfold U32; lia).
      replace (out ++ (if avc then be32 (zlen a) else start_code) ++ a ++ (if avc then be32 (zlen c) else start_code) ++ c) with (out ++ framed avc [a; c])
        by (unfold framed; cbn [map concat]; rewrite <- !app_assoc, app_nil_r; reflexivity).
      rewrite feed_app. rewrite U1. rewrite I2. unfold marks. cbn [fold_left]. f_equal. f_equal. f_equal.
      rewrite <- !app_assoc. f_equal. rewrite <- !framed_app. reflexivity.
    + cbn [app]. constructor; [rewrite SL; pose proof (zlen_nonneg a); pose proof (zlen_nonneg c); lia|]. apply Forall_app. split; assumption.
    + cbn [app existsb]. rewrite existsb_app, U3, I4, SD. rewrite TA, TC. cbn [ty]. reflexivity.
  - destruct (emits (mkHp (Some a) None) ns mtu) as [st2 qs] eqn:E2. cbn [app] in E. injection E as <- <-.
    destruct (deliver (Some a) None ns) as [h2 d2] eqn:D2. injection D as <- <-.
    destruct (unit_round avc mtu (b :: r) out x N M L) as (U1 & U2 & U3).
    edestruct (IH (Some a) None st2 qs h2 d2) as (I0 & I1 & I2 & I3 & I4); eauto.
    { eapply sets_fit_incl; [|exact SF]. intros y Hy. cbn in *. tauto. }
    split; [exact I0|]. split; [exact I1|]. split; [|split].
    + rewrite feed_app. rewrite U1, I2. unfold marks. cbn [fold_left]. f_equal. f_equal. f_equal. rewrite <- app_assoc. f_equal.
      rewrite <- framed_app. reflexivity.
    + apply Forall_app. split; assumption.
    + rewrite existsb_app, U3, I4. reflexivity.
  - destruct (emits (mkHp None p) ns mtu) as [st2 qs] eqn:E2. cbn [app] in E. injection E as <- <-.
    destruct (deliver None p ns) as [h2 d2] eqn:D2. injection D as <- <-.
    destruct (unit_round avc mtu (b :: r) out x N M L) as (U1 & U2 & U3).
    edestruct (IH None p st2 qs h2 d2) as (I0 & I1 & I2 & I3 & I4); eauto.
    { eapply sets_fit_incl; [|exact SF]. intros y Hy. rewrite !in_app_iff in *. cbn in *. tauto. }
    split; [exact I0|]. split; [exact I1|]. split; [|split].
    + rewrite feed_app. rewrite U1, I2. unfold marks. cbn [fold_left]. f_equal. f_equal. f_equal. rewrite <- app_assoc. f_equal.
      rewrite <- framed_app. reflexivity.
    + apply Forall_app. split; assumption.
    + rewrite existsb_app, U3, I4. reflexivity.
Qed.

Lemma marks_some ns : forall k, marks (Some k) ns = Some (k || existsb (fun n => ty n =? 5) ns).
Proof.
  induction ns as [|n ns IH]; intro k; [cbn; rewrite orb_false_r; reflexivity|]. change (marks (Some k) (n :: ns)) with (marks (Some ((ty n =? 5) || k)) ns). rewrite IH. cbn [existsb].
  f_equal. rewrite orb_assoc, (orb_comm k). reflexivity.
Qed.
Lemma marks_none ns : marks None ns = match ns with [] => None | _ => Some (existsb (fun n => ty n =? 5) ns) end.
Proof. destruct ns as [|n ns]; [reflexivity|]. change (marks None (n :: ns)) with (marks (Some (ty n =? 5)) ns). apply marks_some. Qed.

Lemma paired_deliver ns : paired ns -> deliver None None ns = ((None, None), ns).
Proof.
  induction 1 as [|n r NI _ IH|a b n r TA TB NI _ IH]; [reflexivity| |].
  - cbn [deliver]. cbn [In] in NI. repeat match goal with |- context [ty n =? ?v] => destruct (ty n =? v) eqn:?; [exfalso; apply NI; lia|] end. cbn [orb].
    rewrite IH. reflexivity.
  - cbn [deliver]. rewrite TA, TB. cbn [In] in NI. cbn.
    repeat match goal with |- context [ty n =? ?v] => destruct (ty n =? v) eqn:?; [exfalso; apply NI; lia|] end. cbn [orb]. rewrite IH. reflexivity.
Qed.

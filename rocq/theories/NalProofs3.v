From Verif Require Import Base BaseFacts Brute BufRxSpec Vp8Model Vp8Spec Vp8Proofs H264Model H264Spec H264Proofs NalModel NalSpec NalProofs NalProofs2.

(** ** Aggregates *)
Fixpoint apw (d : option Z) (first : bool) (ns : list (list Z)) : list Z :=
  match ns with
  | [] => []
  | n :: r => (if first then donl_bytes d else if dn d then [0] else []) ++ be16 (zlen n) ++ n ++ apw d false r
  end.
Lemma hd2_app n r : 2 <= zlen n -> hd2 (n ++ r) = hd2 n.
Proof. intro L. destruct n as [|? [|? ?]]; try (cbn in L; lia). reflexivity. Qed.
Lemma cut_unit n (r : list Z) : zlen n < U16 -> 
  (zlen (n ++ r) <? zlen n) = false /\ firstn (Z.to_nat (zlen n)) (n ++ r) = n /\ skipn (Z.to_nat (zlen n)) (n ++ r) = r /\
  Z.lor (Z.shiftl (zlen n / 256 mod 256) 8) (zlen n mod 256) = zlen n.
Proof.
  intro L. pose proof (zlen_nonneg n). pose proof (zlen_nonneg r). rewrite firstn_zlen, skipn_zlen. rewrite zlen_app. repeat split; [lia|]. apply lor16. lia.
Qed.
Definition small (n : list Z) : Prop := zlen n < U16.

Lemma ap_units_ok d max : max < U16 -> forall ns first buf r, ap_units d first buf ns max = Some r -> zlen buf <= max ->
  r = buf ++ match ns with [] => [] | _ => skipn (if first then Z.to_nat (donl_size d) else 0) (apw d first ns) end /\ Forall small ns /\ zlen r <= max.
Proof.
  intro M. induction ns as [|n ns IH]; intros first buf r E B.
  { cbn in E. injection E as <-. rewrite app_nil_r. auto. }
  cbn [ap_units] in E. cbv zeta in E.
  destruct (max <? zlen _) eqn:Q; [discriminate|]. apply Z.ltb_ge in Q.
  assert (zlen n < U16) as SN. { rewrite !zlen_app in Q. pose proof (zlen_nonneg buf). pose proof (zlen_nonneg (if match d with Some _ => true | None => false end && negb first then [0] else [])). pose proof (zlen_nonneg (be16 (zlen n mod U16))). lia. }
  pose proof (zlen_nonneg n). rewrite (Z.mod_small (zlen n)) in * by lia.
  destruct (IH false _ _ E Q) as (I1 & I2 & I3). split; [|split; [constructor; assumption|exact I3]].
  rewrite I1. rewrite <- !app_assoc. f_equal. cbn [apw].
  assert (match ns with [] => [] | _ :: _ => skipn 0 (apw d false ns) end = apw d false ns) as -> by (destruct ns; reflexivity).
  destruct first; [|cbn [negb]; rewrite andb_true_r; cbn [skipn]; destruct d; reflexivity].
  rewrite andb_false_r. destruct d; reflexivity.
Qed.
Lemma ap_loop265_ok d : forall ns fuel first out x k, Forall (nalu Hevc) ns -> Forall small ns -> (length (apw d first ns) <= fuel)%nat ->
  ap_loop265 fuel (dn d) first (apw d first ns) out x k = (out ++ nframed ns, imarks Hevc x ns, k + zlen ns).
Proof.
  induction ns as [|n ns IH]; intros fuel first out x k N SM L.
  { cbn [apw]. replace (ap_loop265 fuel (dn d) first [] out x k) with (out, x, k) by (destruct fuel; reflexivity). rewrite app_nil_r. change (zlen (@nil (list Z))) with 0. rewrite Z.add_0_r. reflexivity. }
  pose proof (Forall_inv N) as (BN & LN & _). pose proof (Forall_inv SM) as S1. red in S1.
  destruct (cut_unit n (apw d false ns) S1) as (C1 & C2 & C3 & C4). cbn [apw] in L |- *.
  set (pre := if first then donl_bytes d else if dn d then [0] else []) in *.
  assert (zlen pre = (if dn d then if first then 2 else 1 else 0)) as ZP by (subst pre; destruct d, first; reflexivity).
  assert (forall l, skipn (Z.to_nat (if dn d then if first then 2 else 1 else 0)) (pre ++ l) = l) as SK by (intro l; rewrite <- ZP; apply skipn_zlen).
  rewrite !app_length in L. change (length (be16 (zlen n))) with 2%nat in L. destruct fuel as [|fuel]; [lia|].
  assert (exists a q, pre ++ be16 (zlen n) ++ n ++ apw d false ns = a :: q) as (a & q & E) by (destruct pre; [eexists _, _; reflexivity|eexists _, _; reflexivity]).
  cbn [ap_loop265]. rewrite E. rewrite <- E. replace (zlen (pre ++ _) <? _) with false by (rewrite <- ZP, zlen_app; pose proof (zlen_nonneg (be16 (zlen n) ++ n ++ apw d false ns)); lia).
  rewrite SK. unfold be16. cbn [app]. rewrite C4, C1, C2, C3. replace (2 <=? zlen n) with true by lia. rewrite mark_imark by (assumption || lia).
  rewrite IH; [|exact (Forall_inv_tail N)|exact (Forall_inv_tail SM)|lia]. rewrite (zlen_cons n). f_equal; [|lia]. f_equal.
  rewrite <- !app_assoc. f_equal.
Qed.
Lemma ap_others_ok d : forall ns fuel, Forall small ns -> (length (apw d false ns) <= fuel)%nat -> ap_others fuel (dn d) (apw d false ns) = ns.
Proof.
  induction ns as [|n ns IH]; intros fuel SM L.
  { cbn [apw]. destruct fuel; [reflexivity|]. destruct d; reflexivity. }
  pose proof (Forall_inv SM) as S1. red in S1. destruct (cut_unit n (apw d false ns) S1) as (C1 & C2 & C3 & C4). cbn [apw] in L |- *.
  rewrite !app_length in L. change (length (be16 (zlen n))) with 2%nat in L. destruct fuel as [|fuel]; [lia|].
  destruct d; cbn [dn]; cbn [ap_others].
  - replace (true && _) with false by (rewrite zlen_app; pose proof (zlen_nonneg (be16 (zlen n) ++ n ++ apw (Some z) false ns)); change (zlen [0]) with 1; lia).
    change (skipn 1 ([0] ++ be16 (zlen n) ++ n ++ apw (Some z) false ns)) with (be16 (zlen n) ++ n ++ apw (Some z) false ns). unfold be16. cbn [app]. rewrite C4, C1, C2, C3. f_equal. apply IH; [exact (Forall_inv_tail SM)|lia].
  - cbn [andb]. unfold be16. cbn [app]. rewrite C4, C1, C2, C3. f_equal. apply IH; [exact (Forall_inv_tail SM)|lia].
Qed.
Lemma ap_struct_ok d ns b0 b1 : (2 <= length ns)%nat -> Forall small ns -> ap_struct (dn d) (b0 :: b1 :: apw d true ns) = Some ns.
Proof.
  intros L SM. destruct ns as [|n ns]; [cbn in L; lia|]. pose proof (Forall_inv SM) as S1. red in S1. destruct (cut_unit n (apw d false ns) S1) as (C1 & C2 & C3 & C4).
  assert (ap_others (length (n ++ apw d false ns)) (dn d) (apw d false ns) = ns) as AO by (apply ap_others_ok; [exact (Forall_inv_tail SM)|rewrite app_length; lia]).
  destruct ns as [|m ns]; [cbn in L; lia|]. remember (m :: ns) as ms eqn:EM. unfold ap_struct. change (skipn 2 (b0 :: b1 :: apw d true (n :: ms))) with (apw d true (n :: ms)). cbn [apw].
  replace (dn d && _) with false by (rewrite zlen_app, zlen_donl; pose proof (zlen_nonneg (be16 (zlen n) ++ n ++ apw d false ms)); destruct d; cbn [dn donl_size andb]; [lia|reflexivity]).
  assert ((if dn d then skipn 2 (donl_bytes d ++ be16 (zlen n) ++ n ++ apw d false ms) else donl_bytes d ++ be16 (zlen n) ++ n ++ apw d false ms) = be16 (zlen n) ++ n ++ apw d false ms) as -> by (destruct d; reflexivity).
  unfold be16. cbn [app]. rewrite C4, C1, C2, C3, AO. subst ms. reflexivity.
Qed.
Definition apv (ns : list (list Z)) : list Z := concat (map (fun n => be16 (zlen n) ++ n) ns).
Lemma apv_cons n ns : apv (n :: ns) = zlen n / 256 mod 256 :: zlen n mod 256 :: n ++ apv ns.
Proof. reflexivity. Qed.
Lemma ap_loop266_ok : forall ns fuel out x k, Forall (nalu Vvc) ns -> Forall small ns -> (length (apv ns) <= fuel)%nat ->
  ap_loop266 fuel (apv ns) out x k = Some (out ++ nframed ns, imarks Vvc x ns, k + zlen ns).
Proof.
  induction ns as [|n ns IH]; intros fuel out x k N SM L.
  { change (apv []) with (@nil Z). replace (ap_loop266 fuel [] out x k) with (Some (out, x, k)) by (destruct fuel; reflexivity). rewrite app_nil_r. change (zlen (@nil (list Z))) with 0. rewrite Z.add_0_r. reflexivity. }
  pose proof (Forall_inv N) as NN. pose proof NN as (BN & LN & _ & RN & _). pose proof (Forall_inv SM) as S1. red in S1. destruct (cut_unit n (apv ns) S1) as (C1 & C2 & C3 & C4).
  destruct (nalu_split Vvc n NN) as (b0 & b1 & r & EN & _). pose proof NN as NT. rewrite EN in NT. apply nalu_type in NT. rewrite <- EN in NT. change (hword b0 b1) with (hd2 (b0 :: b1 :: r)) in NT. rewrite <- EN in NT.
  rewrite apv_cons in *. destruct fuel as [|fuel]; [cbn in L; lia|]. cbn [length] in L. rewrite app_length in L. cbn [ap_loop266]. rewrite C4, C1, C2, C3. replace (false || (zlen n <? 2)) with false by lia.
  rewrite NT. cbn [reserved In] in RN. replace ((nty Vvc n =? 28) || (nty Vvc n =? 29)) with false by lia. rewrite mark_imark by (assumption || lia).
  rewrite IH; [|exact (Forall_inv_tail N)|exact (Forall_inv_tail SM)|lia]. rewrite (zlen_cons n). f_equal. f_equal; [|lia]. f_equal.
  rewrite <- !app_assoc. f_equal.
Qed.
Lemma ap_key_ok c : forall ns fuel, Forall (nalu c) ns -> Forall small ns -> (length (apv ns) <= fuel)%nat -> ap_key fuel c (apv ns) = existsb (fun n => random_access c (nty c n)) ns.
Proof.
  induction ns as [|n ns IH]; intros fuel N SM L; [destruct fuel; reflexivity|].
  pose proof (Forall_inv N) as NN. pose proof NN as (BN & LN & _). pose proof (Forall_inv SM) as S1. red in S1. destruct (cut_unit n (apv ns) S1) as (C1 & C2 & C3 & C4).
  destruct (nalu_split c n NN) as (b0 & b1 & r & EN & _). pose proof NN as NT. rewrite EN in NT. apply nalu_type in NT. rewrite <- EN in NT. change (hword b0 b1) with (hd2 (b0 :: b1 :: r)) in NT. rewrite <- EN in NT.
  rewrite apv_cons in *. destruct fuel as [|fuel]; [cbn in L; lia|]. cbn [length] in L. rewrite app_length in L. cbn [ap_key existsb]. rewrite C4, C1, C3. replace (false || (zlen n <? 2)) with false by lia.
  rewrite hd2_app by lia. rewrite NT, irap_spec. f_equal. apply IH; [exact (Forall_inv_tail N)|exact (Forall_inv_tail SM)|lia].
Qed.
Lemma apw_none : forall ns first, apw None first ns = apv ns.
Proof. induction ns as [|n ns IH]; intro first; [reflexivity|]. rewrite apv_cons. cbn [apw dn donl_bytes]. rewrite IH. destruct first; reflexivity. Qed.
Lemma sum_len ns : forall a, fold_left (fun a n => a + (2 + zlen n)) ns a = a + zlen (apv ns).
Proof.
  induction ns as [|n ns IH]; intro a; [cbn; lia|]. cbn [fold_left]. rewrite IH, apv_cons, !zlen_cons, zlen_app. lia.
Qed.

Lemma ap_ok c d mtu tn ns pkt fb out x : nalu c tn -> Forall (nalu c) ns -> (2 <= length ns)%nat -> 4 <= mtu <= 1200 -> ap c tn ns d mtu = Some pkt ->
  nal_depacketize c (mkNd (dn d) fb) pkt out x = (mkNd (dn d) fb, Some (out ++ nframed ns, imarks c x ns)) /\ 0 < zlen pkt <= mtu /\
  (d = None -> nal_detect_key c pkt = existsb (fun n => random_access c (nty c n)) ns) /\ nal_head c pkt = true /\ (forall v, d = Some v -> 0 <= v < U16 -> donl_of c pkt = Some v).
Proof.
  intros TN N L2 M E.
  assert (exists b0 b1 body, pkt = b0 :: b1 :: body /\ byte_ok b0 /\ byte_ok b1 /\ b0 < 128 /\ htype c (hword b0 b1) = t_ap c /\ Forall small ns /\ zlen pkt <= mtu /\
    body = match c with Hevc => apw d true ns | Vvc => donl_bytes d ++ apv ns end) as (b0 & b1 & body & EP & B0 & B1 & F & T & SM & ZM & EB).
  { destruct c; unfold ap in E.
    - destruct (nalu_split Hevc tn TN) as (b0 & b1 & r & -> & _ & B0 & B1 & F0). unfold ap265 in E. cbn [hd2] in E. rewrite retype_hevc in E by (assumption || lia).
      apply ap_units_ok in E; [|unfold U16; lia|rewrite zlen_app, zlen_donl; change (zlen [Z.lor (Z.land b0 129) (2 * 48); b1]) with 2; destruct d; cbn [donl_size]; lia].
      destruct E as (E & SM & ZM). exists (Z.lor (Z.land b0 129) (2 * 48)), b1, (apw d true ns).
      pose proof (brute 128 (fun b0 => let x := Z.lor (Z.land b0 129) (2 * 48) in (0 <=? x) && (x <? 128) && (x / 2 mod 64 =? 48)) ltac:(vm_compute; reflexivity) b0 ltac:(red in B0; lia)) as Q.
      cbv beta zeta in Q. rewrite !andb_true_iff, Z.eqb_eq in Q. destruct Q as ((Q1 & Q2) & Q3). assert (byte_ok (Z.lor (Z.land b0 129) (2 * 48))) as BX by (red; lia).
      repeat split; try assumption; try lia; try apply B1.
      + rewrite E. cbn [app]. f_equal. f_equal. destruct ns as [|n ns]; [cbn in L2; lia|]. cbn [apw]. rewrite <- zlen_donl. rewrite skipn_zlen. reflexivity.
      + rewrite htype_hevc_high by assumption. exact Q3.
    - unfold ap266 in E. cbv zeta in E. destruct (existsb (fun n => 65535 <? zlen n) ns) eqn:Q; [discriminate|]. rewrite sum_len in E. destruct (mtu <? _) eqn:Q2; [discriminate|]. apply Z.ltb_ge in Q2.
      assert (forall A (u v : A), Some u = Some v -> u = v) as INJ by congruence. apply INJ in E. fold (apv ns) in E.
      assert (existsb (fun n => hf (hd2 n)) ns = false) as HF.
      { clear - N. induction ns as [|n ns IH]; [reflexivity|]. cbn [existsb]. rewrite (IH (Forall_inv_tail N)). rewrite orb_false_r.
        destruct (nalu_split Vvc n (Forall_inv N)) as (b0 & b1 & r & -> & _ & B0 & B1 & F0). cbn [hd2]. rewrite hf_eq by assumption. lia. }
      rewrite HF in E. rewrite Z.lor_0_r in E.
      set (ly := fold_left _ ns 63) in E. set (td := Z.max _ 1) in E.
      change 63 with (Z.ones 6) in E. change 7 with (Z.ones 3) in E. rewrite !Z.land_ones in E by lia. pose proof (Z.mod_pos_bound ly (2 ^ 6) ltac:(lia)) as L1. pose proof (Z.mod_pos_bound td (2 ^ 3) ltac:(lia)) as L3.
      change (2 ^ 6) with 64 in *. change (2 ^ 3) with 8 in *. eexists (ly mod 64), _, _. split; [rewrite <- E; cbn [app]; reflexivity|].
      pose proof (brute 8 (fun v => let x := Z.lor (Z.shiftl (Z.land 28 31) 3) v in (0 <=? x) && (x <? 256) && (x / 8 =? 28)) ltac:(vm_compute; reflexivity) (td mod 8) ltac:(lia)) as QB.
      cbv beta zeta in QB. rewrite !andb_true_iff, Z.eqb_eq in QB. destruct QB as ((QB1 & QB2) & QB3). 
      assert (byte_ok (Z.lor (Z.shiftl (Z.land 28 31) 3) (td mod 8))) as BX by (red; lia). assert (byte_ok (ly mod 64)) as BL by (red; lia).
      split; [exact BL|]. split; [exact BX|]. split; [lia|]. split; [rewrite htype_vvc_low by assumption; exact QB3|]. split; [|split; [|reflexivity]].
      + clear - Q. induction ns as [|n ns IH]; [constructor|]. cbn [existsb] in Q. apply orb_false_elim in Q. constructor; [unfold small, U16; lia|apply IH; tauto].
      + rewrite <- E. rewrite !zlen_app. rewrite zlen_donl. change (zlen [ly mod 64; Z.lor (Z.shiftl (Z.land 28 31) 3) (td mod 8)]) with 2. destruct d; cbn [overhead donl_size] in *; lia. }
  pose proof (hf_eq b0 b1 B0 B1) as HF. replace (128 <=? b0) with false in HF by lia.
  assert (3 <= zlen body) as ZB.
  { destruct ns as [|n ns]; [cbn in L2; lia|]. pose proof (Forall_inv N) as (_ & LN & _). subst body. destruct c.
    - cbn [apw]. rewrite !zlen_app, zlen_donl. change (zlen (be16 (zlen n))) with 2. pose proof (zlen_nonneg (apw d false ns)). destruct d; cbn [donl_size]; lia.
    - rewrite apv_cons, zlen_app, !zlen_cons, zlen_app, zlen_donl. pose proof (zlen_nonneg (apv ns)). destruct d; cbn [donl_size]; lia. }
  assert (2 <= zlen ns) as ZN by (unfold zlen; lia). subst pkt.
  split; [|split; [|split; [|split]]].
  - unfold nal_depacketize. replace (zlen _ <=? 2) with false by (rewrite !zlen_cons; lia). cbn [hd2]. rewrite HF, T.
    replace (match c with Hevc => t_ap c =? 50 | Vvc => false end) with false by (destruct c; reflexivity). replace (t_ap c =? t_fu c) with false by (destruct c; reflexivity). rewrite Z.eqb_refl.
    f_equal. cbn [might_need_donl]. destruct c; unfold dep_ap.
    + change (skipn 2 (b0 :: b1 :: body)) with body. rewrite EB. rewrite ap_loop265_ok; [|assumption|assumption|cbn [length]; lia]. rewrite ap_struct_ok by assumption.
      replace (0 + zlen ns <? 2) with false by lia. reflexivity.
    + replace (dn d && _) with false by (rewrite !zlen_cons; destruct (dn d); cbn [andb]; lia).
      assert (skipn (if dn d then 4 else 2) (b0 :: b1 :: body) = apv ns) as -> by (rewrite EB; destruct d; reflexivity).
      rewrite ap_loop266_ok; [|assumption|assumption|cbn [length]; rewrite EB, app_length; lia]. replace (0 + zlen ns <? 2) with false by lia. reflexivity.
  - rewrite !zlen_cons in *. lia.
  - intros ->. assert (body = apv ns) as EB2 by (rewrite EB; destruct c; [apply apw_none|reflexivity]).
    unfold nal_detect_key. replace (zlen _ <? 2) with false by (rewrite !zlen_cons; lia). cbn [hd2]. rewrite T, Z.eqb_refl. change (skipn 2 (b0 :: b1 :: body)) with body. rewrite EB2. apply ap_key_ok; [assumption|assumption|cbn [length]; lia].
  - unfold nal_head. replace (zlen _ <? 2) with false by (rewrite !zlen_cons; lia). cbn [hd2]. rewrite HF, T. replace (t_ap c =? t_fu c) with false by (destruct c; reflexivity). reflexivity.
  - intros v -> V. unfold donl_of. rewrite <- htype_nty by assumption. rewrite T. replace (t_ap c =? _) with false by (destruct c; reflexivity). rewrite EB.
    assert (exists l, match c with Hevc => apw (Some v) true ns | Vvc => donl_bytes (Some v) ++ apv ns end = be16 v ++ l) as (l & ->).
    { destruct c; [|eexists; reflexivity]. destruct ns as [|n ns]; [cbn in L2; lia|]. eexists. reflexivity. }
    unfold field16, be16. cbn [app nth]. rewrite be16_field by exact V. reflexivity.
Qed.

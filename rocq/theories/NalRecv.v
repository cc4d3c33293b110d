(** C32: H.265 and H.266 depacketizing for any conforming sender. *)
From Verif Require Import Base BaseFacts Brute BufRxSpec Vp8Model Vp8Spec Vp8Proofs H264Model H264Spec H264Proofs NalModel NalSpec NalProofs NalProofs2 NalProofs3.

Definition unit_in (c : nal_codec) (n : list Z) : Prop := bytes_ok n /\ 2 <= zlen n < 65536 /\ ~ In (nty c n) (reserved c).

(** ** aggregates *)
Lemma agg_loop265 need : forall ns body fuel first don out x k, Forall (unit_in Hevc) ns -> aggregated Hevc need first ns body -> zlen don = (if need && first then 2 else 0) -> (length (don ++ body) <= fuel)%nat -> (first = true -> ns <> []) ->
  ap_loop265 fuel need first (don ++ body) out x k = (out ++ nframed ns, imarks Hevc x ns, k + zlen ns).
Proof.
  induction ns as [|n ns IH]; intros body fuel first don out x k N A ZD L NF.
  { cbn in A. subst body. destruct first; [exfalso; apply NF; reflexivity|]. rewrite andb_false_r in ZD. destruct don; [|rewrite zlen_cons in ZD; pose proof (zlen_nonneg don); lia]. cbn [app].
    replace (ap_loop265 fuel need false [] out x k) with (out, x, k) by (destruct fuel; reflexivity). rewrite app_nil_r. change (zlen (@nil (list Z))) with 0. rewrite Z.add_0_r. reflexivity. }
  destruct (Forall_inv N) as (BN & LN & _). cbn [aggregated] in A. destruct A as (dond & rest & ZO & EB & A). subst body.
  destruct (cut_unit n rest ltac:(unfold U16; lia)) as (C1 & C2 & C3 & C4).
  assert (exists pre, pre = don ++ dond) as (pre & EP) by eauto. assert (zlen pre = if need then if first then 2 else 1 else 0) as ZP by (subst pre; rewrite zlen_app, ZD, ZO; destruct need, first; reflexivity).
  rewrite app_assoc in L |- *. rewrite <- EP in *. clear EP. rewrite app_length in L. rewrite !app_length in L. change (length (be16 (zlen n))) with 2%nat in L. destruct fuel as [|fuel]; [lia|].
  assert (forall l, skipn (Z.to_nat (if need then if first then 2 else 1 else 0)) (pre ++ l) = l) as SK by (intro l; rewrite <- ZP; apply skipn_zlen).
  assert (exists a q, pre ++ be16 (zlen n) ++ n ++ rest = a :: q) as (a & q & E) by (destruct pre; [eexists _, _; reflexivity|eexists _, _; reflexivity]).
  cbn [ap_loop265]. rewrite E. rewrite <- E. replace (zlen (pre ++ _) <? _) with false by (rewrite <- ZP, zlen_app; pose proof (zlen_nonneg (be16 (zlen n) ++ n ++ rest)); lia).
  rewrite SK. unfold be16. cbn [app]. rewrite C4, C1, C2, C3. replace (2 <=? zlen n) with true by lia. rewrite mark_imark by (assumption || lia).
  change rest with ([] ++ rest) at 1. rewrite IH; [|exact (Forall_inv_tail N)|exact A|rewrite andb_false_r; reflexivity|cbn [app]; lia|discriminate]. rewrite (zlen_cons n). f_equal; [|lia]. f_equal.
  rewrite <- !app_assoc. f_equal.
Qed.
Lemma agg_others need : forall ns body fuel, Forall (unit_in Hevc) ns -> aggregated Hevc need false ns body -> (length body <= fuel)%nat -> ap_others fuel need body = ns.
Proof.
  induction ns as [|n ns IH]; intros body fuel N A L.
  { cbn in A. subst body. destruct fuel; [reflexivity|]. destruct need; reflexivity. }
  destruct (Forall_inv N) as (BN & LN & _). cbn [aggregated] in A. destruct A as (dond & rest & ZO & EB & A). subst body.
  destruct (cut_unit n rest ltac:(unfold U16; lia)) as (C1 & C2 & C3 & C4). rewrite !app_length in L. change (length (be16 (zlen n))) with 2%nat in L. destruct fuel as [|fuel]; [lia|].
  destruct need; cbn [andb negb] in ZO; cbn [ap_others].
  - destruct dond as [|b [|? dond]]; try discriminate ZO; [|rewrite !zlen_cons in ZO; pose proof (zlen_nonneg dond); lia].
    replace (true && _) with false by (rewrite zlen_app; pose proof (zlen_nonneg (be16 (zlen n) ++ n ++ rest)); change (zlen [b]) with 1; lia).
    change (skipn 1 ([b] ++ be16 (zlen n) ++ n ++ rest)) with (be16 (zlen n) ++ n ++ rest). unfold be16. cbn [app]. rewrite C4, C1, C2, C3. f_equal. apply IH; [exact (Forall_inv_tail N)|exact A|lia].
  - destruct dond as [|b dond]; [|rewrite zlen_cons in ZO; pose proof (zlen_nonneg dond); lia]. cbn [app andb]. unfold be16. cbn [app]. rewrite C4, C1, C2, C3. f_equal. apply IH; [exact (Forall_inv_tail N)|exact A|lia].
Qed.
Lemma agg_struct (need : bool) (ns : list (list Z)) body (don : list Z) b0 b1 : (2 <= length ns)%nat -> Forall (unit_in Hevc) ns -> zlen don = (if need then 2 else 0) -> aggregated Hevc need true ns body -> ap_struct need (b0 :: b1 :: don ++ body) = Some ns.
Proof.
  intros L N ZD A. destruct ns as [|n ns]; [cbn in L; lia|]. destruct (Forall_inv N) as (BN & LN & _). cbn [aggregated] in A. destruct A as (dond & rest & ZO & EB & A).
  cbn [negb] in ZO. rewrite andb_false_r in ZO. destruct dond as [|? dond]; [|rewrite zlen_cons in ZO; pose proof (zlen_nonneg dond); lia]. cbn [app] in EB. subst body.
  destruct (cut_unit n rest ltac:(unfold U16; lia)) as (C1 & C2 & C3 & C4).
  assert (ap_others (length (n ++ rest)) need rest = ns) as AO by (eapply agg_others; [exact (Forall_inv_tail N)|exact A|rewrite app_length; lia]).
  destruct ns as [|m ns]; [cbn in L; lia|]. remember (m :: ns) as ms eqn:EM. unfold ap_struct. match goal with |- context [skipn 2 (b0 :: b1 :: ?r)] => change (skipn 2 (b0 :: b1 :: r)) with r end.
  assert ((need && (zlen (don ++ be16 (zlen n) ++ n ++ rest) <? 2)) = false) as ->.
  { rewrite zlen_app, ZD. pose proof (zlen_nonneg (be16 (zlen n) ++ n ++ rest)). destruct need; cbn [andb]; [lia|reflexivity]. }
  assert ((if need then skipn 2 (don ++ be16 (zlen n) ++ n ++ rest) else don ++ be16 (zlen n) ++ n ++ rest) = be16 (zlen n) ++ n ++ rest) as ->.
  { destruct need.
    - change 2%nat with (Z.to_nat 2). rewrite <- ZD. apply skipn_zlen.
    - destruct don; [reflexivity|]. rewrite zlen_cons in ZD. pose proof (zlen_nonneg don). lia. }
  unfold be16. cbn [app]. rewrite C4, C1, C2, C3, AO. subst ms. reflexivity.
Qed.
Lemma agg_vvc need : forall ns first body, aggregated Vvc need first ns body -> body = apv ns.
Proof.
  induction ns as [|n ns IH]; intros first body A; [exact A|]. cbn [aggregated] in A. destruct A as (dond & rest & ZO & -> & A).
  assert (zlen dond = 0) as Z0 by (destruct need, first; exact ZO). destruct dond as [|? dond]; [|rewrite zlen_cons in Z0; pose proof (zlen_nonneg dond); lia].
  apply IH in A. subst rest. reflexivity.
Qed.
Lemma agg_loop266 : forall ns fuel out x k, Forall (unit_in Vvc) ns -> (length (apv ns) <= fuel)%nat ->
  ap_loop266 fuel (apv ns) out x k = Some (out ++ nframed ns, imarks Vvc x ns, k + zlen ns).
Proof.
  induction ns as [|n ns IH]; intros fuel out x k N L.
  { change (apv []) with (@nil Z). replace (ap_loop266 fuel [] out x k) with (Some (out, x, k)) by (destruct fuel; reflexivity). rewrite app_nil_r. change (zlen (@nil (list Z))) with 0. rewrite Z.add_0_r. reflexivity. }
  destruct (Forall_inv N) as (BN & LN & RN). destruct (cut_unit n (apv ns) ltac:(unfold U16; lia)) as (C1 & C2 & C3 & C4).
  assert (htype Vvc (hd2 n) = nty Vvc n) as NT. { destruct n as [|b0 [|b1 r]]; try (cbn in LN; lia). cbn [hd2]. apply htype_nty; [exact (Forall_inv BN)|exact (Forall_inv (Forall_inv_tail BN))]. }
  rewrite apv_cons in *. destruct fuel as [|fuel]; [cbn in L; lia|]. cbn [length] in L. rewrite app_length in L. cbn [ap_loop266]. rewrite C4, C1, C2, C3. replace (false || (zlen n <? 2)) with false by lia.
  rewrite NT. cbn [reserved In] in RN. replace ((nty Vvc n =? 28) || (nty Vvc n =? 29)) with false by lia. rewrite mark_imark by (assumption || lia).
  rewrite IH; [|exact (Forall_inv_tail N)|lia]. rewrite (zlen_cons n). f_equal. f_equal; [|lia]. f_equal.
  rewrite <- !app_assoc. f_equal.
Qed.
Lemma agg_len c need (ns : list (list Z)) body : aggregated c need true ns body -> Forall (unit_in c) ns -> ns <> [] -> 4 <= zlen body.
Proof.
  intros A N NE. destruct ns as [|n ns]; [congruence|]. destruct (Forall_inv N) as (BN & LN & _). cbn [aggregated] in A. destruct A as (dond & rest & _ & -> & _).
  rewrite !zlen_app. change (zlen (be16 (zlen n))) with 2. pose proof (zlen_nonneg dond). pose proof (zlen_nonneg rest). lia.
Qed.
Lemma recv_agg c need fb h0 h1 don body (ns : list (list Z)) out x : byte_ok h0 -> byte_ok h1 -> h0 < 128 -> nty c [h0; h1] = match c with Hevc => 48 | Vvc => 28 end -> (2 <= length ns)%nat ->
  Forall (unit_in c) ns -> don_ok need don -> aggregated c need true ns body ->
  nal_depacketize c (mkNd need fb) ([h0; h1] ++ don ++ body) out x = (mkNd need fb, Some (out ++ nframed ns, imarks c x ns)).
Proof.
  intros B0 B1 F T L2 N ZD A. unfold don_ok in ZD. assert (ns <> []) as NE by (destruct ns; [cbn in L2; lia|discriminate]). pose proof (agg_len c need ns body A N NE) as LB. assert (2 <= zlen ns) as ZN by (unfold zlen; lia).
  pose proof (hf_eq h0 h1 B0 B1) as HF. replace (128 <=? h0) with false in HF by lia. rewrite <- (htype_nty c h0 h1 [] B0 B1) in T. pose proof (zlen_nonneg don).
  cbn [app]. unfold nal_depacketize. replace (zlen _ <=? 2) with false by (rewrite !zlen_cons, zlen_app; lia). cbn [hd2]. rewrite HF, T.
  replace (match c with Hevc => match c with Hevc => 48 | Vvc => 28 end =? 50 | Vvc => false end) with false by (destruct c; reflexivity). replace (match c with Hevc => 48 | Vvc => 28 end =? t_fu c) with false by (destruct c; reflexivity).
  replace (match c with Hevc => 48 | Vvc => 28 end =? t_ap c) with true by (destruct c; reflexivity). cbn [might_need_donl]. f_equal. unfold dep_ap. destruct c.
  - change (skipn 2 (h0 :: h1 :: don ++ body)) with (don ++ body). rewrite (agg_loop265 need ns) by (assumption || (rewrite ?andb_true_r; assumption) || (cbn [length]; lia) || auto).
    replace (0 + zlen ns <? 2) with false by lia. rewrite (agg_struct need ns) by assumption. reflexivity.
  - apply agg_vvc in A. subst body. replace (need && _) with false by (rewrite !zlen_cons, zlen_app; destruct need; cbn [andb]; [lia|reflexivity]).
    assert (skipn (if need then 4 else 2) (h0 :: h1 :: don ++ apv ns) = apv ns) as ->.
    { destruct need.
      - change (skipn 4 (h0 :: h1 :: don ++ apv ns)) with (skipn 2 (don ++ apv ns)). change 2%nat with (Z.to_nat 2). rewrite <- ZD. apply skipn_zlen.
      - destruct don; [reflexivity|]. rewrite zlen_cons in ZD. pose proof (zlen_nonneg don). lia. }
    rewrite agg_loop266; [|exact N|cbn [length]; rewrite app_length; lia]. replace (0 + zlen ns <? 2) with false by lia. reflexivity.
Qed.

(** ** fragments *)
Section Fu.
Variables (c : nal_codec) (b0 b1 x0 y0 : Z) (need : bool).
Hypothesis (X : byte_ok x0) (Y : byte_ok y0) (XF : x0 < 128) (XT : htype c (hword x0 y0) = t_fu c) (RT : retype c (hword x0 y0) (htype c (hword b0 b1)) = [b0; b1]).
Lemma recv_frag f s e d dnb fb out x : bit f 128 = s -> bit f 64 = e -> Z.land f (fu_mask c) = htype c (hword b0 b1) -> d <> [] -> (s = true -> zlen dnb = if need then 2 else 0) ->
  nal_depacketize c (mkNd need fb) ([x0; y0] ++ [f] ++ (if s then dnb else []) ++ d) out x =
  (let buf := option_map (fun b => b ++ d) (if s then Some [] else fb) in
   (mkNd need buf, if e then match buf with Some b => Some (out ++ start_code ++ [b0; b1] ++ b, mark_irap c (hword b0 b1) x) | None => Some (out, x) end else Some (out, x))).
Proof.
  intros F1 F2 F3 NE DB. pose proof (zlen_pos d NE) as ZD. cbn [app].
  pose proof (hf_eq x0 y0 X Y) as HF. replace (128 <=? x0) with false in HF by lia.
  assert (0 <= zlen (if s then dnb else [])) as ZB by apply zlen_nonneg.
  unfold nal_depacketize. replace (zlen _ <=? 2) with false by (rewrite !zlen_cons, zlen_app; lia). cbn [hd2]. rewrite HF, XT.
  replace (match c with Hevc => t_fu c =? 50 | Vvc => false end) with false by (destruct c; reflexivity). rewrite Z.eqb_refl.
  unfold dep_fu. match goal with |- context [skipn 2 (x0 :: y0 :: ?r)] => change (skipn 2 (x0 :: y0 :: r)) with r end. cbn [might_need_donl fu_buffer]. cbv zeta. rewrite F1, F2, F3. rewrite zlen_app.
  replace (_ <? match c with Hevc => 1 | Vvc => 0 end) with false by (destruct c; lia).
  assert ((s && need && (zlen (if s then dnb else []) + zlen d <? 2 + match c with Hevc => 1 | Vvc => 0 end)) = false /\
          (if s && need then skipn 2 ((if s then dnb else []) ++ d) else (if s then dnb else []) ++ d) = d) as [-> ->].
  { clear F1. destruct s; [|cbn [andb app]; auto]. specialize (DB eq_refl). destruct need; cbn [andb].
    - split; [destruct c; lia|]. destruct dnb as [|? [|? [|? dnb]]]; try discriminate DB; [reflexivity|]. rewrite !zlen_cons in DB. pose proof (zlen_nonneg dnb). lia.
    - split; [reflexivity|]. destruct dnb; [reflexivity|]. rewrite zlen_cons in DB. pose proof (zlen_nonneg dnb). lia. }
  cbv zeta. f_equal. destruct e; [|reflexivity]. cbn [hd2]. rewrite RT. cbn [hd2]. reflexivity.
Qed.
End Fu.
Lemma frag_byte c t s e p : 0 <= t < match c with Hevc => 64 | Vvc => 32 end -> (p = true -> c = Vvc) ->
  bit (flag s 128 + flag e 64 + flag p 32 + t) 128 = s /\ bit (flag s 128 + flag e 64 + flag p 32 + t) 64 = e /\ Z.land (flag s 128 + flag e 64 + flag p 32 + t) (fu_mask c) = t.
Proof.
  intros T P.
  pose proof (brute 64 (fun t => forallb (fun '(s, e) => let f := flag s 128 + flag e 64 + 0 + t in Bool.eqb (bit f 128) s && Bool.eqb (bit f 64) e && (Z.land f 63 =? t)) [(true, true); (true, false); (false, true); (false, false)]) ltac:(vm_compute; reflexivity) t ltac:(destruct c; lia)) as Q1.
  cbv beta in Q1. rewrite forallb_forall in Q1. specialize (Q1 (s, e)). cbv beta iota zeta in Q1. rewrite !andb_true_iff, !eqb_true_iff, Z.eqb_eq in Q1.
  destruct c.
  - destruct p; [discriminate (P eq_refl)|]. cbn [flag fu_mask] in *. destruct Q1 as [[? ?] ?]; [destruct s, e; cbn; auto|auto].
  - pose proof (brute 32 (fun t => forallb (fun p => forallb (fun '(s, e) => let f := flag s 128 + flag e 64 + flag p 32 + t in Bool.eqb (bit f 128) s && Bool.eqb (bit f 64) e && (Z.land f 31 =? t)) [(true, true); (true, false); (false, true); (false, false)]) [true; false]) ltac:(vm_compute; reflexivity) t T) as Q2.
    cbv beta in Q2. rewrite forallb_forall in Q2. specialize (Q2 p ltac:(destruct p; cbn; auto)). cbv beta in Q2. rewrite forallb_forall in Q2. specialize (Q2 (s, e)). cbv beta iota zeta in Q2. rewrite !andb_true_iff, !eqb_true_iff, Z.eqb_eq in Q2.
    cbn [fu_mask]. destruct Q2 as [[? ?] ?]; [destruct s, e; cbn; auto|auto].
Qed.
Lemma ind_facts c b0 b1 : byte_ok b0 -> byte_ok b1 -> b0 < 128 -> exists x y, fu_payload_header c b0 b1 = [x; y] /\ byte_ok x /\ byte_ok y /\ x < 128 /\ htype c (hword x y) = t_fu c /\
    retype c (hword x y) (htype c (hword b0 b1)) = [b0; b1].
Proof.
  intros B0 B1 F. destruct (hdr_facts c b0 b1 B0 B1 F) as (x & y & E & R). exists x, y. split; [|exact R]. rewrite <- E. destruct c.
  - rewrite retype_hevc by (cbn; assumption || lia). cbn [fu_payload_header t_fu]. f_equal.
    pose proof (brute 128 (fun b => 49 * 2 + b mod 2 =? Z.lor (Z.land b 129) (2 * 49)) ltac:(vm_compute; reflexivity) b0 ltac:(red in B0; lia)) as Q. cbv beta in Q. lia.
  - rewrite retype_vvc by (cbn; assumption || lia). cbn [fu_payload_header t_fu]. f_equal. f_equal.
    pose proof (brute 256 (fun b => 29 * 8 + b mod 8 =? Z.lor (8 * 29) (Z.land b 7)) ltac:(vm_compute; reflexivity) b1 ltac:(red in B1; lia)) as Q. cbv beta in Q. lia.
Qed.
Lemma recv_frags c b0 b1 need p qs ds : byte_ok b0 -> byte_ok b1 -> b0 < 128 -> (p = true -> c = Vvc) -> fragments c (fu_payload_header c b0 b1) (nty c [b0; b1]) p qs ds -> forall buf ps out x,
  feed (nal_depacketize c) (mkNd need (Some buf)) (qs ++ ps) out x = feed (nal_depacketize c) (mkNd need (Some (buf ++ concat ds))) ps (out ++ start_code ++ [b0; b1] ++ buf ++ concat ds) (mark_irap c (hword b0 b1) x).
Proof.
  intros B0 B1 F P. destruct (ind_facts c b0 b1 B0 B1 F) as (x0 & y0 & -> & X & Y & XF & XT & RT). 
  assert (0 <= nty c [b0; b1] < match c with Hevc => 64 | Vvc => 32 end) as TR by (apply nty_range; [repeat constructor; apply B0 || apply B1|cbn; lia]).
  pose proof (htype_nty c b0 b1 [] B0 B1) as HT.
  intro FR. induction FR as [d NE|d qs ds NE FR IH]; intros buf ps out x.
  - cbn [concat]. rewrite app_nil_r. cbn [app feed]. destruct (frag_byte c (nty c [b0; b1]) false true p TR P) as (F1 & F2 & F3). change (flag false 128 + flag true 64) with 64 in *. rewrite <- HT in F3 |- *. rewrite <- HT in F1, F2.
    pose proof (recv_frag c b0 b1 x0 y0 need X Y XF XT RT _ _ _ d [] (Some buf) out x F1 F2 F3 NE ltac:(discriminate)) as R. cbn [app option_map] in R. rewrite R. cbv beta zeta iota. reflexivity.
  - cbn [concat app feed]. destruct (frag_byte c (nty c [b0; b1]) false false false TR ltac:(discriminate)) as (F1 & F2 & F3). change (flag false 128 + flag false 64 + flag false 32) with 0 in *. rewrite Z.add_0_l in *. rewrite <- HT in F1, F2, F3. rewrite <- HT.
    pose proof (recv_frag c b0 b1 x0 y0 need X Y XF XT RT _ _ _ d [] (Some buf) out x F1 F2 F3 NE ltac:(discriminate)) as R. cbn [app option_map] in R. rewrite R. cbv beta zeta iota. rewrite IH. rewrite <- !app_assoc. reflexivity.
Qed.
Lemma recv_single c need fb b0 b1 d don out x : byte_ok b0 -> byte_ok b1 -> b0 < 128 -> bytes_ok d -> d <> [] -> ~ In (nty c [b0; b1]) (reserved c) -> don_ok need don ->
  nal_depacketize c (mkNd need fb) ([b0; b1] ++ don ++ d) out x = (mkNd need fb, Some (out ++ nframed [[b0; b1] ++ d], imark c ([b0; b1] ++ d) x)).
Proof.
  intros B0 B1 F B NE R ZD. unfold don_ok in ZD. pose proof (zlen_pos d NE) as Z1. pose proof (hf_eq b0 b1 B0 B1) as HF. replace (128 <=? b0) with false in HF by lia. rewrite <- (htype_nty c b0 b1 [] B0 B1) in R.
  pose proof (zlen_nonneg don). cbn [app]. unfold nal_depacketize. replace (zlen _ <=? 2) with false by (rewrite !zlen_cons, zlen_app; lia). cbn [hd2]. rewrite HF.
  replace (match c with Hevc => htype c (hword b0 b1) =? 50 | Vvc => false end) with false by (destruct c; cbn [reserved In] in R; lia).
  replace (htype c (hword b0 b1) =? t_fu c) with false by (destruct c; cbn [reserved In t_fu] in *; lia). replace (htype c (hword b0 b1) =? t_ap c) with false by (destruct c; cbn [reserved In t_ap] in *; lia).
  f_equal. unfold dep_single. cbn [might_need_donl]. replace (need && _) with false by (rewrite !zlen_cons, zlen_app; destruct need; cbn [andb]; [lia|reflexivity]). f_equal. f_equal.
  - rewrite nframed_one. f_equal. f_equal. cbn [app firstn]. f_equal. f_equal. destruct need.
    + change (skipn 4 (b0 :: b1 :: don ++ d)) with (skipn 2 (don ++ d)). change 2%nat with (Z.to_nat 2). rewrite <- ZD. apply skipn_zlen.
    + destruct don; [reflexivity|]. rewrite zlen_cons in ZD. pose proof (zlen_nonneg don). lia.
  - change (hd2 (b0 :: b1 :: don ++ d)) with (hd2 (b0 :: b1 :: d)). apply mark_imark; [repeat constructor; try apply B0; try apply B1; exact B|rewrite !zlen_cons; lia].
Qed.
Lemma recv_all c need ps us : carried c need ps us -> forall fb out x, exists fb',
  feed (nal_depacketize c) (mkNd need fb) ps out x = (mkNd need fb', Some (out ++ nframed us, imarks c x us)).
Proof.
  induction 1 as [|b0 b1 d don ps us B0 B1 F B NE R ZD C IH|h0 h1 don body ns ps us B0 B1 F T L N ZD A C IH|b0 b1 d don qs ds p ps us B0 B1 F NE ZD P FR C IH]; intros fb out x.
  - exists fb. cbn [feed]. unfold nframed, framed. cbn [map concat]. rewrite app_nil_r. reflexivity.
  - cbn [feed]. rewrite recv_single by assumption. destruct (IH fb (out ++ nframed [[b0; b1] ++ d]) (imark c ([b0; b1] ++ d) x)) as (fb' & E). exists fb'. rewrite E. rewrite <- app_assoc. rewrite <- nframed_app. reflexivity.
  - cbn [feed]. rewrite (recv_agg c need fb h0 h1 don body ns) by assumption. destruct (IH fb (out ++ nframed ns) (imarks c x ns)) as (fb' & E). exists fb'. rewrite E. rewrite <- app_assoc, <- nframed_app. unfold imarks. rewrite fold_left_app. reflexivity.
  - assert (0 <= nty c [b0; b1] < match c with Hevc => 64 | Vvc => 32 end) as TR by (apply nty_range; [repeat constructor; apply B0 || apply B1|cbn; lia]).
    destruct (frag_byte c (nty c [b0; b1]) true false false TR ltac:(discriminate)) as (F1 & F2 & F3). change (flag true 128 + flag false 64 + flag false 32) with 128 in *.
    destruct (ind_facts c b0 b1 B0 B1 F) as (x0 & y0 & EI & X & Y & XF & XT & RT). pose proof (htype_nty c b0 b1 [] B0 B1) as HT.
    cbn [feed]. rewrite EI. rewrite <- HT in F3 |- *. rewrite <- HT in F1, F2. 
    pose proof (recv_frag c b0 b1 x0 y0 need X Y XF XT RT _ _ _ d don fb out x F1 F2 F3 NE (fun _ => ZD)) as RR. cbn [app option_map] in RR. cbn [app]. rewrite RR. cbv beta zeta iota.
    destruct (IH (Some (d ++ concat ds)) (out ++ start_code ++ [b0; b1] ++ d ++ concat ds) (mark_irap c (hword b0 b1) x)) as (fb' & E). exists fb'.
    rewrite (recv_frags c b0 b1 need p qs ds B0 B1 F P FR). rewrite E. f_equal. f_equal. f_equal.
    + rewrite <- app_assoc. f_equal.
    + assert (mark_irap c (hword b0 b1) x = imark c (b0 :: b1 :: d ++ concat ds) x) as -> by (unfold mark_irap, imark; rewrite !irap_spec, HT; destruct c, x; reflexivity). reflexivity.
Qed.

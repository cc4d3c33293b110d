From Verif Require Import Base BaseFacts Brute BufRxSpec Vp8Model Vp8Spec Vp8Proofs H264Model H264Spec H264Proofs NalModel NalSpec.

(** * Headers *)
Lemma hword_eq a b : 0 <= a -> byte_ok b -> hword a b = a * 256 + b.
Proof. intros A B. red in B. unfold hword. rewrite (lor_add _ _ 8); [|lia|exact B|rewrite Z.shiftl_mul_pow2 by lia; apply Z.mod_mul; lia]. rewrite Z.shiftl_mul_pow2 by lia. reflexivity. Qed.
Lemma byte_high b i : byte_ok b -> 8 <= i -> Z.testbit b i = false.
Proof.
  intros B I. red in B. destruct (Z.eq_dec b 0) as [->|]; [apply Z.bits_0|]. apply Z.bits_above_log2; [lia|].
  assert (Z.log2 b < 8); [|lia]. apply Z.log2_lt_pow2; lia.
Qed.
Lemma hword_bit a b i : 0 <= i -> byte_ok b -> Z.testbit (hword a b) i = if i <? 8 then Z.testbit b i else Z.testbit a (i - 8).
Proof.
  intros I B. unfold hword. rewrite Z.lor_spec, Z.shiftl_spec by lia. destruct (i <? 8) eqn:Q.
  - rewrite (Z.testbit_neg_r a) by lia. reflexivity.
  - rewrite (byte_high b) by (assumption || lia). apply orb_false_r.
Qed.
Lemma byte_land a b : byte_ok a -> byte_ok (Z.land a b).
Proof.
  intros A. red in A |- *. assert (0 <= Z.land a b) by (apply Z.land_nonneg; lia). split; [lia|].
  destruct (Z.eq_dec (Z.land a b) 0) as [E|]; [rewrite E; lia|]. change 256 with (2 ^ 8). apply Z.log2_lt_pow2; [lia|].
  apply Z.nle_gt. intro L. pose proof (Z.bit_log2 (Z.land a b) ltac:(lia)) as T. rewrite Z.land_spec, andb_true_iff in T.
  rewrite (byte_high a) in T by (exact A || lia). destruct T; discriminate.
Qed.
Lemma byte_lor a b : byte_ok a -> byte_ok b -> byte_ok (Z.lor a b).
Proof.
  intros A B. assert (0 <= Z.lor a b) by (apply Z.lor_nonneg; red in A, B; lia). split; [lia|].
  destruct (Z.eq_dec (Z.lor a b) 0) as [E|]; [rewrite E; lia|]. change 256 with (2 ^ 8). apply Z.log2_lt_pow2; [lia|].
  apply Z.nle_gt. intro L. pose proof (Z.bit_log2 (Z.lor a b) ltac:(lia)) as T. rewrite Z.lor_spec in T.
  rewrite (byte_high a), (byte_high b) in T by (assumption || lia). discriminate.
Qed.
Lemma hword_land a b c d : byte_ok b -> byte_ok d -> Z.land (hword a b) (hword c d) = hword (Z.land a c) (Z.land b d).
Proof.
  intros B D. apply Z.bits_inj'. intros i I. rewrite Z.land_spec, !hword_bit; try assumption; [|apply byte_land; assumption].
  destruct (i <? 8); rewrite Z.land_spec; reflexivity.
Qed.
Lemma hword_lor a b c d : byte_ok b -> byte_ok d -> Z.lor (hword a b) (hword c d) = hword (Z.lor a c) (Z.lor b d).
Proof.
  intros B D. apply Z.bits_inj'. intros i I. rewrite Z.lor_spec, !hword_bit; try assumption; [|apply byte_lor; assumption].
  destruct (i <? 8); rewrite Z.lor_spec; reflexivity.
Qed.
Lemma byte_255 b : byte_ok b -> Z.land b 255 = b.
Proof. intro B. change 255 with (Z.ones 8). rewrite Z.land_ones by lia. apply Z.mod_small. exact B. Qed.
Lemma be16_hword a b : byte_ok a -> byte_ok b -> be16 (hword a b) = [a; b].
Proof. intros A B. rewrite hword_eq by (red in A; lia || exact B). red in A, B. unfold be16. f_equal; [|f_equal]; dlia. Qed.
Lemma hword_be16 v : 0 <= v < U16 -> hword (v / 256 mod 256) (v mod 256) = v.
Proof. apply lor16. Qed.
Lemma retype_hevc b0 b1 t : byte_ok b0 -> byte_ok b1 -> 0 <= t < 64 -> retype Hevc (hword b0 b1) t = [Z.lor (Z.land b0 129) (2 * t); b1].
Proof.
  intros B0 B1 T. unfold retype. assert (byte_ok (2 * t)) as T2 by (red; lia).
  replace (Z.shiftl t 9) with (hword (2 * t) 0) by (rewrite hword_eq by (lia || (red; lia)); rewrite Z.shiftl_mul_pow2 by lia; change (2 ^ 9) with 512; lia).
  change 33279 with (hword 129 255). rewrite hword_land by (assumption || (red; lia)). rewrite hword_lor by (rewrite ?byte_255 by assumption; assumption || (red; lia)).
  rewrite (byte_255 b1) by assumption. rewrite Z.lor_0_r. apply be16_hword; [|assumption]. apply byte_lor; [apply byte_land; assumption|assumption].
Qed.
Lemma retype_vvc b0 b1 t : byte_ok b0 -> byte_ok b1 -> 0 <= t < 32 -> retype Vvc (hword b0 b1) t = [b0; Z.lor (8 * t) (Z.land b1 7)].
Proof.
  intros B0 B1 T. unfold retype. f_equal.
  - rewrite hword_eq by (red in B0; lia || assumption). rewrite Z.shiftr_div_pow2 by lia. change (2 ^ 8) with 256. red in B0, B1. dlia.
  - f_equal. rewrite Z.shiftl_mul_pow2 by lia. change (2 ^ 3) with 8. rewrite Z.mod_small by lia.
    change 7 with (hword 0 7) at 1. rewrite hword_land by (assumption || (red; lia)). rewrite Z.land_0_r. rewrite hword_eq by (lia || (apply byte_land; assumption)). f_equal; lia.
Qed.
Lemma htype_vvc_low b0 b1 : byte_ok b0 -> byte_ok b1 -> htype Vvc (hword b0 b1) = b1 / 8.
Proof.
  intros B0 B1. unfold htype. rewrite hword_eq by (red in B0; lia || assumption). change 31 with (Z.ones 5). rewrite Z.land_ones by lia.
  rewrite Z.shiftr_div_pow2 by lia. change (2 ^ 3) with 8. change (2 ^ 5) with 32. red in B0, B1. dlia.
Qed.
Lemma htype_hevc_high b0 b1 : byte_ok b0 -> byte_ok b1 -> htype Hevc (hword b0 b1) = b0 / 2 mod 64.
Proof.
  intros B0 B1. unfold htype. change 32256 with (Z.shiftl (Z.ones 6) 9). 
  assert (Z.shiftr (Z.land (hword b0 b1) (Z.shiftl (Z.ones 6) 9)) 9 = Z.land (Z.shiftr (hword b0 b1) 9) (Z.ones 6)) as ->.
  { rewrite Z.shiftr_land. f_equal. }
  rewrite Z.land_ones by lia. rewrite Z.shiftr_div_pow2 by lia. rewrite hword_eq by (red in B0; lia || assumption). change (2 ^ 9) with 512. change (2 ^ 6) with 64. red in B0, B1. dlia.
Qed.
Lemma htype_nty c b0 b1 r : byte_ok b0 -> byte_ok b1 -> htype c (hword b0 b1) = nty c (b0 :: b1 :: r).
Proof. intros B0 B1. destruct c; [apply htype_hevc_high|apply htype_vvc_low]; assumption. Qed.
Lemma hf_eq b0 b1 : byte_ok b0 -> byte_ok b1 -> hf (hword b0 b1) = (128 <=? b0).
Proof.
  intros B0 B1. unfold hf. change 1 with (Z.ones 1). rewrite Z.land_ones by lia. rewrite Z.shiftr_div_pow2 by lia. rewrite hword_eq by (red in B0; lia || assumption).
  change (2 ^ 15) with 32768. change (2 ^ 1) with 2. red in B0, B1. destruct (128 <=? b0) eqn:Q; dlia.
Qed.
Lemma irap_spec c t : irap c t = random_access c t.
Proof. destruct c; unfold irap, random_access; cbn [existsb]; lia. Qed.
Lemma nty_range c n : bytes_ok n -> 2 <= zlen n -> 0 <= nty c n < match c with Hevc => 64 | Vvc => 32 end.
Proof.
  intros B L. destruct n as [|b0 [|b1 r]]; try (cbn in L; lia). pose proof (Forall_inv B) as B0. pose proof (Forall_inv (Forall_inv_tail B)) as B1. red in B0, B1.
  destruct c; cbn [nty nth]; dlia.
Qed.

Lemma hdr_facts c b0 b1 : byte_ok b0 -> byte_ok b1 -> b0 < 128 -> let t := htype c (hword b0 b1) in
  exists x y, retype c (hword b0 b1) (t_fu c) = [x; y] /\ byte_ok x /\ byte_ok y /\ x < 128 /\ htype c (hword x y) = t_fu c /\
    retype c (hword x y) t = [b0; b1].
Proof.
  intros B0 B1 F t. assert (0 <= t < match c with Hevc => 64 | Vvc => 32 end) as T.
  { subst t. rewrite (htype_nty c b0 b1 []) by assumption. apply nty_range; [repeat constructor; apply B0 || apply B1|cbn; lia]. }
  subst t. destruct c; cbn [t_fu].
  - rewrite retype_hevc by (assumption || lia). eexists _, _. split; [reflexivity|]. rewrite (htype_hevc_high b0 b1) in * by assumption.
    pose proof (brute 128 (fun b0 => let x := Z.lor (Z.land b0 129) (2 * 49) in (0 <=? x) && (x <? 128) && (x / 2 mod 64 =? 49) && (Z.lor (Z.land x 129) (2 * (b0 / 2 mod 64)) =? b0)) ltac:(vm_compute; reflexivity) b0 ltac:(red in B0; lia)) as Q.
    cbv beta zeta in Q. rewrite !andb_true_iff, !Z.eqb_eq in Q. destruct Q as (((Q1 & Q2) & Q3) & Q4). assert (byte_ok (Z.lor (Z.land b0 129) (2 * 49))) as BX by (red; lia).
    split; [exact BX|]. split; [assumption|]. split; [lia|]. split; [rewrite htype_hevc_high by assumption; exact Q3|]. rewrite retype_hevc by (assumption || lia). rewrite Q4. reflexivity.
  - rewrite retype_vvc by (assumption || lia). eexists _, _. split; [reflexivity|]. rewrite (htype_vvc_low b0 b1) in * by assumption.
    pose proof (brute 256 (fun b1 => let y := Z.lor (8 * 29) (Z.land b1 7) in (0 <=? y) && (y <? 256) && (y / 8 =? 29) && (Z.lor (8 * (b1 / 8)) (Z.land y 7) =? b1)) ltac:(vm_compute; reflexivity) b1 ltac:(red in B1; lia)) as Q.
    cbv beta zeta in Q. rewrite !andb_true_iff, !Z.eqb_eq in Q. destruct Q as (((Q1 & Q2) & Q3) & Q4). assert (byte_ok (Z.lor (8 * 29) (Z.land b1 7))) as BX by (red; lia).
    split; [assumption|]. split; [exact BX|]. split; [lia|]. split; [rewrite htype_vvc_low by assumption; exact Q3|]. rewrite retype_vvc by (assumption || lia). rewrite Q4. reflexivity.
Qed.
Lemma fu_facts c s e t : 0 <= t < match c with Hevc => 64 | Vvc => 32 end -> let f := fu_header c s e t in
  bit f 128 = s /\ bit f 64 = e /\ Z.land f (fu_mask c) = t.
Proof.
  intros T f. subst f. destruct c.
  - pose proof (brute 64 (fun t => forallb (fun '(s, e) => let f := fu_header Hevc s e t in Bool.eqb (bit f 128) s && Bool.eqb (bit f 64) e && (Z.land f 63 =? t)) [(true, true); (true, false); (false, true); (false, false)]) ltac:(vm_compute; reflexivity) t T) as Q.
    cbv beta in Q. rewrite forallb_forall in Q. specialize (Q (s, e)). cbv beta iota zeta in Q. rewrite !andb_true_iff, !eqb_true_iff, Z.eqb_eq in Q.
    cbn [fu_mask]. destruct Q as [[Q1 Q2] Q3]; [destruct s, e; cbn; auto|auto].
  - pose proof (brute 32 (fun t => forallb (fun '(s, e) => let f := fu_header Vvc s e t in Bool.eqb (bit f 128) s && Bool.eqb (bit f 64) e && (Z.land f 31 =? t)) [(true, true); (true, false); (false, true); (false, false)]) ltac:(vm_compute; reflexivity) t T) as Q.
    cbv beta in Q. rewrite forallb_forall in Q. specialize (Q (s, e)). cbv beta iota zeta in Q. rewrite !andb_true_iff, !eqb_true_iff, Z.eqb_eq in Q.
    cbn [fu_mask]. destruct Q as [[Q1 Q2] Q3]; [destruct s, e; cbn; auto|auto].
Qed.

(** * Splitting *)
Lemma scan266_clean : forall n i rest, (forall a b, n <> a ++ [0; 0; 1] ++ b) -> (forall a, n <> a ++ [0]) -> n <> [] ->
  scan266 i (n ++ rest) = scan266 (i + zlen n) rest.
Proof.
  induction n as [|a n IH]; intros i rest C L NE; [congruence|].
  assert (n = [] -> a <> 0) as LA by (intros -> ->; apply (L []); reflexivity).
  assert (forall b, n = [b] -> b <> 0) as LB by (intros b -> ->; apply (L [a]); reflexivity).
  assert (forall b d, n = [b; d] -> d <> 0) as LD by (intros b d -> ->; apply (L [a; b]); reflexivity).
  assert (scan266 i ((a :: n) ++ rest) = scan266 (i + 1) (n ++ rest)) as ->.
  { cbn [app]. destruct (n ++ rest) as [|b [|d r]] eqn:E; [reflexivity|reflexivity|]. cbn [scan266].
    destruct ((a =? 0) && (b =? 0) && (d =? 1)) eqn:Q1.
    { exfalso. assert (a = 0 /\ b = 0 /\ d = 1) as (-> & -> & ->) by lia. destruct n as [|b' [|d' n]]; [apply LA; reflexivity| |].
      - cbn [app] in E. injection E as -> _. apply (LB 0); reflexivity.
      - cbn [app] in E. injection E as -> -> _. apply (C [] n). reflexivity. }
    destruct ((a =? 0) && (b =? 0) && (d =? 0) && match r with d :: _ => d =? 1 | [] => false end) eqn:Q2; [|reflexivity].
    exfalso. destruct r as [|e r]; [rewrite andb_false_r in Q2; discriminate|]. assert (a = 0 /\ b = 0 /\ d = 0 /\ e = 1) as (-> & -> & -> & ->) by lia.
    destruct n as [|b' [|d' [|e' n]]]; [apply LA; reflexivity| | |].
    - cbn [app] in E. injection E as -> _. apply (LB 0); reflexivity.
    - cbn [app] in E. injection E as -> -> _. apply (LD 0 0); reflexivity.
    - cbn [app] in E. injection E as -> -> -> _. apply (C [0] n). reflexivity. }
  destruct n as [|b n]; [cbn [app]; change (zlen [a]) with 1; reflexivity|]. rewrite IH; [rewrite (zlen_cons a); f_equal; lia| | |discriminate].
  - intros p q E. apply (C (a :: p) q). rewrite E. reflexivity.
  - intros p E. apply (L (a :: p)). rewrite E. reflexivity.
Qed.
Lemma scan266_code i k rest : (k <= 1)%nat -> scan266 i (code k ++ rest) = Some (i, zlen (code k)).
Proof. intro K. destruct k as [|[|k]]; [reflexivity|reflexivity|lia]. Qed.
Lemma skipn_zlen (pre l : list Z) : skipn (Z.to_nat (zlen pre)) (pre ++ l) = l.
Proof. unfold zlen. rewrite Nat2Z.id, skipn_app, skipn_all, Nat.sub_diag. reflexivity. Qed.
Lemma firstn_zlen (pre l : list Z) : firstn (Z.to_nat (zlen pre)) (pre ++ l) = pre.
Proof. unfold zlen. rewrite Nat2Z.id, firstn_app, firstn_all, Nat.sub_diag. apply app_nil_r. Qed.
Lemma nalu_ne c n : nalu c n -> n <> [].
Proof. intros (_ & L & _) ->. cbn in L. lia. Qed.
Lemma next_end c pre n : nalu c n -> next_code c (pre ++ n) (zlen pre) = Ok None.
Proof.
  intro N. pose proof (nalu_ne c n N). destruct N as (_ & _ & _ & _ & C & L). destruct c; unfold next_code.
  - rewrite from_app. cbn [bind]. f_equal. rewrite <- (app_nil_r n) at 1. change 0 with (Z.of_nat 0) at 2. rewrite scan_clean by assumption. reflexivity.
  - rewrite skipn_zlen. f_equal. rewrite <- (app_nil_r n) at 1. rewrite scan266_clean by assumption. reflexivity.
Qed.
Lemma next_mid c pre n k rest : nalu c n -> code_ok c k -> next_code c (pre ++ n ++ code k ++ rest) (zlen pre) = Ok (Some (zlen pre + zlen n, zlen (code k))).
Proof.
  intros N K. pose proof (nalu_ne c n N). destruct N as (_ & _ & _ & _ & C & L). destruct c; unfold next_code.
  - rewrite from_app. cbn [bind]. f_equal. change 0 with (Z.of_nat 0) at 2. rewrite scan_clean by assumption. rewrite scan_code. f_equal.
  - rewrite skipn_zlen. f_equal. rewrite scan266_clean by assumption. apply scan266_code. exact K.
Qed.
Lemma next_code0 c k rest : code_ok c k -> next_code c (code k ++ rest) 0 = Ok (Some (0, zlen (code k))).
Proof.
  intro K. destruct c; unfold next_code.
  - rewrite (from_app [] (code k ++ rest) : from (code k ++ rest) 0 = Ok _). cbn [bind]. f_equal. apply scan_code.
  - f_equal. cbn [Z.to_nat skipn]. apply scan266_code. exact K.
Qed.

Fixpoint nemits (c : nal_codec) (st : nalp) (ns : list (list Z)) (mtu : Z) : nalp * list (list Z) :=
  match ns with
  | [] => (st, [])
  | n :: r => let (st1, ps) := emit_nalu c st n mtu in let (st2, qs) := nemits c st1 r mtu in (st2, ps ++ qs)
  end.
Lemma walk_emits c mtu : forall us fuel st pre k n, Forall (nalu c) (map snd us) -> Forall (fun u => code_ok c (fst u)) us -> nalu c n -> (length us < fuel)%nat ->
  walk fuel c st (pre ++ code k ++ n ++ annex_b us) mtu (Some (zlen pre, zlen (code k))) = Ok (nemits c st (n :: map snd us) mtu).
Proof.
  induction us as [|[k2 n2] us IH]; intros fuel st pre k n F K N L; (destruct fuel as [|fuel]; [cbn in L; lia|]); cbn [walk];
    rewrite <- zlen_app; rewrite (app_assoc pre (code k)).
  - cbn [annex_b map concat]. rewrite app_nil_r. rewrite next_end by exact N. cbn [bind]. rewrite from_app. cbn [bind nemits].
    destruct (emit_nalu c st n mtu) as [st' ps]. destruct fuel; reflexivity.
  - pose proof (Forall_inv K) as K1. cbn [fst] in K1. cbn [annex_b map concat]. fold (annex_b us). rewrite <- (app_assoc (code k2)). rewrite next_mid by assumption. cbn [bind].
    rewrite slice_mid. cbn [bind nemits map snd].
    destruct (emit_nalu c st n mtu) as [st' ps] eqn:E.
    pose proof (IH fuel st' ((pre ++ code k) ++ n) k2 n2 (Forall_inv_tail F) (Forall_inv_tail K) (Forall_inv F) ltac:(cbn in L; lia)) as I.
    replace (zlen (pre ++ code k) + zlen n) with (zlen ((pre ++ code k) ++ n)) by (rewrite zlen_app; reflexivity).
    rewrite <- (app_assoc (pre ++ code k) n) in I. rewrite I. cbn [bind]. cbn [nemits]. destruct (emit_nalu c st' n2 mtu) as [? ?]. destruct (nemits _ _ (map snd us) mtu). reflexivity.
Qed.
Lemma nannex_len us : (length us <= length (annex_b us))%nat.
Proof.
  induction us as [|[k n] us IH]; [cbn; lia|]. cbn [annex_b map concat length]. rewrite !app_length. unfold annex_b in IH.
  assert (1 <= length (code k))%nat by (unfold code; rewrite app_length; cbn; lia). lia.
Qed.
Lemma nal_packetize_annex c st mtu us : Forall (nalu c) (map snd us) -> Forall (fun u => code_ok c (fst u)) us -> 4 <= mtu -> us <> [] ->
  nal_packetize c st mtu (annex_b us) = Ok (nemits c st (map snd us) (Z.min mtu 1200)).
Proof.
  intros F K M NE. destruct us as [|[k n] us]; [congruence|]. unfold nal_packetize, max_packet.
  assert (3 <= zlen (annex_b ((k, n) :: us))) as L.
  { cbn [annex_b map concat]. rewrite !zlen_app, zlen_code. pose proof (zlen_nonneg n). pose proof (zlen_nonneg (concat (map (fun '(k0, n0) => code k0 ++ n0) us))). lia. }
  replace ((zlen (annex_b ((k, n) :: us)) =? 0) || (mtu =? 0)) with false by lia. replace ((mtu <=? 1200) && (mtu <? 4)) with false by lia.
  replace (if 1200 <? mtu then 1200 else mtu) with (Z.min mtu 1200) by (destruct (1200 <? mtu) eqn:Q; lia).
  change (annex_b ((k, n) :: us)) with ((code k ++ n) ++ annex_b us). rewrite <- app_assoc. pose proof (Forall_inv K) as K1. cbn [fst] in K1. rewrite next_code0 by exact K1. cbn [bind].
  change (Some (0, zlen (code k))) with (Some (zlen (@nil Z), zlen (code k))).
  apply (walk_emits c (Z.min mtu 1200) us _ st [] k n (Forall_inv_tail F) (Forall_inv_tail K) (Forall_inv F)).
  pose proof (nannex_len us). rewrite !app_length. lia.
Qed.
Lemma nal_packetize_bare c st mtu n : nalu c n -> 4 <= mtu -> nal_packetize c st mtu n = Ok (nemits c st [n] (Z.min mtu 1200)).
Proof.
  intros N M. unfold nal_packetize, max_packet. assert (3 <= zlen n) as L by apply N.
  replace ((zlen n =? 0) || (mtu =? 0)) with false by lia. replace ((mtu <=? 1200) && (mtu <? 4)) with false by lia.
  replace (if 1200 <? mtu then 1200 else mtu) with (Z.min mtu 1200) by (destruct (1200 <? mtu) eqn:Q; lia).
  pose proof (next_end c [] n N) as E. cbn [app] in E. change (zlen (@nil Z)) with 0 in E. rewrite E. cbn [bind nemits]. destruct (emit_nalu c st n (Z.min mtu 1200)). rewrite app_nil_r. reflexivity.
Qed.

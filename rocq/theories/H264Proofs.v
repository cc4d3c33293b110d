From Verif Require Import Base BaseFacts Brute BufRxSpec Vp8Model Vp8Spec Vp8Proofs H264Model H264Spec.

(** * Splitting *)
Lemma scan_clean start : forall n z i rest, (forall a b, repeat 0 z ++ n <> a ++ [0; 0; 1] ++ b) -> (forall a, n <> a ++ [0]) -> n <> [] ->
  scan start (n ++ rest) i (Z.of_nat z) = scan start rest (i + zlen n) 0.
Proof.
  induction n as [|b n IH]; intros z i rest C L NE; [congruence|]. cbn [app scan].
  destruct (b =? 0) eqn:B0.
  - assert (b = 0) by lia. subst b. destruct n as [|c n]; [exfalso; apply (L []); reflexivity|].
    replace (Z.of_nat z + 1) with (Z.of_nat (S z)) by lia. rewrite IH.
    + rewrite (zlen_cons 0). f_equal. lia.
    + intros a b E. apply (C a b). rewrite <- E. change (repeat 0 (S z)) with (0 :: repeat 0 z). rewrite repeat_cons, <- app_assoc. reflexivity.
    + intros a E. apply (L (0 :: a)). rewrite E. reflexivity.
    + discriminate.
  - destruct ((b =? 1) && (2 <=? Z.of_nat z)) eqn:B1.
    { exfalso. assert (b = 1) by lia. subst b. apply (C (repeat 0 (z - 2)) n). replace z with ((z - 2) + 2)%nat at 1 by lia.
      rewrite repeat_app, <- app_assoc. reflexivity. }
    destruct n as [|c n]. { cbn [app]. change (zlen [b]) with 1. reflexivity. }
    change 0 with (Z.of_nat 0) at 1. rewrite IH; [rewrite (zlen_cons b); f_equal; lia| | |discriminate].
    + cbn [repeat app]. intros a d E. apply (C (repeat 0 z ++ b :: a) d). rewrite E. rewrite <- app_assoc. reflexivity.
    + intros a E. apply (L (b :: a)). rewrite E. reflexivity.
Qed.
Lemma scan_zeros start rest : forall m i z, 2 <= z + Z.of_nat m -> scan start (repeat 0 m ++ 1 :: rest) i z = Some (start + i - z, z + Z.of_nat m + 1).
Proof.
  induction m as [|m IH]; intros i z H; cbn [repeat app scan].
  - change (1 =? 0) with false. change (1 =? 1) with true. destruct (2 <=? z) eqn:Q; [|lia]. cbn [andb]. f_equal. f_equal; lia.
  - change (0 =? 0) with true. cbv iota. rewrite IH by lia. f_equal. f_equal; lia.
Qed.
Lemma zlen_code k : zlen (code k) = Z.of_nat k + 3.
Proof. unfold code. rewrite zlen_app, zlen_repeat. change (zlen [1]) with 1. lia. Qed.
Lemma scan_code start k rest i : scan start (code k ++ rest) i 0 = Some (start + i, zlen (code k)).
Proof. unfold code. rewrite <- app_assoc. cbn [app]. rewrite scan_zeros by lia. f_equal. f_equal; [lia|]. fold (code k). rewrite zlen_code. lia. Qed.
Lemma nal_scan start n rest i : nal n -> scan start (n ++ rest) i 0 = scan start rest (i + zlen n) 0.
Proof.
  intros (_ & (b & r & -> & _) & C & L). change 0 with (Z.of_nat 0) at 1. apply scan_clean; [exact C|exact L|discriminate].
Qed.

Fixpoint emits (st : h264p) (ns : list (list Z)) (mtu : Z) : h264p * list (list Z) :=
  match ns with
  | [] => (st, [])
  | n :: r => let (st1, ps) := emit st n mtu in let (st2, qs) := emits st1 r mtu in (st2, ps ++ qs)
  end.

Lemma loop_emits mtu : forall us fuel st pre k n, Forall nal (map snd us) -> nal n -> (length us < fuel)%nat ->
  emit_loop fuel st (pre ++ code k ++ n ++ annex_b us) mtu (Some (zlen pre, zlen (code k))) = Ok (emits st (n :: map snd us) mtu).
Proof.
  induction us as [|[k2 n2] us IH]; intros fuel st pre k n F N L; (destruct fuel as [|fuel]; [cbn in L; lia|]); cbn [emit_loop]; unfold next_ind;
    rewrite <- zlen_app; rewrite (app_assoc pre (code k)); rewrite from_app; cbn [bind].
  - cbn [annex_b map concat]. rewrite nal_scan by exact N. cbn [scan]. rewrite !app_nil_r. cbn [bind emits].
    destruct (emit st n mtu) as [st' ps]. destruct fuel; reflexivity.
  - cbn [annex_b map concat]. rewrite nal_scan by exact N. fold (annex_b us). rewrite <- (app_assoc (code k2)), scan_code.
    replace (zlen (pre ++ code k) + (0 + zlen n)) with (zlen (pre ++ code k) + zlen n) by lia. rewrite slice_mid. cbn [bind emits map snd].
    destruct (emit st n mtu) as [st' ps] eqn:E.
    pose proof (IH fuel st' ((pre ++ code k) ++ n) k2 n2 (Forall_inv_tail F) (Forall_inv F) ltac:(cbn in L; lia)) as I.
    replace (zlen (pre ++ code k) + zlen n) with (zlen ((pre ++ code k) ++ n)) by (rewrite zlen_app; reflexivity).
    rewrite <- (app_assoc (pre ++ code k) n) in I. rewrite I. cbn [bind]. cbn [emits]. destruct (emit st' n2 mtu) as [? ?]. destruct (emits _ (map snd us) mtu). reflexivity.
Qed.

Lemma annex_b_len us : Forall nal (map snd us) -> (length us <= length (annex_b us))%nat.
Proof.
  induction us as [|[k n] us IH]; intro F; [cbn; lia|]. cbn [annex_b map concat length]. rewrite !app_length. specialize (IH (Forall_inv_tail F)). unfold annex_b in IH.
  assert (1 <= length (code k))%nat by (unfold code; rewrite app_length; cbn; lia). lia.
Qed.
Lemma packetize_annex st mtu us : Forall nal (map snd us) -> 0 < mtu -> us <> [] ->
  h264_packetize st mtu (annex_b us) = Ok (emits st (map snd us) mtu).
Proof.
  intros F M NE. destruct us as [|[k n] us]; [congruence|]. unfold h264_packetize.
  assert (3 <= zlen (annex_b ((k, n) :: us))) as L.
  { cbn [annex_b map concat]. rewrite !zlen_app, zlen_code. pose proof (zlen_nonneg n). pose proof (zlen_nonneg (concat (map (fun '(k0, n0) => code k0 ++ n0) us))). lia. }
  destruct ((zlen (annex_b ((k, n) :: us)) =? 0) || (mtu =? 0)) eqn:Q; [lia|].
  unfold next_ind. rewrite (from_app [] (annex_b ((k, n) :: us)) : from (annex_b ((k, n) :: us)) 0 = Ok _). cbn [bind].
  change (annex_b ((k, n) :: us)) with ((code k ++ n) ++ annex_b us). rewrite <- app_assoc. rewrite scan_code.
  change (Some (0 + 0, zlen (code k))) with (Some (zlen (@nil Z), zlen (code k))).
  apply (loop_emits mtu us _ st [] k n (Forall_inv_tail F) (Forall_inv F)).
  pose proof (annex_b_len us (Forall_inv_tail F)). rewrite !app_length. lia.
Qed.
Lemma packetize_bare st mtu n : nal n -> 0 < mtu -> h264_packetize st mtu n = Ok (emits st [n] mtu).
Proof.
  intros N M. unfold h264_packetize. assert (0 < zlen n) as L. { destruct N as (_ & (b & r & -> & _) & _). rewrite zlen_cons. pose proof (zlen_nonneg r). lia. }
  destruct ((zlen n =? 0) || (mtu =? 0)) eqn:Q; [lia|]. unfold next_ind. rewrite (from_app [] n : from n 0 = Ok _).
  cbn [bind]. pose proof (nal_scan 0 n [] 0 N) as S. rewrite app_nil_r in S. rewrite S. cbn [scan emits]. destruct (emit st n mtu). rewrite app_nil_r. reflexivity.
Qed.

(** * Receiving *)
Lemma feed_app {DS X} (dep : DS -> list Z -> list Z -> X -> DS * option (list Z * X)) : forall a b d out x,
  feed dep d (a ++ b) out x = match feed dep d a out x with (d', Some (o, x')) => feed dep d' b o x' | (d', None) => (d', None) end.
Proof.
  induction a as [|p a IH]; intros b d out x; [reflexivity|]. cbn [app feed]. destruct (dep d p out x) as [d' [[o x']|]]; [apply IH|reflexivity].
Qed.

Lemma bits_head b : 0 <= b < 128 -> let f := Z.lor 28 (nal_ref b) in let t := nal_type b in
  0 <= f < 128 /\ nal_type f = 28 /\ nal_ref f = nal_ref b /\ nal_type (Z.lor t 128) = t /\ nal_type (Z.lor t 64) = t /\ nal_type t = t /\
  bit (Z.lor t 128) 64 = false /\ bit (Z.lor t 64) 64 = true /\ bit t 64 = false /\ Z.lor (nal_ref b) t = b /\
  bit (Z.lor t 128) 128 = true /\ bit (Z.lor t 64) 128 = false /\ bit t 128 = false.
Proof.
  intro H. pose proof (brute 128 (fun b => let f := Z.lor 28 (nal_ref b) in let t := nal_type b in
  (0 <=? f) && (f <? 128) && (nal_type f =? 28) && (nal_ref f =? nal_ref b) && (nal_type (Z.lor t 128) =? t) && (nal_type (Z.lor t 64) =? t) && (nal_type t =? t) &&
  negb (bit (Z.lor t 128) 64) && bit (Z.lor t 64) 64 && negb (bit t 64) && (Z.lor (nal_ref b) t =? b) &&
  bit (Z.lor t 128) 128 && negb (bit (Z.lor t 64) 128) && negb (bit t 128)) ltac:(vm_compute; reflexivity) b H) as Q.
  cbv beta zeta in Q |- *. rewrite !andb_true_iff, !negb_true_iff, !Z.eqb_eq in Q. intuition lia.
Qed.

Definition marks (x : option bool) (ns : list (list Z)) : option bool := fold_left (fun x n => mark_key (ty n) x) ns x.
Definition hfrag (b0 : Z) (f : bool * bool * list Z) : list Z := let '(first, last, d) := f in
  Z.lor 28 (nal_ref b0) :: (if first : bool then Z.lor (nal_type b0) 128 else if last : bool then Z.lor (nal_type b0) 64 else nal_type b0) :: d.

Lemma fua_rest avc b0 : 0 <= b0 < 128 -> forall fs buf out x, fs <> [] -> Forall (fun f => fst (fst f) = false) fs ->
  (forall a f b, fs = a ++ f :: b -> snd (fst f) = true <-> b = []) ->
  feed h264_depacketize (mkHd avc (Some buf)) (map (hfrag b0) fs) out x =
  (mkHd avc None, Some (out ++ prefix avc (zlen (buf ++ concat (map snd fs)) + 1) ++ [b0] ++ buf ++ concat (map snd fs), mark_key (nal_type b0) x)).
Proof.
  intros B. destruct (bits_head b0 B) as (_ & H1 & H2 & H3 & H4 & H5 & H6 & H7 & H8 & H9 & _).
  induction fs as [|[[first last] d] fs IH]; intros buf out x NE F L; [congruence|].
  pose proof (Forall_inv F) as F1. cbn [fst] in F1. subst first. cbn [map feed hfrag]. unfold h264_depacketize at 1. rewrite H1.
  change ((1 <=? 28) && (28 <=? 23)) with false. change (28 =? 24) with false. change (28 =? 28) with true. cbv iota. cbn [fua_buffer is_avc].
  pose proof (L [] _ fs eq_refl) as LL. cbn [fst snd] in LL. destruct last.
  - assert (fs = []) by tauto. subst fs. rewrite H7, H4, H2, H9. cbn [map concat snd feed]. rewrite app_nil_r. reflexivity.
  - assert (fs <> []) as NE2 by (intro E; destruct LL as [_ LL]; specialize (LL E); discriminate).
    rewrite H8. cbv iota. rewrite IH; [|exact NE2|exact (Forall_inv_tail F)|].
    + cbn [map concat snd]. rewrite <- !app_assoc. reflexivity.
    + intros a f b E. apply (L ((false, false, d) :: a)). rewrite E. reflexivity.
Qed.

Lemma fua_round avc mtu b0 data out x : 0 <= b0 < 128 -> 3 <= mtu -> mtu < 1 + zlen data ->
  feed h264_depacketize (mkHd avc None) (fua mtu b0 data) out x =
  (mkHd avc None, Some (out ++ prefix avc (zlen data + 1) ++ b0 :: data, mark_key (nal_type b0) x)) /\
  Forall (fun p => 0 < zlen p <= mtu) (fua mtu b0 data) /\ existsb detect_h264_keyframe (fua mtu b0 data) = (nal_type b0 =? 5) /\
  (exists p r, fua mtu b0 data = p :: r /\ h264_head p = true /\ Forall (fun q => h264_head q = false) r).
Proof.
  intros B M L. destruct (bits_head b0 B) as (HA & H1 & H2 & H3 & H4 & H5 & H6 & H7 & H8 & H9 & H10 & H11 & H12).
  assert (data <> []) as NE by (intro E; subst data; cbn in L; lia).
  destruct (frags_ok (mtu - 2) data ltac:(lia) NE) as (F1 & F2 & (b & d & r & F3 & F4) & F5).
  unfold fua. destruct (Z.min (mtu - 2) (zlen data) <=? 0) eqn:Q; [lia|]. fold (hfrag b0).
  change (map (fun '(first, last, d) => Z.lor 28 (nal_ref b0) :: (if first : bool then Z.lor (nal_type b0) 128 else if last : bool then Z.lor (nal_type b0) 64 else nal_type b0) :: d) (frags (mtu - 2) data)) with (map (hfrag b0) (frags (mtu - 2) data)).
  rewrite F3 in *. cbn [map concat snd] in F1.
  assert (r <> []) as NR.
  { intro E. subst r. cbn [map concat] in F1. rewrite app_nil_r in F1. subst d. pose proof (Forall_inv F2) as G. cbn [snd] in G. lia. }
  assert (b = false) as ->.
  { destruct b; [|reflexivity]. destruct (F5 [] _ r eq_refl) as [G _]. specialize (G eq_refl). congruence. }
  split; [|split; [|split]].
  - cbn [map feed hfrag]. unfold h264_depacketize at 1. rewrite H1.
    change ((1 <=? 28) && (28 <=? 23)) with false. change (28 =? 24) with false. change (28 =? 28) with true. cbv iota. cbn [fua_buffer is_avc app].
    rewrite H6. cbv iota. rewrite fua_rest; [|exact B|exact NR|exact F4|].
    + rewrite F1. reflexivity.
    + intros a f bb E. apply (F5 ((true, false, d) :: a)). rewrite E. reflexivity.
  - apply Forall_forall. intros q Hq. apply in_map_iff in Hq as ([[f bb] dd] & <- & Hf). rewrite Forall_forall in F2. specialize (F2 _ Hf). cbn [snd] in F2.
    cbn [hfrag]. rewrite !zlen_cons. lia.
  - cbn [map existsb hfrag]. unfold detect_h264_keyframe at 1. rewrite H1.
    change ((1 <=? 28) && (28 <=? 23)) with false. change (28 =? 24) with false. change (28 =? 28) with true. cbv iota. rewrite H10, H3. cbn [andb].
    assert (existsb detect_h264_keyframe (map (hfrag b0) r) = false) as ->; [|apply orb_false_r].
    clear - F4 H1 H11 H12. induction r as [|[[f bb] dd] r IH]; [reflexivity|]. pose proof (Forall_inv F4) as G. cbn [fst] in G. subst f. cbn [map existsb hfrag].
    rewrite (IH (Forall_inv_tail F4)). rewrite orb_false_r. unfold detect_h264_keyframe. rewrite H1.
    change ((1 <=? 28) && (28 <=? 23)) with false. change (28 =? 24) with false. change (28 =? 28) with true. cbv iota. destruct bb; rewrite ?H11, ?H12; reflexivity.
  - eexists _, _. split; [reflexivity|]. split.
    + cbn [hfrag h264_head]. rewrite H1. change (28 =? 28) with true. cbn [orb]. exact H10.
    + apply Forall_forall. intros q Hq. apply in_map_iff in Hq as ([[f bb] dd] & <- & Hf). rewrite Forall_forall in F4. specialize (F4 _ Hf). cbn [fst] in F4. subst f.
      cbn [hfrag h264_head]. rewrite H1. change (28 =? 28) with true. cbn [orb]. destruct bb; [exact H11|exact H12].
Qed.

Lemma lor16 v : 0 <= v < U16 -> Z.lor (Z.shiftl (v / 256 mod 256) 8) (v mod 256) = v.
Proof.
  intro H. unfold U16 in H. rewrite (lor_add _ _ 8); [|lia|change (2 ^ 8) with 256; apply Z.mod_pos_bound; lia|rewrite Z.shiftl_mul_pow2 by lia; apply Z.mod_mul; lia].
  rewrite Z.shiftl_mul_pow2 by lia. change (2 ^ 8) with 256. rewrite (Z.mod_small (v / 256)); [|split; [apply Z.div_pos; lia|apply Z.div_lt_upper_bound; lia]].
  pose proof (Z.div_mod v 256 ltac:(lia)). lia.
Qed.

Lemma stap_round avc s p out x : s <> [] -> p <> [] -> zlen s < U16 -> zlen p < U16 ->
  h264_depacketize (mkHd avc None) (stap_a s p) out x =
  (mkHd avc None, Some (out ++ prefix avc (zlen s) ++ s ++ prefix avc (zlen p) ++ p, mark_key (ty p) (mark_key (ty s) x))) /\
  detect_h264_keyframe (stap_a s p) = (ty s =? 5) || (ty p =? 5).
Proof.
  intros NS NP LS LP. pose proof (zlen_nonneg s). pose proof (zlen_nonneg p). unfold stap_a. rewrite !Z.mod_small by lia. cbn [app].
  assert (forall rest, Z.to_nat (zlen s) = length s /\ firstn (length s) (s ++ rest) = s /\ skipn (length s) (s ++ rest) = rest) as SK.
  { intro rest. split; [unfold zlen; lia|]. rewrite firstn_app, Nat.sub_diag, firstn_all, skipn_app, Nat.sub_diag, skipn_all. cbn. rewrite app_nil_r. auto. }
  assert (Z.to_nat (zlen p) = length p) as ZP by (unfold zlen; lia).
  split.
  - unfold h264_depacketize. change (nal_type 120) with 24. change ((1 <=? 24) && (24 <=? 23)) with false. change (24 =? 24) with true. cbv iota. cbn [is_avc].
    f_equal. unfold be16. cbn [app]. cbn [length]. rewrite app_length. cbn [length].
    remember (length s + S (S (length p)))%nat as fuel eqn:EF. destruct fuel as [|fuel]; [lia|]. cbn [stap_loop].
    rewrite lor16 by lia. destruct (zlen (s ++ _) <? zlen s) eqn:Q; [rewrite zlen_app in Q; pose proof (zlen_nonneg (zlen p / 256 mod 256 :: zlen p mod 256 :: p)); lia|].
    destruct (SK (zlen p / 256 mod 256 :: zlen p mod 256 :: p)) as (S1 & S2 & S3).
    destruct (s ++ zlen p / 256 mod 256 :: zlen p mod 256 :: p) as [|b1 r1] eqn:ES; [destruct s; discriminate|].
    rewrite S1, S2, S3. assert (ty s = nal_type b1) as <-. { destruct s; [congruence|]. cbn [app] in ES. injection ES as -> _. reflexivity. }
    cbn [stap_loop]. rewrite lor16 by lia. destruct (zlen p <? zlen p) eqn:Q3; [lia|]. rewrite ZP, firstn_all, skipn_all.
    destruct p as [|bp p]; [congruence|]. cbn [ty]. destruct fuel; cbn [stap_loop]; rewrite <- !app_assoc; reflexivity.
  - unfold detect_h264_keyframe. change (nal_type 120) with 24. change ((1 <=? 24) && (24 <=? 23)) with false. change (24 =? 24) with true. cbv iota.
    unfold be16. cbn [app]. cbn [length]. rewrite app_length. cbn [length].
    remember (length s + S (S (length p)))%nat as fuel eqn:EF. destruct fuel as [|fuel]; [lia|]. cbn [stap_key].
    rewrite lor16 by lia. destruct (zlen (s ++ _) <? zlen s) eqn:Q; [rewrite zlen_app in Q; pose proof (zlen_nonneg (zlen p / 256 mod 256 :: zlen p mod 256 :: p)); lia|].
    destruct (SK (zlen p / 256 mod 256 :: zlen p mod 256 :: p)) as (S1 & S2 & S3). rewrite S1, S3.
    destruct (s ++ zlen p / 256 mod 256 :: zlen p mod 256 :: p) as [|b1 r1] eqn:ES; [destruct s; discriminate|].
    assert (ty s = nal_type b1) as <-. { destruct s; [congruence|]. cbn [app] in ES. injection ES as -> _. reflexivity. }
    cbn [stap_key]. rewrite lor16 by lia. destruct (zlen p <? zlen p) eqn:Q3; [lia|]. rewrite ZP, skipn_all.
    destruct p as [|bp p]; [congruence|]. cbn [ty]. destruct fuel; cbn [stap_key]; rewrite orb_false_r; reflexivity.
Qed.

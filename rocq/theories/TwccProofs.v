(** TWCC feedback: write/parse round trip and the meaning of the iterator. *)
From Verif Require Import Base BaseFacts Brute TwccModel TwccSpec RtcpModel RtcpNoPanic.

(** ** chunks *)
Lemma hi_bit x : 0 <= x < 65536 -> (0 <? Z.land x 32768) = (32768 <=? x).
Proof.
  intro H. apply eqb_prop. revert x H. change 65536 with (Z.of_nat (Z.to_nat 65536)).
  apply brute. vm_compute. reflexivity.
Qed.
Lemma hi_bit2 x : 0 <= x < 65536 -> (0 <? Z.land x 16384) = (16384 <=? x mod 32768).
Proof.
  intro H. apply eqb_prop. revert x H. change 65536 with (Z.of_nat (Z.to_nat 65536)).
  apply brute. vm_compute. reflexivity.
Qed.
Lemma chunk_round c r : chunk_ok c -> exists b, chunk_write c = Ok b /\ zlen b = 2 /\ bytes_ok b /\
  chunk_parse (b ++ r) = Ok c /\ from (b ++ r) 2 = Ok r.
Proof.
  intro H. unfold chunk_ok in H. unfold chunk_write.
  assert (forall x, 0 <= x < 65536 ->
     (if 0 <? Z.land x 32768 then
        let n := Z.land x 16383 in if 0 <? Z.land x 16384 then Ok (VDouble n 7) else Ok (VSingle n 14)
      else Ok (Run (status_of (x / 8192 mod 256)) (Z.land x 8191))) = Ok c ->
     exists b, Ok (be16 x) = Ok b /\ zlen b = 2 /\ bytes_ok b /\ chunk_parse (b ++ r) = Ok c /\ from (b ++ r) 2 = Ok r) as K.
  { intros x Hx E. exists (be16 x). split; [reflexivity|]. split; [reflexivity|]. split; [apply be16_ok|].
    split; [|exact (from_app (be16 x) r)].
    unfold chunk_parse. change (be16 x ++ r) with (x / 256 mod 256 :: x mod 256 :: r).
    rewrite !zlen_cons. pose proof (zlen_nonneg r). destruct (1 + (1 + zlen r) <? 2) eqn:L; [lia|].
    ridx. rewrite rd16_be16 by (unfold U16; lia). exact E. }
  destruct c as [s n|v f|v f].
  - destruct (n <=? 8192) eqn:E; [|lia].
    assert (0 <= status_u s <= 3) as Hs by (destruct s; cbn; lia).
    rewrite (lor_add _ _ 13) by (change (2 ^ 13) with 8192; dlia).
    apply K; [lia|]. rewrite hi_bit by lia. destruct (32768 <=? _) eqn:E2; [lia|].
    change 8191 with (2 ^ 13 - 1). rewrite land_mask by lia. change (2 ^ 13) with 8192.
    replace ((status_u s * 8192 + n) mod 8192) with n by dlia.
    replace ((status_u s * 8192 + n) / 8192 mod 256) with (status_u s) by dlia.
    destruct s; reflexivity.
  - destruct H as [Hv ->]. destruct (v <=? 16384) eqn:E; [|lia]. cbn [Z.eqb Pos.eqb andb].
    rewrite (lor_add _ _ 14) by (change (2 ^ 14) with 16384; try reflexivity; lia).
    apply K; [lia|]. rewrite hi_bit, hi_bit2 by lia. destruct (32768 <=? _) eqn:E2; [|lia].
    change 16383 with (2 ^ 14 - 1). rewrite land_mask by lia. change (2 ^ 14) with 16384.
    replace ((32768 + v) mod 16384) with v by dlia. replace ((32768 + v) mod 32768) with v by dlia.
    cbv zeta. destruct (16384 <=? v) eqn:E3; [lia|reflexivity].
  - destruct H as [Hv ->]. destruct (v <=? 16384) eqn:E; [|lia]. cbn [Z.eqb Pos.eqb andb].
    change (Z.lor 32768 16384) with 49152.
    rewrite (lor_add _ _ 14) by (change (2 ^ 14) with 16384; try reflexivity; lia).
    apply K; [lia|]. rewrite hi_bit, hi_bit2 by lia. destruct (32768 <=? _) eqn:E2; [|lia].
    change 16383 with (2 ^ 14 - 1). rewrite land_mask by lia. change (2 ^ 14) with 16384.
    replace ((49152 + v) mod 16384) with v by dlia. replace ((49152 + v) mod 32768) with (16384 + v) by dlia.
    cbv zeta. destruct (16384 <=? 16384 + v) eqn:E3; [reflexivity|lia].
Qed.

Lemma chunk_max_nonneg c : chunk_ok c -> 0 <= chunk_max c.
Proof. destruct c; cbn; lia. Qed.
Lemma size_cons c cs : size (c :: cs) = chunk_max c + size cs. Proof. reflexivity. Qed.
Lemma size_nonneg cs : Forall chunk_ok cs -> 0 <= size cs.
Proof. induction 1 as [|c cs H F IH]; cbn [size fold_right]; [lia|]. fold (size cs). pose proof (chunk_max_nonneg c H). lia. Qed.

Lemma chunks_round : forall cs f todo r, Forall chunk_ok cs -> (length cs < f)%nat ->
  todo <= size cs -> (forall l c, cs = l ++ [c] -> size l < todo) ->
  exists b, chunks_write cs = Ok b /\ zlen b = 2 * zlen cs /\ bytes_ok b /\
    chunks_parse f todo (b ++ r) = Ok (cs, r).
Proof.
  induction cs as [|c cs IH]; intros f todo r F Hf Hs Hp; destruct f as [|f]; try (cbn in Hf; lia); cbn [chunks_write].
  - exists []. repeat split; [constructor|]. cbn [chunks_parse app]. cbn [size fold_right] in Hs.
    destruct (todo <=? 0) eqn:E; [reflexivity|lia].
  - pose proof (Forall_inv F) as Hc. pose proof (Forall_inv_tail F) as F'.
    destruct (IH f (todo - chunk_max c) r F') as (b2 & E2 & L2 & B2 & P2).
    { cbn in Hf; lia. } { rewrite size_cons in Hs; lia. }
    { intros l d ->. specialize (Hp (c :: l) d eq_refl). rewrite size_cons in Hp. lia. }
    destruct (chunk_round c (b2 ++ r) Hc) as (b1 & E1 & L1 & B1 & P1 & Q1).
    exists (b1 ++ b2). rewrite E1, E2. cbn [bind].
    split; [reflexivity|]. split; [rewrite zlen_app, zlen_cons; lia|].
    split; [apply bytes_ok_app; auto|].
    rewrite <- app_assoc. cbn [chunks_parse].
    assert (0 < todo) as T.
    { destruct (@exists_last _ (c :: cs)) as (l & d & E); [discriminate|].
      specialize (Hp l d E). rewrite E in F. apply Forall_app in F.
      pose proof (size_nonneg l (proj1 F)). lia. }
    destruct (todo <=? 0) eqn:E; [lia|]. rewrite P1, Q1. cbn [bind]. rewrite P2. reflexivity.
Qed.

(** ** deltas *)
Lemma smalls_round : forall vs pre r, smalls (length vs) (pre ++ vs ++ r) (zlen pre) = Ok (map Small vs).
Proof.
  induction vs as [|v vs IH]; intros pre r; cbn [length smalls map]; [reflexivity|].
  cbn [app]. rewrite idx_app_r, Z.sub_diag by lia. ridx.
  specialize (IH (pre ++ [v]) r). rewrite zlen_app in IH. change (zlen [v]) with 1 in IH.
  rewrite <- app_assoc in IH. cbn [app] in IH. rewrite IH. reflexivity.
Qed.
Lemma i16_round v : -32768 <= v < 32768 -> to_i16 (rd16 (of_i16 v / 256 mod 256) (of_i16 v mod 256)) = v.
Proof.
  intro H. rewrite rd16_be16 by (unfold of_i16, U16; dlia). unfold to_i16, of_i16.
  destruct (v mod 65536 <? 32768) eqn:E; dlia.
Qed.
Lemma larges_round : forall vs pre r, Forall (fun v => -32768 <= v < 32768) vs ->
  larges (length vs) (pre ++ flat_map (fun v => be16 (of_i16 v)) vs ++ r) (zlen pre) = Ok (map Large vs).
Proof.
  induction vs as [|v vs IH]; intros pre r F; cbn [length larges map]; [reflexivity|].
  cbn [flat_map]. rewrite <- app_assoc. set (tl := flat_map _ vs ++ r) in *.
  rewrite (idx_app_r pre _ (zlen pre)) by lia. rewrite (idx_app_r pre _ (zlen pre + 1)) by lia.
  replace (zlen pre + 1 - zlen pre) with 1 by lia. rewrite Z.sub_diag.
  change (be16 (of_i16 v) ++ tl) with (of_i16 v / 256 mod 256 :: of_i16 v mod 256 :: tl). ridx.
  rewrite i16_round by exact (Forall_inv F).
  specialize (IH (pre ++ be16 (of_i16 v)) r (Forall_inv_tail F)). rewrite zlen_app in IH.
  change (zlen (be16 (of_i16 v))) with 2 in IH. rewrite <- app_assoc in IH. fold tl in IH.
  change (be16 (of_i16 v) ++ tl) with (of_i16 v / 256 mod 256 :: of_i16 v mod 256 :: tl) in IH.
  rewrite IH. reflexivity.
Qed.

Lemma kinds_small ds n : map kind ds = repeat false n -> exists vs, ds = map Small vs /\ length vs = n.
Proof.
  revert ds. induction n as [|n IH]; intros ds H.
  - destruct ds; [|discriminate]. exists []. auto.
  - destruct ds as [|d ds]; [discriminate|]. cbn in H. injection H as H1 H2.
    destruct (IH ds H2) as (vs & -> & L). destruct d as [v|v]; [|discriminate].
    exists (v :: vs). cbn. auto.
Qed.
Lemma kinds_large ds n : map kind ds = repeat true n -> exists vs, ds = map Large vs /\ length vs = n.
Proof.
  revert ds. induction n as [|n IH]; intros ds H.
  - destruct ds; [|discriminate]. exists []. auto.
  - destruct ds as [|d ds]; [discriminate|]. cbn in H. injection H as H1 H2.
    destruct (IH ds H2) as (vs & -> & L). destruct d as [v|v]; [discriminate|].
    exists (v :: vs). cbn. auto.
Qed.
Lemma write_smalls vs : flat_map delta_write (map Small vs) = vs.
Proof. induction vs; cbn; congruence. Qed.
Lemma write_larges vs : flat_map delta_write (map Large vs) = flat_map (fun v => be16 (of_i16 v)) vs.
Proof. induction vs as [|v vs IH]; cbn [map flat_map delta_write]; congruence. Qed.
Lemma larges_len vs : zlen (flat_map (fun v => be16 (of_i16 v)) vs) = 2 * zlen vs.
Proof. induction vs as [|v vs IH]; cbn [flat_map]; [reflexivity|]. rewrite zlen_app, zlen_cons, IH. change (zlen (be16 (of_i16 v))) with 2. lia. Qed.

Lemma read_small_round vs r : read_small (vs ++ r) (zlen vs) = Ok (map Small vs).
Proof.
  unfold read_small. rewrite zlen_app. pose proof (zlen_nonneg r). destruct (_ <? _) eqn:E; [lia|].
  unfold zlen at 1. rewrite Nat2Z.id. exact (smalls_round vs [] r).
Qed.
Lemma read_large_round vs r : Forall (fun v => -32768 <= v < 32768) vs ->
  read_large (flat_map (fun v => be16 (of_i16 v)) vs ++ r) (zlen vs) = Ok (map Large vs).
Proof.
  intro F. unfold read_large. rewrite zlen_app, larges_len. pose proof (zlen_nonneg r). destruct (_ <? _) eqn:E; [lia|].
  unfold zlen at 1. rewrite Nat2Z.id. exact (larges_round vs [] r F).
Qed.
Lemma Forall_larges vs : Forall delta_ok (map Large vs) -> Forall (fun v => -32768 <= v < 32768) vs.
Proof. rewrite Forall_map. auto. Qed.

Lemma needs_app a b : needs (a ++ b) = needs a ++ needs b.
Proof. apply flat_map_app. Qed.
Lemma needs_rep s n : needs (rep s n) = concat (repeat (need s) (Z.to_nat n)).
Proof. unfold needs, rep. induction (Z.to_nat n) as [|k IH]; cbn; [reflexivity|]. rewrite IH. reflexivity. Qed.
Lemma concat_single {A} (x : A) n : concat (repeat [x] n) = repeat x n.
Proof. induction n; cbn; congruence. Qed.
Lemma concat_nils {A} n : concat (repeat (@nil A) n) = [].
Proof. induction n; cbn; congruence. Qed.

Definition boolz_eqb (l : list bool) (n : nat) : bool := Nat.eqb (length l) n && forallb negb l.
Lemma all_false l : forallb negb l = true -> l = repeat false (length l).
Proof.
  induction l as [|b l IH]; intro H; cbn [length repeat]; [reflexivity|]. cbn [forallb] in H.
  apply andb_prop in H. destruct H as [H1 H2]. destruct b; [discriminate|]. f_equal. auto.
Qed.
Lemma single_needs v : 0 <= v < 16384 ->
  needs (chunk_statuses (VSingle v 14)) = repeat false (Z.to_nat (ones 16 v)).
Proof.
  intro H.
  assert (boolz_eqb (needs (chunk_statuses (VSingle v 14))) (Z.to_nat (ones 16 v)) = true) as E.
  { revert v H. change 16384 with (Z.of_nat (Z.to_nat 16384)).
    apply (brute (Z.to_nat 16384) (fun v => boolz_eqb (needs (chunk_statuses (VSingle v 14))) (Z.to_nat (ones 16 v)))).
    vm_compute. reflexivity. }
  unfold boolz_eqb in E. apply andb_prop in E. destruct E as [E1 E2]. apply Nat.eqb_eq in E1. rewrite <- E1.
  apply all_false. assumption.
Qed.

(** the i-th pair of bits, as the code and as the specification read it *)
Lemma pair_eq v k : 0 <= v -> Z.land (v / 2 ^ (12 - 2 * k)) 3 = v / 2 ^ (12 - 2 * k) mod 4.
Proof. intro. change 3 with (2 ^ 2 - 1). rewrite land_mask by lia. reflexivity. Qed.

Lemma double_round v ds : 0 <= v -> Forall delta_ok ds -> forall n k r,
  (n + k = 7)%nat ->
  map kind ds = needs (map (fun i => status_of (v / 4 ^ (6 - i) mod 4)) (zseq (Z.of_nat k) n)) ->
  double_deltas n (12 - 2 * Z.of_nat k) v (flat_map delta_write ds ++ r) = Ok (ds, r).
Proof.
  intros Hv Hd n. revert ds Hd. induction n as [|n IH]; intros ds Hd k r Hk E; cbn [double_deltas zseq map] in *.
  - destruct ds; [reflexivity|discriminate].
  - rewrite pair_eq by assumption.
    assert (v / 2 ^ (12 - 2 * Z.of_nat k) mod 4 = v / 4 ^ (6 - Z.of_nat k) mod 4) as P.
    { replace (12 - 2 * Z.of_nat k) with (2 * (6 - Z.of_nat k)) by lia. rewrite Z.pow_mul_r by lia. reflexivity. }
    rewrite P. cbn [needs flat_map] in E. fold (needs (map (fun i => status_of (v / 4 ^ (6 - i) mod 4)) (zseq (Z.of_nat k + 1) n))) in E.
    replace (Z.of_nat k + 1) with (Z.of_nat (S k)) in E by lia.
    replace (12 - 2 * Z.of_nat k - 2) with (12 - 2 * Z.of_nat (S k)) by lia.
    destruct (status_of (v / 4 ^ (6 - Z.of_nat k) mod 4)); cbn [need app] in E.
    + apply IH; [assumption|lia|assumption].
    + destruct ds as [|[x|x] ds]; try discriminate. cbn [map] in E. injection E as E.
      cbn [flat_map delta_write app].
      pose proof (read_small_round [x] (flat_map delta_write ds ++ r)) as RS. change (zlen [x]) with 1 in RS. cbn [app map] in RS.
      rewrite RS. cbn [bind]. pose proof (from_app [x] (flat_map delta_write ds ++ r)) as FA.
      change (zlen [x]) with 1 in FA. cbn [app] in FA. rewrite FA. cbn [bind].
      rewrite IH by (try lia; try exact (Forall_inv_tail Hd); assumption). reflexivity.
    + destruct ds as [|[x|x] ds]; try discriminate. cbn [map] in E. injection E as E.
      cbn [flat_map delta_write]. rewrite <- app_assoc.
      pose proof (read_large_round [x] (flat_map delta_write ds ++ r)) as RL. change (zlen [x]) with 1 in RL.
      cbn [flat_map map] in RL. rewrite app_nil_r in RL.
      rewrite RL by (constructor; [exact (Forall_inv Hd)|constructor]). cbn [bind].
      pose proof (from_app (be16 (of_i16 x)) (flat_map delta_write ds ++ r)) as FA.
      change (zlen (be16 (of_i16 x))) with 2 in FA. rewrite FA. cbn [bind].
      rewrite IH by (try lia; try exact (Forall_inv_tail Hd); assumption). reflexivity.
    + apply IH; [assumption|lia|assumption].
Qed.

Lemma chunk_deltas_round c ds r : chunk_ok c -> Forall delta_ok ds ->
  map kind ds = needs (chunk_statuses c) ->
  exists r', chunk_deltas c (flat_map delta_write ds ++ r) = Ok (ds, r') /\
    (match c with Run LargeDelta n => n <= 0 | _ => True end -> r' = r).
Proof.
  intros Hc Hd E. destruct c as [s n|v f|v f].
  - cbn [chunk_ok] in Hc. cbn [chunk_statuses] in E. rewrite needs_rep in E. destruct s; cbn [need] in E.
    + rewrite concat_nils in E. destruct ds; [|discriminate]. exists r. cbn. auto.
    + rewrite concat_single in E. apply kinds_small in E. destruct E as (vs & -> & L).
      rewrite write_smalls. assert (n = zlen vs) as -> by (unfold zlen; lia).
      cbn [chunk_deltas]. rewrite read_small_round, from_app. cbn [bind]. exists r. auto.
    + rewrite concat_single in E. apply kinds_large in E. destruct E as (vs & -> & L).
      rewrite write_larges. assert (n = zlen vs) as -> by (unfold zlen; lia).
      cbn [chunk_deltas]. rewrite read_large_round by (apply Forall_larges; assumption). cbn [bind].
      rewrite from_ok by (rewrite zlen_app, larges_len; pose proof (zlen_nonneg vs); pose proof (zlen_nonneg r); lia).
      cbn [bind]. eexists; split; [reflexivity|]. intro H.
      assert (vs = []) as -> by (destruct vs; [reflexivity|rewrite zlen_cons in H; pose proof (zlen_nonneg vs); lia]).
      reflexivity.
    + rewrite concat_nils in E. destruct ds; [|discriminate]. exists r. cbn. auto.
  - destruct Hc as [Hv ->]. rewrite single_needs in E by assumption. apply kinds_small in E.
    destruct E as (vs & -> & L). rewrite write_smalls. cbn [chunk_deltas].
    pose proof (ones_nonneg 16 v). assert (ones 16 v = zlen vs) as -> by (unfold zlen; lia).
    cbv zeta. rewrite read_small_round, from_app. cbn [bind]. exists r. auto.
  - destruct Hc as [Hv ->]. cbn [chunk_statuses] in E. cbn [chunk_deltas]. exists r. split; [|auto].
    apply (double_round v ds) with (k := O); [lia|assumption|reflexivity|assumption].
Qed.

Lemma no_needs_deltas cs : Forall chunk_ok cs -> needs (statuses cs) = [] -> forall b, bytes_ok b -> chunks_deltas cs b = Ok [].
Proof.
  induction 1 as [|c cs Hc F IH]; intros E b Hb; [reflexivity|].
  unfold statuses in E. cbn [flat_map] in E. rewrite needs_app in E. apply app_eq_nil in E. destruct E as [E1 E2].
  cbn [chunks_deltas]. destruct (chunk_deltas_round c [] b Hc ltac:(constructor)) as (r' & R & K).
  { symmetry; exact E1. } cbn [flat_map app] in R. rewrite R. cbn [bind].
  rewrite IH; [reflexivity|assumption|].
  assert (r' = b) as ->; [|assumption]. apply K. destruct c as [[]| |]; auto.
  cbn [chunk_statuses] in E1. rewrite needs_rep in E1. cbn [need] in E1. rewrite concat_single in E1.
  destruct (Z.to_nat n) eqn:N; [lia|discriminate].
Qed.

Lemma deltas_ok_bytes ds : Forall delta_ok ds -> bytes_ok (flat_map delta_write ds).
Proof.
  induction 1 as [|d ds H F IH]; cbn [flat_map]; [constructor|]. apply bytes_ok_app. split; [|assumption].
  destruct d; cbn [delta_write]; [|apply be16_ok]. constructor; [exact H|constructor].
Qed.

Lemma chunks_deltas_round : forall cs ds r, Forall chunk_ok cs -> Forall delta_ok ds -> bytes_ok r ->
  map kind ds = needs (statuses cs) ->
  (forall l n q, cs = l ++ Run LargeDelta n :: q -> 0 < n -> needs (statuses q) = []) ->
  chunks_deltas cs (flat_map delta_write ds ++ r) = Ok ds.
Proof.
  induction cs as [|c cs IH]; intros ds r F Hd Hr E L.
  - destruct ds; [reflexivity|discriminate].
  - pose proof (Forall_inv F) as Hc. pose proof (Forall_inv_tail F) as F'.
    unfold statuses in E. cbn [flat_map] in E. rewrite needs_app in E.
    set (n1 := length (needs (chunk_statuses c))).
    assert (map kind (firstn n1 ds) = needs (chunk_statuses c) /\ map kind (skipn n1 ds) = needs (statuses cs)) as [E1 E2].
    { rewrite <- firstn_map, <- skipn_map, E. unfold n1.
      rewrite firstn_app, skipn_app, Nat.sub_diag, firstn_all, skipn_all. cbn [firstn skipn]. rewrite app_nil_r. auto. }
    rewrite <- (firstn_skipn n1 ds). set (d1 := firstn n1 ds) in *. set (d2 := skipn n1 ds) in *.
    assert (Forall delta_ok d1) as Hd1 by (apply Forall_firstn; assumption).
    assert (Forall delta_ok d2) as Hd2 by (apply Forall_skipn; assumption).
    clearbody d1 d2 n1. clear E. rewrite flat_map_app, <- app_assoc. cbn [chunks_deltas].
    destruct (chunk_deltas_round c d1 (flat_map delta_write d2 ++ r) Hc Hd1 E1) as (r' & R & K).
    rewrite R. cbn [bind].
    assert (bytes_ok (flat_map delta_write d1 ++ flat_map delta_write d2 ++ r)) as BB.
    { repeat (apply bytes_ok_app; split); auto using deltas_ok_bytes. }
    assert (chunk_nn c) as Hnn by (clear -Hc; destruct c; cbn in *; auto; lia).
    destruct (chunk_deltas_np c _ BB Hnn) as [_ B']. specialize (B' _ _ R).
    assert (match c with Run LargeDelta n => n <= 0 | _ => True end \/ needs (statuses cs) = []) as [C|C].
    { destruct c as [[]| |]; auto. destruct (Z.leb_spec n 0); [auto|]. right. apply (L [] n cs); [reflexivity|assumption]. }
    + rewrite (K C). rewrite IH; [reflexivity|assumption|assumption|assumption|assumption|].
      intros l n q -> Hn. apply (L (c :: l) n q); [reflexivity|assumption].
    + rewrite no_needs_deltas by assumption. rewrite C in E2. destruct d2; [|discriminate]. reflexivity.
Qed.

Lemma deltas_len_eq ds : zlen (flat_map delta_write ds) = deltas_len ds.
Proof.
  induction ds as [|d ds IH]; cbn [flat_map deltas_len fold_right]; [reflexivity|].
  rewrite zlen_app, IH. unfold deltas_len. destruct d; cbn [delta_write delta_len]; reflexivity.
Qed.

(** reading fixed fields *)
Lemma idx_off {A} (p l : list A) k : 0 <= k -> idx (p ++ l) (zlen p + k) = idx l k.
Proof. intro H. rewrite idx_app_r by lia. f_equal. lia. Qed.
Lemma idx_off0 {A} (p l : list A) : idx (p ++ l) (zlen p) = idx l 0.
Proof. rewrite idx_app_r by lia. f_equal. lia. Qed.
Lemma rdu32_be x p q : 0 <= x < U32 -> rdu32 (p ++ be32 x ++ q) (zlen p) = Ok x.
Proof.
  intro H. unfold rdu32. rewrite (idx_off0 p), (idx_off p _ 1), (idx_off p _ 2), (idx_off p _ 3) by lia.
  unfold be32. cbn [app]. ridx. rewrite rd32_be32 by assumption. reflexivity.
Qed.
Lemma rdu24_be x p q : 0 <= x < 16777216 -> rdu24 (p ++ be24 x ++ q) (zlen p) = Ok x.
Proof.
  intro H. unfold rdu24. rewrite (idx_off0 p), (idx_off p _ 1), (idx_off p _ 2) by lia.
  unfold be24. cbn [app]. ridx. rewrite rd24_be24 by assumption. reflexivity.
Qed.
Lemma rdu16_be x p q : 0 <= x < U16 -> rdu16 (p ++ be16 x ++ q) (zlen p) = Ok x.
Proof.
  intro H. unfold rdu16. rewrite (idx_off0 p), (idx_off p _ 1) by lia.
  unfold be16. cbn [app]. ridx. rewrite rd16_be16 by assumption. reflexivity.
Qed.

Definition twcc_head (t : twcc) : list Z :=
  be32 (t_sender t) ++ be32 (t_ssrc t) ++ be16 (t_base t) ++ be16 (t_count t) ++ be24 (t_ref t) ++ [t_fb t].
Definition padding (n : Z) : list Z := if n =? 0 then [] else rep 0 (n - 1) ++ [n].

Lemma twcc_round t : twcc_ok t -> large_runs_last t -> exists body pad,
  twcc_write t = Ok ([if pad =? 0 then 143 else 175; 205] ++ be16 (twcc_words t - 1) ++ body ++ padding pad,
                     4 * twcc_words t) /\
  0 <= pad < 4 /\ 4 + zlen body + pad = 4 * twcc_words t /\ bytes_ok body /\ twcc_parse body = Ok t.
Proof.
  intros (Hf & Hc & Hd & Hs & Hp & Hk) Hl. destruct Hf as (F1 & F2 & F3 & F4 & F5 & F6).
  destruct (chunks_round (t_chunks t) (S (length (t_chunks t))) (t_count t) (flat_map delta_write (t_deltas t)) Hc)
    as (cb & Ew & Lw & Bw & _); [lia|assumption|assumption|].
  set (db := flat_map delta_write (t_deltas t)) in *.
  assert (zlen db = deltas_len (t_deltas t)) as Ld by apply deltas_len_eq.
  exists (twcc_head t ++ cb ++ db), ((- (zlen cb + zlen db)) mod 4).
  assert (zlen (twcc_head t) = 16) as Lh by reflexivity.
  assert (bytes_ok (twcc_head t)) as Bh.
  { unfold twcc_head. repeat (apply bytes_ok_app; split); auto using be32_ok, be16_ok, be24_ok.
    constructor; [exact F6|constructor]. }
  assert (bytes_ok db) as Bd by (apply deltas_ok_bytes; assumption).
  pose proof (zlen_nonneg cb) as Ncb. pose proof (zlen_nonneg db) as Ndb.
  assert (4 * twcc_words t = 20 + (zlen cb + zlen db) + (- (zlen cb + zlen db)) mod 4) as W.
  { unfold twcc_words, pad4. rewrite <- Ld. replace (zlen (t_chunks t) * 2) with (zlen cb) by lia.
    clear -Ncb Ndb. destruct (4 - (zlen cb + zlen db) mod 4 <? 4) eqn:E; dlia. }
  split.
  { unfold twcc_write. rewrite Ew. cbn [bind]. fold db. cbv zeta.
    replace (be32 (t_sender t) ++ be32 (t_ssrc t) ++ be16 (t_base t) ++ be16 (t_count t) ++ be24 (t_ref t) ++ [t_fb t] ++ cb ++ db)
      with (twcc_head t ++ cb ++ db) by (unfold twcc_head; rewrite <- !app_assoc; reflexivity).
    rewrite !zlen_app, Lh.
    replace ((4 + (16 + (zlen cb + zlen db))) mod 4) with ((zlen cb + zlen db) mod 4) by dlia.
    unfold padding. set (s := zlen cb + zlen db) in *.
    destruct (4 - s mod 4 <? 4) eqn:E.
    - destruct ((- s) mod 4 =? 0) eqn:E2; [exfalso; clear -E E2 Ncb; dlia|].
      replace (4 - s mod 4) with ((- s) mod 4) by (clear -E; dlia).
      change (Z.lor (Z.lor 128 15) 32) with 175. rewrite W. f_equal. f_equal. lia.
    - destruct ((- s) mod 4 =? 0) eqn:E2; [|exfalso; clear -E E2; dlia].
      change (Z.lor 128 15) with 143. rewrite W. f_equal. f_equal; [|clear -E2; lia].
      rewrite app_nil_r. reflexivity. }
  split; [dlia|]. split; [rewrite !zlen_app, Lh; lia|].
  split; [apply bytes_ok_app; split; [assumption|apply bytes_ok_app; split; assumption]|].
  unfold twcc_parse. rewrite !zlen_app, Lh. destruct (16 + (zlen cb + zlen db) <? 16) eqn:E; [lia|].
  assert (rdu32 (twcc_head t ++ cb ++ db) 0 = Ok (t_sender t)) as ->.
  { unfold twcc_head. rewrite <- !app_assoc. exact (rdu32_be (t_sender t) [] _ F1). }
  assert (rdu32 (twcc_head t ++ cb ++ db) 4 = Ok (t_ssrc t)) as ->.
  { unfold twcc_head. rewrite <- !app_assoc. exact (rdu32_be (t_ssrc t) (be32 (t_sender t)) _ F2). }
  assert (rdu16 (twcc_head t ++ cb ++ db) 8 = Ok (t_base t)) as ->.
  { unfold twcc_head. rewrite <- !app_assoc. rewrite app_assoc.
    exact (rdu16_be (t_base t) (be32 (t_sender t) ++ be32 (t_ssrc t)) _ F3). }
  assert (rdu16 (twcc_head t ++ cb ++ db) 10 = Ok (t_count t)) as ->.
  { unfold twcc_head. rewrite <- !app_assoc. rewrite (app_assoc (be32 (t_ssrc t))), app_assoc.
    exact (rdu16_be (t_count t) (be32 (t_sender t) ++ be32 (t_ssrc t) ++ be16 (t_base t)) _ F4). }
  assert (rdu24 (twcc_head t ++ cb ++ db) 12 = Ok (t_ref t)) as ->.
  { unfold twcc_head. rewrite <- !app_assoc.
    rewrite (app_assoc (be16 (t_base t))), (app_assoc (be32 (t_ssrc t))), app_assoc.
    exact (rdu24_be (t_ref t) (be32 (t_sender t) ++ be32 (t_ssrc t) ++ be16 (t_base t) ++ be16 (t_count t)) _ F5). }
  assert (idx (twcc_head t ++ cb ++ db) 15 = Ok (t_fb t)) as ->.
  { rewrite idx_app_l by (rewrite Lh; lia). reflexivity. }
  cbn [bind]. change 16 with (zlen (twcc_head t)). rewrite from_app. cbn [bind].
  destruct (chunks_round (t_chunks t) (S (length (cb ++ db))) (t_count t) db Hc)
    as (cb' & Ew' & _ & _ & P); [|assumption|assumption|].
  { rewrite app_length. unfold zlen in Lw. lia. }
  rewrite Ew' in Ew. assert (cb' = cb) as -> by congruence. rewrite P. cbn [bind].
  rewrite <- (app_nil_r db). unfold db.
  rewrite chunks_deltas_round; [| assumption|assumption|constructor|assumption|exact Hl].
  cbn [bind]. destruct t; reflexivity.
Qed.

(** ** The meaning of parsed deltas *)
Lemma smalls_kind : forall n b i ds, smalls n b i = Ok ds -> map kind ds = repeat false n.
Proof.
  induction n as [|n IH]; intros b i ds; cbn [smalls]; [intro E; injection E as <-; reflexivity|].
  destruct (idx b i); cbn [bind]; try discriminate. destruct (smalls n b (i + 1)) eqn:E; cbn [bind]; try discriminate.
  intro Q; injection Q as <-. cbn. f_equal. eauto.
Qed.
Lemma larges_kind : forall n b i ds, larges n b i = Ok ds -> map kind ds = repeat true n.
Proof.
  induction n as [|n IH]; intros b i ds; cbn [larges]; [intro E; injection E as <-; reflexivity|].
  destruct (idx b i); cbn [bind]; try discriminate. destruct (idx b (i + 1)); cbn [bind]; try discriminate.
  destruct (larges n b (i + 2)) eqn:E; cbn [bind]; try discriminate.
  intro Q; injection Q as <-. cbn. f_equal. eauto.
Qed.
Lemma read_small_kind b n ds : read_small b n = Ok ds -> map kind ds = repeat false (Z.to_nat n).
Proof. unfold read_small. destruct (_ <? _); [discriminate|]. apply smalls_kind. Qed.
Lemma read_large_kind b n ds : read_large b n = Ok ds -> map kind ds = repeat true (Z.to_nat n).
Proof. unfold read_large. destruct (_ <? _); [discriminate|]. apply larges_kind. Qed.

Lemma double_kind v : 0 <= v -> forall n k b ds r, (n + k = 7)%nat ->
  double_deltas n (12 - 2 * Z.of_nat k) v b = Ok (ds, r) ->
  map kind ds = needs (map (fun i => status_of (v / 4 ^ (6 - i) mod 4)) (zseq (Z.of_nat k) n)).
Proof.
  intro Hv. induction n as [|n IH]; intros k b ds r Hk; cbn [double_deltas zseq map].
  - intro E; injection E as <- <-. reflexivity.
  - rewrite pair_eq by assumption.
    assert (v / 2 ^ (12 - 2 * Z.of_nat k) mod 4 = v / 4 ^ (6 - Z.of_nat k) mod 4) as ->.
    { replace (12 - 2 * Z.of_nat k) with (2 * (6 - Z.of_nat k)) by lia. rewrite Z.pow_mul_r by lia. reflexivity. }
    cbn [needs flat_map]. fold (needs (map (fun i => status_of (v / 4 ^ (6 - i) mod 4)) (zseq (Z.of_nat k + 1) n))).
    replace (Z.of_nat k + 1) with (Z.of_nat (S k)) by lia.
    replace (12 - 2 * Z.of_nat k - 2) with (12 - 2 * Z.of_nat (S k)) by lia.
    destruct (status_of (v / 4 ^ (6 - Z.of_nat k) mod 4)); cbn [need app].
    + apply IH. lia.
    + destruct (read_small b 1) as [d| |] eqn:R; cbn [bind]; try discriminate.
      apply read_small_kind in R. destruct (from b 1) as [b'| |]; cbn [bind]; try discriminate.
      destruct (double_deltas n _ v b') as [[x y]| |] eqn:D; cbn [bind]; try discriminate.
      intro E; injection E as <- <-. rewrite map_app, R. change (Z.to_nat 1) with 1%nat. cbn [repeat app]. f_equal.
      eapply IH; [|exact D]. lia.
    + destruct (read_large b 1) as [d| |] eqn:R; cbn [bind]; try discriminate.
      apply read_large_kind in R. destruct (from b 2) as [b'| |]; cbn [bind]; try discriminate.
      destruct (double_deltas n _ v b') as [[x y]| |] eqn:D; cbn [bind]; try discriminate.
      intro E; injection E as <- <-. rewrite map_app, R. change (Z.to_nat 1) with 1%nat. cbn [repeat app]. f_equal.
      eapply IH; [|exact D]. lia.
    + apply IH. lia.
Qed.
Lemma chunk_deltas_kind c b ds r : chunk_ok c -> chunk_deltas c b = Ok (ds, r) -> map kind ds = needs (chunk_statuses c).
Proof.
  intros Hc. destruct c as [s n|v f|v f].
  - cbn [chunk_statuses]. rewrite needs_rep. destruct s; cbn [chunk_deltas need].
    + intro E; injection E as <- <-. rewrite concat_nils. reflexivity.
    + destruct (read_small b n) as [d| |] eqn:R; cbn [bind]; try discriminate.
      destruct (from b n); cbn [bind]; try discriminate. intro E; injection E as <- <-.
      rewrite concat_single. eapply read_small_kind; eauto.
    + destruct (read_large b n) as [d| |] eqn:R; cbn [bind]; try discriminate.
      destruct (from b n); cbn [bind]; try discriminate. intro E; injection E as <- <-.
      rewrite concat_single. eapply read_large_kind; eauto.
    + intro E; injection E as <- <-. rewrite concat_nils. reflexivity.
  - destruct Hc as [Hv ->]. rewrite single_needs by assumption. cbn [chunk_deltas]. cbv zeta.
    destruct (read_small b _) as [d| |] eqn:R; cbn [bind]; try discriminate.
    destruct (from b _); cbn [bind]; try discriminate. intro E; injection E as <- <-.
    eapply read_small_kind; eauto.
  - destruct Hc as [Hv ->]. cbn [chunk_statuses chunk_deltas]. apply (double_kind v) with (k := O); lia.
Qed.
Lemma chunks_deltas_kind : forall cs b ds, Forall chunk_ok cs -> chunks_deltas cs b = Ok ds ->
  map kind ds = needs (statuses cs).
Proof.
  induction cs as [|c cs IH]; intros b ds F; cbn [chunks_deltas]; [intro E; injection E as <-; reflexivity|].
  destruct (chunk_deltas c b) as [[d r]| |] eqn:D; cbn [bind]; try discriminate.
  destruct (chunks_deltas cs r) as [ds'| |] eqn:E; cbn [bind]; try discriminate.
  intro Q; injection Q as <-. unfold statuses. cbn [flat_map]. rewrite needs_app, map_app. f_equal.
  - eapply chunk_deltas_kind; [exact (Forall_inv F)|exact D].
  - eapply IH; [exact (Forall_inv_tail F)|exact E].
Qed.

Lemma chunk_parse_ok b c : chunk_parse b = Ok c -> chunk_ok c.
Proof.
  unfold chunk_parse. destruct (zlen b <? 2); [discriminate|].
  destruct (idx b 0); cbn [bind]; try discriminate. destruct (idx b 1); cbn [bind]; try discriminate.
  set (x := rd16 a a0). clearbody x.
  change 8191 with (2 ^ 13 - 1). change 16383 with (2 ^ 14 - 1). rewrite !land_mask by lia.
  pose proof (Z.mod_pos_bound x (2 ^ 13) ltac:(lia)). pose proof (Z.mod_pos_bound x (2 ^ 14) ltac:(lia)).
  change (2 ^ 13) with 8192 in *. change (2 ^ 14) with 16384 in *.
  destruct (0 <? Z.land x 32768); [destruct (0 <? Z.land x 16384)|];
    intro E; injection E as <-; cbn [chunk_ok]; lia.
Qed.
Lemma chunks_parse_ok : forall f todo b cs r, chunks_parse f todo b = Ok (cs, r) ->
  Forall chunk_ok cs /\ todo <= size cs.
Proof.
  induction f as [|f IH]; intros todo b cs r; cbn [chunks_parse]; (destruct (todo <=? 0) eqn:T; [intro E; injection E as <- <-; split; [constructor|cbn; lia]|]).
  - discriminate.
  - destruct (chunk_parse b) as [c| |] eqn:Ec; cbn [bind]; try discriminate.
    destruct (from b 2) as [b'| |]; cbn [bind]; try discriminate.
    destruct (chunks_parse f (todo - chunk_max c) b') as [[cs' r']| |] eqn:E; cbn [bind]; try discriminate.
    intro Q; injection Q as <- <-. destruct (IH _ _ _ _ E). split; [constructor; [eapply chunk_parse_ok; eauto|assumption]|].
    rewrite size_cons. lia.
Qed.

(** a parsed message is well-formed as far as the iterator is concerned *)
Lemma twcc_parse_inv b t : bytes_ok b -> twcc_parse b = Ok t ->
  twcc_fields t /\ Forall chunk_ok (t_chunks t) /\ t_count t <= size (t_chunks t) /\
  map kind (t_deltas t) = needs (statuses (t_chunks t)).
Proof.
  intros Hb. unfold twcc_parse. destruct (zlen b <? 16) eqn:E; [discriminate|]. repeat rd1.
  destruct (chunks_parse (S (length r)) v3 r) as [[cs b']| |] eqn:Ec; cbn [bind]; try discriminate.
  destruct (chunks_deltas cs b') as [ds| |] eqn:Ed; cbn [bind]; try discriminate.
  intro Q; injection Q as <-. destruct (chunks_parse_ok _ _ _ _ _ Ec) as [C S].
  cbn [t_chunks t_count t_deltas]. repeat split; cbn [t_sender t_ssrc t_base t_count t_ref t_fb]; try lia; auto.
  eapply chunks_deltas_kind; eauto.
Qed.

(** ** The iterator *)
Lemma land_pow2 k v : 0 <= k -> (0 <? Z.land (2 ^ k) v) = Z.testbit v k.
Proof.
  intro H. assert (Z.land (2 ^ k) v = if Z.testbit v k then 2 ^ k else 0) as ->.
  { apply Z.bits_inj_iff'. intros i Hi. rewrite Z.land_spec, Z.pow2_bits_eqb by assumption.
    destruct (Z.eqb_spec k i) as [->|N].
    - cbn [andb]. destruct (Z.testbit v i); [rewrite Z.pow2_bits_true by assumption; reflexivity|rewrite Z.bits_0; reflexivity].
    - cbn [andb]. destruct (Z.testbit v k); [rewrite Z.pow2_bits_false by lia; reflexivity|rewrite Z.bits_0; reflexivity]. }
  destruct (Z.testbit v k); [|reflexivity]. pose proof (Z.pow_pos_nonneg 2 k ltac:(lia) H). lia.
Qed.

Definition run_pos (c : chunk) : Prop := match c with Run _ n => 0 < n | _ => True end.
Lemma statuses_len c : chunk_ok c -> zlen (chunk_statuses c) = chunk_max c.
Proof.
  destruct c; cbn [chunk_ok chunk_statuses chunk_max]; intro H; [apply zlen_rep; lia|reflexivity|reflexivity].
Qed.
Lemma nth_rep {A} (x : A) n i : 0 <= i < n -> nth_error (rep x n) (Z.to_nat i) = Some x.
Proof. intro. unfold rep. apply nth_error_repeat. lia. Qed.
Lemma zseq_nth n : forall a k, (k < n)%nat -> nth_error (zseq a n) k = Some (a + Z.of_nat k).
Proof.
  induction n as [|n IH]; intros a [|k] H; cbn [zseq nth_error]; try lia; [f_equal; lia|].
  rewrite IH by lia. f_equal; lia.
Qed.
(** status and size of the head chunk as the iterator sees it at index [i] *)
Definition head_status (head : chunk) (i : Z) : res (status * Z) :=
  match head with
  | Run s n => Ok (match s with Unknown => NotReceived | _ => s end, n)
  | VSingle v n =>
      if 13 <? i then Panic
      else Ok (if 0 <? Z.land (2 ^ (13 - i)) v then SmallDelta else NotReceived, n)
  | VDouble v n =>
      if 12 <? i * 2 then Panic
      else Ok (status_of (Z.land (v / 2 ^ (12 - i * 2)) 3), n)
  end.
Lemma head_ok c i : chunk_ok c -> run_pos c -> 0 <= i < chunk_max c ->
  exists st, head_status c i = Ok (st, chunk_max c) /\ nth_error (chunk_statuses c) (Z.to_nat i) = Some st.
Proof.
  intros Hc Hr Hi. destruct c as [s n|v f|v f]; cbn [chunk_ok run_pos chunk_max head_status chunk_statuses] in *.
  - eexists; split; [reflexivity|]. apply nth_rep. lia.
  - destruct Hc as [Hv ->]. destruct (13 <? i) eqn:E; [lia|]. eexists; split; [reflexivity|].
    rewrite nth_error_map, zseq_nth by lia. cbn [option_map]. rewrite land_pow2 by lia.
    replace (13 - (0 + Z.of_nat (Z.to_nat i))) with (13 - i) by lia. reflexivity.
  - destruct Hc as [Hv ->]. destruct (12 <? i * 2) eqn:E; [lia|]. eexists; split; [reflexivity|].
    rewrite nth_error_map, zseq_nth by lia. cbn [option_map]. f_equal. f_equal.
    replace (12 - i * 2) with (12 - 2 * i) by lia. rewrite pair_eq by lia.
    replace (12 - 2 * i) with (2 * (6 - i)) by lia. rewrite Z.pow_mul_r by lia.
    replace (6 - (0 + Z.of_nat (Z.to_nat i))) with (6 - i) by lia. reflexivity.
Qed.

(** One step: from inside chunk [c] at index [i]. *)
Definition pending (it : titer) : list status :=
  match i_chunks it with [] => [] | c :: cs => skipn (Z.to_nat (i_idx it)) (chunk_statuses c) ++ statuses cs end.
Definition it_ok (it : titer) : Prop :=
  Forall chunk_ok (i_chunks it) /\ Forall run_pos (i_chunks it) /\
  (match i_chunks it with [] => i_idx it = 0 | c :: _ => 0 <= i_idx it < chunk_max c end) /\
  map kind (i_deltas it) = needs (pending it).

Lemma run_pos_max c : chunk_ok c -> run_pos c -> 0 < chunk_max c.
Proof. destruct c; cbn; lia. Qed.
Lemma pending_start base last time cs ds : pending (TIter base last time 0 cs ds) = statuses cs.
Proof. unfold pending. cbn [i_chunks i_idx]. destruct cs; reflexivity. Qed.

Lemma skipn_cons {A} (l : list A) : forall k x, nth_error l k = Some x -> skipn k l = x :: skipn (S k) l.
Proof.
  induction l as [|y l IH]; intros [|k] x H; try discriminate.
  - cbn in H. injection H as ->. reflexivity.
  - cbn in H. cbn [skipn]. rewrite (IH k x H). reflexivity.
Qed.

Lemma it_start base last time cs ds : Forall chunk_ok cs -> Forall run_pos cs -> map kind ds = needs (statuses cs) ->
  it_ok (TIter base last time 0 cs ds).
Proof.
  intros C R K. split; [exact C|]. split; [exact R|]. split.
  - cbn [i_chunks i_idx]. destruct cs as [|c cs]; [reflexivity|]. pose proof (run_pos_max c (Forall_inv C) (Forall_inv R)). lia.
  - rewrite pending_start. exact K.
Qed.

(** what the finished step leaves behind *)
Lemma it_step it c cs st ds' time : it_ok it -> i_chunks it = c :: cs ->
  nth_error (chunk_statuses c) (Z.to_nat (i_idx it)) = Some st ->
  map kind ds' = needs (tl (pending it)) ->
  let it' := if i_idx it + 1 =? chunk_max c then TIter (i_base it + i_idx it + 1) (i_last it) time 0 cs ds'
             else TIter (i_base it) (i_last it) time (i_idx it + 1) (i_chunks it) ds' in
  it_ok it' /\ pending it = st :: pending it' /\ i_base it' + i_idx it' = i_base it + i_idx it + 1 /\
  i_last it' = i_last it /\ i_time it' = time /\ i_deltas it' = ds'.
Proof.
  intros (C & R & I & K) Ec Hn Hk it'. rewrite Ec in *.
  assert (pending it = st :: skipn (S (Z.to_nat (i_idx it))) (chunk_statuses c) ++ statuses cs) as P.
  { unfold pending. rewrite Ec. rewrite (skipn_cons _ _ _ Hn). reflexivity. }
  rewrite P in Hk. cbn [tl] in Hk. pose proof (statuses_len c (Forall_inv C)) as SL.
  subst it'. rewrite Ec. destruct (i_idx it + 1 =? chunk_max c) eqn:E.
  - assert (skipn (S (Z.to_nat (i_idx it))) (chunk_statuses c) = []) as N.
    { apply skipn_all2. unfold zlen in SL. lia. }
    rewrite N in *. cbn [app] in *. split.
    { apply it_start; [exact (Forall_inv_tail C)|exact (Forall_inv_tail R)|exact Hk]. }
    rewrite pending_start. cbn. repeat split; auto; lia.
  - assert (Z.to_nat (i_idx it + 1) = S (Z.to_nat (i_idx it))) as Q by lia.
    split.
    { split; [exact C|]. split; [exact R|]. cbn [i_chunks i_idx i_deltas]. split; [lia|].
      unfold pending. cbn [i_chunks i_idx]. rewrite Q. exact Hk. }
    unfold pending at 2. cbn [i_chunks i_idx]. rewrite Q. cbn. repeat split; auto; lia.
Qed.

Lemma titer_next_unfold it c cs : i_chunks it = c :: cs -> i_base it + i_idx it <> i_last it ->
  titer_next it =
    do (st, amount) <- head_status c (i_idx it) ;
    let finish ds t inst :=
        let i' := i_idx it + 1 in
        let time := match inst with Some x => x | None => t end in
        let it' := if i' =? amount then TIter (i_base it + i_idx it + 1) (i_last it) time 0 cs ds
                   else TIter (i_base it) (i_last it) time i' (i_chunks it) ds in
        Ok (Some (i_base it + i_idx it, st, inst), it') in
      match st with
      | NotReceived | Unknown => finish (i_deltas it) (i_time it) None
      | SmallDelta =>
          match i_deltas it with
          | [] => Ok (None, it)
          | Small v :: ds => finish ds (i_time it) (Some (i_time it + 250 * v))
          | Large _ :: _ => Panic
          end
      | LargeDelta =>
          match i_deltas it with
          | [] => Ok (None, it)
          | Small _ :: _ => Panic
          | Large v :: ds => finish ds (i_time it) (Some (i_time it + 250 * v))
          end
      end.
Proof.
  intros E N. unfold titer_next. destruct (i_base it + i_idx it =? i_last it) eqn:Q; [lia|].
  rewrite E. reflexivity.
Qed.

Lemma iter_results : forall n it, it_ok it ->
  i_last it = i_base it + i_idx it + Z.of_nat n -> (n <= length (pending it))%nat ->
  titer_run (S n) it = Ok (results (i_base it + i_idx it) (i_time it) (firstn n (pending it)) (i_deltas it)).
Proof.
  induction n as [|n IH]; intros it Hok Hlast Hlen.
  - cbn [titer_run firstn results]. unfold titer_next.
    destruct (i_base it + i_idx it =? i_last it) eqn:E; [reflexivity|lia].
  - destruct (i_chunks it) as [|c cs] eqn:Ec.
    { unfold pending in Hlen. rewrite Ec in Hlen. cbn in Hlen. lia. }
    pose proof Hok as (C & R & I & K). rewrite Ec in C, R, I.
    destruct (head_ok c (i_idx it) (Forall_inv C) (Forall_inv R) I) as (st & Hs & Hn).
    assert (pending it = st :: tl (pending it)) as P.
    { unfold pending. rewrite Ec, (skipn_cons _ _ _ Hn). reflexivity. }
    remember (S n) as m eqn:Em. cbn [titer_run]. rewrite (titer_next_unfold it c cs Ec) by lia.
    rewrite Hs. cbn [bind]. rewrite Em in *.
    rewrite P in K. unfold needs in K. cbn [flat_map] in K. fold (needs (tl (pending it))) in K.
    destruct st; cbn [need app] in K; cbv zeta.
    + destruct (it_step it c cs NotReceived (i_deltas it) (i_time it) Hok Ec Hn K) as (O' & P' & B' & L' & T' & D').
      cbn [bind]. rewrite IH; [|exact O'|rewrite L'; lia|rewrite P' in Hlen; cbn [length] in Hlen; lia].
      rewrite P'. cbn [bind firstn results]. rewrite B', T', D'. reflexivity.
    + destruct (i_deltas it) as [|[v|v] ds] eqn:Ed; try discriminate. cbn [map kind] in K. injection K as K.
      destruct (it_step it c cs SmallDelta ds (i_time it + 250 * v) Hok Ec Hn K) as (O' & P' & B' & L' & T' & D').
      cbn [bind]. rewrite IH; [|exact O'|rewrite L'; lia|rewrite P' in Hlen; cbn [length] in Hlen; lia].
      rewrite P'. cbn [bind firstn results]. rewrite B', T', D'. reflexivity.
    + destruct (i_deltas it) as [|[v|v] ds] eqn:Ed; try discriminate. cbn [map kind] in K. injection K as K.
      destruct (it_step it c cs LargeDelta ds (i_time it + 250 * v) Hok Ec Hn K) as (O' & P' & B' & L' & T' & D').
      cbn [bind]. rewrite IH; [|exact O'|rewrite L'; lia|rewrite P' in Hlen; cbn [length] in Hlen; lia].
      rewrite P'. cbn [bind firstn results]. rewrite B', T', D'. reflexivity.
    + destruct (it_step it c cs Unknown (i_deltas it) (i_time it) Hok Ec Hn K) as (O' & P' & B' & L' & T' & D').
      cbn [bind]. rewrite IH; [|exact O'|rewrite L'; lia|rewrite P' in Hlen; cbn [length] in Hlen; lia].
      rewrite P'. cbn [bind firstn results]. rewrite B', T', D'. reflexivity.
Qed.

Lemma statuses_size cs : Forall chunk_ok cs -> zlen (statuses cs) = size cs.
Proof.
  induction 1 as [|c cs H F IH]; [reflexivity|]. unfold statuses. cbn [flat_map]. rewrite zlen_app, statuses_len, size_cons by assumption.
  fold (statuses cs). lia.
Qed.
Lemma results_seqs : forall sts seq time ds, map (fun r => fst (fst r)) (results seq time sts ds) = zseq seq (length sts).
Proof.
  induction sts as [|s sts IH]; intros seq time ds; cbn [results length zseq map]; [reflexivity|].
  destruct s; try (cbn [map fst]; f_equal; apply IH); destruct ds as [|[v|v] ds]; cbn [map fst]; f_equal; apply IH.
Qed.

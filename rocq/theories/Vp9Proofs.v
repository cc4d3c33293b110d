From Verif Require Import Base BaseFacts Brute BufRxSpec Vp8Model Vp8Spec Vp8Proofs Vp9Model Vp9Spec.

(** * Every step keeps the depacketizer sound and the index in step with the reader *)
Definition ok9 (s : vp9d) : Prop := length (d_pdiff s) = 3%nat /\ length (d_width s) = 3%nat /\ length (d_height s) = 3%nat.
Lemma upd_some {A} (f : A -> A) : forall l i, (i < length l)%nat -> exists l', upd l i f = Some l' /\ length l' = length l /\
  (forall j, nth_error l' j = if Nat.eqb j i then option_map f (nth_error l j) else nth_error l j).
Proof.
  induction l as [|x l IH]; intros i H; [cbn in H; lia|]. destruct i as [|i]; cbn.
  - eexists; split; [reflexivity|]. split; [reflexivity|]. intros [|j]; reflexivity.
  - destruct (IH i ltac:(cbn in H; lia)) as (l' & E & L & N). rewrite E. eexists; split; [reflexivity|]. split; [cbn -[zlen]; lia|].
    intros [|j]; [reflexivity|]. cbn. apply N.
Qed.

(** what a step leaves *)
Definition good (s : vp9d) (r : list Z) (ix : Z) (x : step9) : Prop :=
  ok9 (fst x) /\ d_fl (fst x) = d_fl s /\
  match snd x with Panic => False | Err => True | Ok (r', ix') => ix' + zlen r' = ix + zlen r /\ bytes_ok r' end.

Lemma good_pid s r ix : ok9 s -> bytes_ok r -> good s r ix (parse_picture_id s r ix) /\ d_sid (fst (parse_picture_id s r ix)) = d_sid s.
Proof.
  intros K B. unfold good, parse_picture_id. destruct r as [|b r]; [cbn -[zlen]; auto|]. destruct (bit b 128).
  - destruct r as [|x r]; cbn -[zlen]; auto. rewrite !zlen_cons. repeat split; try apply K; [lia|]. inversion B as [|? ? _ B2]; inversion B2; auto.
  - cbn -[zlen]. rewrite zlen_cons. repeat split; try apply K; [lia|]. inversion B; auto.
Qed.
Lemma good_layer s r ix : ok9 s -> bytes_ok r -> good s r ix (parse_layer_info s r ix) /\
  match snd (parse_layer_info s r ix) with Ok _ => 0 <= d_sid (fst (parse_layer_info s r ix)) < 3 | _ => True end.
Proof.
  intros K B. unfold good, parse_layer_info. destruct r as [|b r]; [cbn -[zlen]; auto|]. cbv zeta. cbn [d_sid set_layer d_fl].
  assert (0 <= Z.land (Z.shiftr b 1) 7) by (apply Z.land_nonneg; lia).
  set (sd := Z.land (Z.shiftr b 1) 7) in *. clearbody sd.
  destruct (3 <=? sd) eqn:Q; [cbn -[zlen]; auto|].
  destruct (f_f (d_fl s)).
  - cbn -[zlen]. rewrite zlen_cons. repeat split; try apply K; [lia| |lia|lia]. inversion B; auto.
  - destruct r as [|t r]; cbn -[zlen]; auto. rewrite !zlen_cons. repeat split; try apply K; [lia| |lia|lia]. inversion B as [|? ? _ B2]; inversion B2; auto.
Qed.
Lemma good_refs : forall fuel num s r ix, ok9 s -> bytes_ok r -> 0 <= num <= 3 -> 4 - num <= Z.of_nat fuel -> 
  good s r ix (parse_ref_indices fuel num s r ix) /\ d_sid (fst (parse_ref_indices fuel num s r ix)) = d_sid s.
Proof.
  induction fuel as [|fuel IH]; intros num s r ix K B N F; [lia|]. cbn [parse_ref_indices].
  destruct (num =? 3) eqn:Q; [unfold good; cbn -[zlen]; auto|]. destruct r as [|b r]; [unfold good; cbn -[zlen]; auto|].
  destruct (upd_some (fun _ => Z.shiftr b 1) (d_pdiff s) (Z.to_nat num)) as (l & E & L & _). { destruct K as (-> & _). lia. }
  rewrite E. cbv zeta. destruct (bit b 1).
  - destruct (IH (num + 1) (set_pdiff s l) r (ix + 1)) as (G1 & G2); [|inversion B; auto|lia|lia|].
    { unfold ok9 in *. cbn -[zlen]. rewrite L. exact K. }
    split; [|exact G2]. unfold good in *. cbn [d_fl set_pdiff] in G1. destruct G1 as (G3 & G4 & G5). split; [exact G3|]. split; [exact G4|].
    destruct (snd _) as [[? ?]| |]; auto. rewrite zlen_cons. split; [lia|tauto].
  - unfold good. cbn -[zlen]. rewrite zlen_cons. split; [split; [split; [cbn; rewrite L; apply K|apply K]|split; [reflexivity|split; [lia|inversion B; auto]]]|reflexivity].
Qed.
Lemma good_sizes : forall n i s r, ok9 s -> bytes_ok r -> (i + n <= 3)%nat ->
  let x := parse_sizes n i s r in
  ok9 (fst x) /\ d_fl (fst x) = d_fl s /\ d_sid (fst x) = d_sid s /\
  match snd x with Panic => False | Err => True | Ok r' => zlen r = zlen r' + 4 * Z.of_nat n /\ bytes_ok r' end.
Proof.
  induction n as [|n IH]; intros i s r K B I; cbn [parse_sizes]; [cbn -[zlen]; repeat split; try apply K; auto; lia|].
  destruct r as [|w1 [|w2 r]]; [cbn -[zlen]; auto|cbn -[zlen]; auto|].
  destruct (upd_some (fun _ => Some (w1 * 256 + w2)) (d_width s) i) as (l & E & L & _). { destruct K as (_ & -> & _). lia. }
  rewrite E. cbv zeta. assert (ok9 (set_wh s l (d_height s))) as K1 by (unfold ok9 in *; cbn -[zlen]; rewrite L; exact K).
  destruct r as [|h1 [|h2 r]]; [cbn -[zlen]; auto|cbn -[zlen]; auto|].
  destruct (upd_some (fun _ => Some (h1 * 256 + h2)) (d_height (set_wh s l (d_height s))) i) as (l2 & E2 & L2 & _). { destruct K1 as (_ & _ & ->). lia. }
  rewrite E2. assert (ok9 (set_wh (set_wh s l (d_height s)) (d_width (set_wh s l (d_height s))) l2)) as K2 by (unfold ok9 in *; cbn in *; rewrite L2; exact K1).
  inversion B as [|? ? _ B2]; inversion B2 as [|? ? _ B3]; inversion B3 as [|? ? _ B4]; inversion B4 as [|? ? _ B5]; subst.
  destruct (IH (S i) _ r K2 B5 ltac:(lia)) as (G1 & G2 & G3 & G4). split; [exact G1|]. split; [exact G2|]. split; [exact G3|].
  destruct (snd _) as [?| |]; auto. rewrite !zlen_cons. split; [lia|tauto].
Qed.
Lemma good_pdiffs : forall n i s r ix, ok9 s -> bytes_ok r -> (i < length (d_pgpdiff s))%nat ->
  let x := parse_pdiffs n i s r ix in
  good s r ix x /\ d_sid (fst x) = d_sid s /\ length (d_pgpdiff (fst x)) = length (d_pgpdiff s) /\ d_pgtid (fst x) = d_pgtid s.
Proof.
  induction n as [|n IH]; intros i s r ix K B I; cbn [parse_pdiffs]; [unfold good; cbn -[zlen]; repeat split; try apply K; auto; lia|].
  destruct r as [|b r]; [unfold good; cbn -[zlen]; auto|].
  destruct (upd_some (fun l => l ++ [b]) (d_pgpdiff s) i I) as (l & E & L & _). rewrite E.
  destruct (IH i (set_pg s (d_pgtid s) (d_pgu s) l) r (ix + 1)) as (G1 & G2 & G3 & G4); [exact K|inversion B; auto|cbn -[zlen]; lia|].
  unfold good in *. cbn [d_fl set_pg d_sid d_pgpdiff d_pgtid] in *. destruct G1 as (G5 & G6 & G7). repeat split; auto; try apply G5; [|lia].
  destruct (snd _) as [[? ?]| |]; auto. rewrite zlen_cons. split; [lia|tauto].
Qed.
Lemma good_group : forall n i s r ix, ok9 s -> bytes_ok r -> (i <= length (d_pgpdiff s))%nat ->
  let x := parse_group n i s r ix in
  good s r ix x /\ d_sid (fst x) = d_sid s /\
  match snd x with Ok _ => length (d_pgtid (fst x)) = (length (d_pgtid s) + n)%nat | _ => True end.
Proof.
  induction n as [|n IH]; intros i s r ix K B I; cbn [parse_group]; [unfold good; cbn -[zlen]; repeat split; try apply K; auto; lia|].
  destruct r as [|b r]; [unfold good; cbn -[zlen]; auto|]. cbv zeta.
  set (s1 := set_pg s _ _ (d_pgpdiff s)). assert (ok9 s1) as K1 by exact K. 
  destruct (zlen r * 8 <? _) eqn:Q; [unfold good; cbn -[zlen]; auto|].
  set (k := Z.land (Z.shiftr b 2) 3). set (s2 := set_pg s1 _ _ _). assert (ok9 s2) as K2 by exact K1.
  assert (length (d_pgpdiff s2) = S (length (d_pgpdiff s))) as LP by (unfold s2, s1; cbn; rewrite app_length; cbn -[zlen]; lia).
  assert (length (d_pgtid s2) = S (length (d_pgtid s))) as LT by (unfold s2, s1; cbn; rewrite app_length; cbn -[zlen]; lia).
  assert (d_fl s2 = d_fl s /\ d_sid s2 = d_sid s) as (F2 & S2) by (split; reflexivity). clearbody s2.
  assert (bytes_ok r) as B2 by (inversion B; auto).
  destruct (good_pdiffs (Z.to_nat k) i s2 r (ix + 1) K2 B2 ltac:(lia)) as (G1 & G2 & G3 & G4).
  destruct (parse_pdiffs (Z.to_nat k) i s2 r (ix + 1)) as [s3 [[r3 ix3]| |]]; unfold good in G1; cbn [fst snd] in *.
  - destruct G1 as (G5 & G6 & G7 & G8). destruct (IH (S i) s3 r3 ix3 G5 G8 ltac:(lia)) as (H1 & H2 & H3).
    unfold good in *. destruct H1 as (H4 & H5 & H6). split; [|split].
    + split; [exact H4|]. split; [congruence|]. destruct (snd _) as [[? ?]| |]; auto. rewrite zlen_cons. split; [lia|tauto].
    + congruence.
    + destruct (snd _) as [[? ?]| |]; auto. rewrite H3, G4. lia.
  - unfold good. cbn. destruct G1 as (G5 & G6 & G7). repeat split; try apply G5; try congruence; auto.
  - destruct G1 as (_ & _ & []).
Qed.
Lemma good_ss s r ix : ok9 s -> bytes_ok r -> good s r ix (parse_ssdata s r ix) /\ d_sid (fst (parse_ssdata s r ix)) = d_sid s.
Proof.
  intros K B. unfold parse_ssdata. destruct r as [|b r]; [unfold good; cbn -[zlen]; auto|].
  inversion B as [|? ? Bb B1]; subst. cbv zeta. set (s1 := set_ss s _ _ _ _). assert (ok9 s1) as K1 by exact K.
  assert (d_fl s1 = d_fl s /\ d_sid s1 = d_sid s) as (F1 & S1) by (split; reflexivity).
  assert (0 <= d_ns s1) as NN. { unfold s1. cbn [set_ss d_ns]. apply Z.shiftr_nonneg. unfold byte_ok in Bb. lia. } clearbody s1.
  destruct (3 <? d_ns s1 + 1) eqn:Q; [unfold good; cbn -[zlen]; auto|].
  set (x := if d_y s1 then _ else _).
  assert (good s1 r (ix + 1) x /\ d_sid (fst x) = d_sid s1) as (G & GS).
  { unfold x. destruct (d_y s1); [|unfold good; cbn -[zlen]; repeat split; try apply K1; auto].
    destruct (zlen r * 8 <? _); [unfold good; cbn -[zlen]; auto|].
    destruct (good_sizes (Z.to_nat (d_ns s1 + 1)) 0 s1 r K1 B1 ltac:(lia)) as (G1 & G2 & G3 & G4).
    destruct (parse_sizes _ 0 s1 r) as [s2 [r2| |]]; unfold good; cbn [fst snd] in *; auto.
    repeat split; auto; try apply G1; try tauto. destruct G4. rewrite Z2Nat.id in H by lia. lia. }
  destruct x as [s2 [[r2 ix2]| |]]; unfold good in G; cbn [fst snd] in *.
  - destruct G as (K2 & F2 & I2 & B2).
    set (y := if d_g s2 then _ else _).
    assert (good s2 r2 ix2 y /\ d_sid (fst y) = d_sid s2) as (G & GS2).
    { unfold y. destruct (d_g s2); [|unfold good; cbn -[zlen]; repeat split; try apply K2; auto].
      destruct r2 as [|n r2]; unfold good; cbn -[zlen]; auto. rewrite zlen_cons. repeat split; try apply K2; [lia|inversion B2; auto]. }
    destruct y as [s3 [[r3 ix3]| |]]; unfold good in G; cbn [fst snd] in *.
    + destruct G as (K3 & F3 & I3 & B3). destruct (good_group (Z.to_nat (d_ng s3)) 0 s3 r3 ix3 K3 B3 ltac:(lia)) as (H1 & H2 & _).
      unfold good in *. destruct H1 as (H4 & H5 & H6). split; [|congruence]. split; [exact H4|]. split; [congruence|].
      destruct (snd _) as [[? ?]| |]; auto. rewrite zlen_cons. split; [lia|tauto].
    + unfold good. cbn. destruct G as (K3 & F3 & _). repeat split; try apply K3; congruence.
    + destruct G as (_ & _ & []).
  - unfold good. cbn. destruct G as (K3 & F3 & _). repeat split; try apply K3; congruence.
  - destruct G as (_ & _ & []).
Qed.

Definition sound9 (packet out : list Z) (y : vp9d * res (list Z * vp9x)) : Prop :=
  ok9 (fst y) /\ match snd y with Panic => False | Err => True | Ok (o, e) => length (x9_scheme e) = 3%nat /\
    exists m pre, packet = pre ++ m /\ o = out ++ m end.
Lemma vp9_sound s packet out x : ok9 s -> bytes_ok packet -> length (x9_scheme (extra x)) = 3%nat ->
  sound9 packet out (vp9_depacketize s packet out x).
Proof.
  intros K B XL. unfold vp9_depacketize. destruct packet as [|b r]; [split; [exact K|exact I]|]. cbv zeta.
  inversion B as [|? ? Bb B1]; subst. set (fl := flags_of b). set (s0 := set_fl s fl). assert (ok9 s0) as K0 by exact K. assert (d_fl s0 = fl) as F0 by reflexivity. clearbody s0.
  assert (forall (c : bool) s r ix x, (c = true -> good s r ix x) -> ok9 s -> bytes_ok r -> good s r ix (if c then x else (s, Ok (r, ix)))) as IF.
  { intros c s' r' ix' x' H1 H2 H3. destruct c; [auto|]. unfold good. cbn. auto. }
  unfold then9 at 1. set (x1 := if f_i fl then _ else _).
  assert (good s0 r 1 x1) as G1 by (apply IF; auto; intros; apply good_pid; auto).
  destruct x1 as [s1 [[r1 i1]| |]]; unfold good in G1; cbn [fst snd] in *; [|split; [tauto|exact I]|tauto]. destruct G1 as (K1 & F1 & I1 & B1').
  unfold then9 at 1. set (x2 := if f_l fl then _ else _).
  assert (good s1 r1 i1 x2 /\ (f_l fl = true -> match snd x2 with Ok _ => 0 <= d_sid (fst x2) < 3 | _ => True end)) as (G2 & L2).
  { split; [apply IF; auto; intros; apply good_layer; auto|]. intro E. unfold x2. rewrite E. apply good_layer; auto. }
  destruct x2 as [s2 [[r2 i2]| |]]; unfold good in G2; cbn [fst snd] in *; [|split; [tauto|exact I]|tauto]. destruct G2 as (K2 & F2 & I2 & B2).
  unfold then9 at 1. set (x3 := if _ && _ then _ else _).
  assert (good s2 r2 i2 x3 /\ d_sid (fst x3) = d_sid s2) as (G3 & L3).
  { split; [apply IF; auto; intros; apply good_refs; auto; lia|]. unfold x3. destruct (_ && _); [apply good_refs; auto; lia|reflexivity]. }
  destruct x3 as [s3 [[r3 i3]| |]]; unfold good in G3; cbn [fst snd] in *; [|split; [tauto|exact I]|tauto]. destruct G3 as (K3 & F3 & I3 & B3).
  unfold then9 at 1. set (x4 := if f_v fl then _ else _).
  assert (good s3 r3 i3 x4 /\ d_sid (fst x4) = d_sid s3) as (G4 & L4).
  { split; [apply IF; auto; intros; apply good_ss; auto|]. unfold x4. destruct (f_v fl); [apply good_ss; auto|reflexivity]. }
  destruct x4 as [s4 [[r4 i4]| |]]; unfold good in G4; cbn [fst snd] in *; [|split; [tauto|exact I]|tauto]. destruct G4 as (K4 & F4 & I4 & B4).
  split; [exact K4|]. cbn [snd].
  assert (d_fl s4 = fl) as FE by congruence.
  pose proof (zlen_nonneg r4). pose proof (zlen_nonneg out).
  assert (zlen (b :: r) <? i4 = false) as NL by (rewrite zlen_cons; lia).
  assert (exists m pre, b :: r = pre ++ m /\ out ++ skipn (Z.to_nat i4) (b :: r) = out ++ m) as EX.
  { exists (skipn (Z.to_nat i4) (b :: r)), (firstn (Z.to_nat i4) (b :: r)). split; [symmetry; apply firstn_skipn|reflexivity]. }
  unfold update_extra. rewrite FE. fold (extra x).
  destruct (f_l fl) eqn:FL.
  - destruct (zlen out + zlen (b :: r) <? i4) eqn:Q; [lia|].
    specialize (L2 eq_refl). assert (0 <= d_sid s4 < 3) as SD by (rewrite L4, L3; exact L2).
    destruct (upd_some (fun _ => Some (zlen out + zlen (b :: r) - i4)) (x9_scheme (extra x)) (Z.to_nat (d_sid s4))) as (sc & E & L & _). { rewrite XL. lia. }
    destruct (nth_error (x9_scheme (extra x)) (Z.to_nat (d_sid s4))) as [o|] eqn:NE.
    2:{ apply nth_error_None in NE. lia. }
    destruct (match o with Some stop => negb (stop =? zlen out) | None => false end); [exact I|]. rewrite E. cbn [bind].
    rewrite NL. cbn [x9_scheme]. split; [congruence|exact EX].
  - cbn [bind]. rewrite NL. cbn [x9_scheme]. split; [exact XL|exact EX].
Qed.
Lemma reach_ok s : reach9 s -> ok9 s.
Proof. induction 1 as [|s packet out x R IH B L]; [repeat split|]. apply vp9_sound; auto. Qed.

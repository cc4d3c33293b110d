From Verif Require Import Base BaseFacts SeqModel SeqProps ContigModel ContigSpec.

Section P.
Variable layer : nat -> Z.
Notation bases := (bases layer).

Lemma bases_S k : bases (S k) = bases k + b2z (layer (S k) =? 0). Proof. reflexivity. Qed.
Lemma bases_ge0 k : 0 <= bases k.
Proof. induction k; [cbn; unfold base, b2z; destruct (_ =? _); lia|rewrite bases_S; unfold b2z; destruct (_ =? _); lia]. Qed.
Lemma bases_le k : bases k <= Z.of_nat k + 1.
Proof. induction k; [cbn; unfold base, b2z; destruct (_ =? _); lia|rewrite bases_S; unfold b2z; destruct (_ =? _); lia]. Qed.
Lemma bases_mono i : forall k, (i <= k)%nat -> bases i <= bases k.
Proof.
  intros k H. induction H; [lia|]. rewrite bases_S. unfold b2z. destruct (_ =? _); lia.
Qed.
Lemma bases_gap i k : (i <= k)%nat -> bases k = bases i <-> (forall j, (i < j <= k)%nat -> layer j <> 0).
Proof.
  intro H. induction H as [|k H IH].
  - split; intros; [lia|reflexivity].
  - rewrite bases_S. pose proof (bases_mono i k H). split.
    + intros E j Hj. unfold b2z in E. destruct (layer (S k) =? 0) eqn:Q; [lia|].
      assert (j = S k \/ j <= k)%nat as [->|L] by lia; [lia|]. apply IH; lia.
    + intro A. assert (layer (S k) <> 0) by (apply A; lia). assert (bases k = bases i) by (apply IH; intros; apply A; lia).
      unfold b2z. destruct (layer (S k) =? 0) eqn:Q; lia.
Qed.
(** for a base picture [k], the base number follows iff no base picture is between *)
Lemma bases_next i k : (i < k)%nat -> layer k = 0 -> bases k = bases i + 1 <-> (forall j, (i < j < k)%nat -> layer j <> 0).
Proof.
  intros H L. destruct k as [|k]; [lia|]. rewrite bases_S, L. unfold b2z. cbn [Z.eqb].
  pose proof (bases_gap i k ltac:(lia)) as G. split.
  - intros E j Hj. apply G; lia.
  - intros A. assert (bases k = bases i) by (apply G; intros; apply A; lia). lia.
Qed.

Inductive okrun : option nat -> list nat -> list (bool * bool) -> Prop :=
| ok_nil last : okrun last [] []
| ok_cons last k ks d ds : right layer last k d -> okrun (if fst d then Some k else last) ks ds -> okrun last (k :: ks) (d :: ds).

Lemma okrun_right last ks ds : okrun last ks ds -> length ds = length ks /\
  forall a k d b, combine ks ds = a ++ (k, d) :: b -> right layer (last_emitted a last) k d.
Proof.
  induction 1 as [|last k ks d ds R O [L IH]].
  - split; [reflexivity|]. intros a k d b E. destruct a; discriminate.
  - split; [cbn; lia|]. intros a k' d' b E. cbn [combine] in E. destruct a as [|x a]; cbn [app] in E.
    + injection E as <- <- _. exact R.
    + injection E as <- E. cbn [last_emitted]. destruct d as [e c]. cbn [fst] in *. apply (IH _ _ _ _ E).
Qed.

(** * One decision, with the sender's full numbers shifted by constants *)
Lemma one P T i k q : (i < k)%nat -> 0 <= P + Z.of_nat i -> P + Z.of_nat k < U64 - 1 -> 0 <= T + bases i -> T + bases k < U64 - 1 ->
  let '(s, d) := next_frame (mkC (Some (P + Z.of_nat i)) (Some (T + bases i))) (Some (P + Z.of_nat k)) (Some (T + bases k)) (Some (layer k)) q in
  right layer (Some i) k d /\
  s = (if fst d then mkC (Some (P + Z.of_nat k)) (Some (T + bases k)) else mkC (Some (P + Z.of_nat i)) (Some (T + bases i))).
Proof.
  intros H P0 P1 T0 T1. unfold next_frame. cbn [last_tl0 last_pid].
  pose proof (bases_mono i k ltac:(lia)) as BM.
  destruct (P + Z.of_nat k <=? P + Z.of_nat i) eqn:Q; [lia|].
  destruct (match layer k with 0 => true | _ => false end) eqn:LQ.
  - assert (layer k = 0) as L0 by (destruct (layer k); congruence || discriminate).
    split; [|reflexivity]. cbn [right fst snd]. split; [tauto|]. intros _.
    rewrite <- (bases_next i k H L0). rewrite Z.mod_small by (unfold U64 in *; lia). split; intros; lia.
  - assert (layer k <> 0) as L0 by (intro E; rewrite E in LQ; discriminate).
    rewrite Z.mod_small by (unfold U64 in *; lia).
    destruct ((T + bases k =? T + bases i) && (P + Z.of_nat k =? P + Z.of_nat i + 1)) eqn:E.
    + split; [|cbn [fst]; do 2 f_equal; f_equal; lia]. cbn [right fst snd]. split.
      * split; [intros _; right; lia|reflexivity].
      * intros _. split; [intros _ j Hj; lia|reflexivity].
    + split; [|reflexivity]. cbn [right fst snd]. split; [|discriminate]. split; [discriminate|].
      intros [C|C]; [lia|]. subst k. rewrite bases_S in E. unfold b2z in E. destruct (layer (S i) =? 0) eqn:Q2; [lia|]. lia.
Qed.

Lemma received_tl i ks : received layer (i :: ks) -> received layer ks.
Proof. inversion 1; subst; [constructor|assumption]. Qed.

(** * VP8 *)
Section V8.
Variables p0 t0 P T : Z.
Hypothesis PP : exists c, P = p0 + c * 2 ^ 15.
Hypothesis TT : exists c, T = t0 + c * 2 ^ 8.

Lemma vp8_go : forall ks qs i r, (i <= r)%nat -> received layer (r :: ks) -> length qs = length ks ->
  0 <= P + Z.of_nat i -> 0 <= T + bases i -> (forall k, In k ks -> P + Z.of_nat k < U64 - 1 /\ T + bases k < U64 - 1) ->
  okrun (Some i) ks (decide vp8_frame (mkV (Some (P + Z.of_nat r)) (Some (T + bases r)) (mkC (Some (P + Z.of_nat i)) (Some (T + bases i))))
     (combine (map (on_wire layer p0 t0) ks) qs)).
Proof.
  induction ks as [|k ks IH]; intros qs i r IR R L P0 T0 B; [constructor|].
  destruct qs as [|q qs]; [discriminate|]. cbn in L. cbn [map combine decide].
  inversion R as [| |? ? ? R1 R2 R3 R4]; subst. destruct (B k (or_introl eq_refl)) as [B1 B2].
  pose proof (bases_mono i k ltac:(lia)) as BM. pose proof (bases_mono i r ltac:(lia)) as BM2. pose proof (bases_mono r k ltac:(lia)) as BM3.
  unfold vp8_frame. cbn [ext_pid ext_tl0 vc on_wire w_pid w_tl0 w_tid].
  assert (extend_u15 (Some (P + Z.of_nat r)) ((p0 + Z.of_nat k) mod 2 ^ 15) = P + Z.of_nat k) as ->.
  { destruct PP as [c E]. replace ((p0 + Z.of_nat k) mod 2 ^ 15) with ((P + Z.of_nat k) mod 2 ^ 15).
    - apply C01_extend_recovers; [unfold width; auto| | |]; unfold U64 in *; cbn -[Z.of_nat]; lia.
    - rewrite E. replace (p0 + c * 2 ^ 15 + Z.of_nat k) with (p0 + Z.of_nat k + c * 2 ^ 15) by lia. apply Z.mod_add. lia. }
  assert (extend_u8 (Some (T + bases r)) ((t0 + bases k) mod 2 ^ 8) = T + bases k) as ->.
  { destruct TT as [c E]. replace ((t0 + bases k) mod 2 ^ 8) with ((T + bases k) mod 2 ^ 8).
    - apply C01_extend_recovers; [unfold width; auto| | |]; unfold U64 in *; cbn -[Z.of_nat ContigSpec.bases]; lia.
    - rewrite E. replace (t0 + c * 2 ^ 8 + bases k) with (t0 + bases k + c * 2 ^ 8) by lia. apply Z.mod_add. lia. }
  unfold vp8_check. pose proof (one P T i k q ltac:(lia) P0 B1 T0 B2) as O.
  destruct (next_frame _ _ _ _ q) as [s d]. destruct O as [O1 ->].
  constructor; [exact O1|]. destruct (fst d).
  - apply IH; auto; try lia. intros j Hj. apply B. right. exact Hj.
  - apply IH; auto; try lia. intros j Hj. apply B. right. exact Hj.
Qed.
End V8.

Lemma received_ge ks : forall k, received layer (k :: ks) -> forall j, In j ks -> (k < j)%nat.
Proof.
  induction ks as [|x ks IH]; intros k R j Hj; [destruct Hj|]. inversion R as [| |? ? ? R1 _ _ R4]; subst.
  destruct Hj as [<-|Hj]; [exact R1|]. specialize (IH x R4 j Hj). lia.
Qed.

Lemma vp8_all p0 t0 ks qs : received layer ks -> length qs = length ks -> (forall k, In k ks -> Z.of_nat k < 2 ^ 62) ->
  okrun None ks (decide vp8_frame vp8_start (combine (map (on_wire layer p0 t0) ks) qs)).
Proof.
  intros R L B. destruct ks as [|k ks]; [constructor|]. destruct qs as [|q qs]; [discriminate|]. cbn in L. cbn [map combine decide].
  unfold vp8_start, vp8_frame. cbn [ext_pid ext_tl0 vc on_wire w_pid w_tl0 w_tid].
  unfold extend_u15, extend_u8. rewrite !C01_extend_first by (unfold width; auto). rewrite !Z.mod_mod by lia.
  cbn [vp8_check next_frame last_tl0 last_pid]. constructor; [reflexivity|]. cbn [fst].
  set (P := (p0 + Z.of_nat k) mod 2 ^ 15 - Z.of_nat k). set (T := (t0 + bases k) mod 2 ^ 8 - bases k).
  replace ((p0 + Z.of_nat k) mod 2 ^ 15) with (P + Z.of_nat k) by (subst P; lia).
  replace ((t0 + bases k) mod 2 ^ 8) with (T + bases k) by (subst T; lia).
  assert (0 <= (p0 + Z.of_nat k) mod 2 ^ 15 < 2 ^ 15) as MP by (apply Z.mod_pos_bound; lia).
  assert (0 <= (t0 + bases k) mod 2 ^ 8 < 2 ^ 8) as MT by (apply Z.mod_pos_bound; lia).
  apply vp8_go; auto.
  - exists (- ((p0 + Z.of_nat k) / 2 ^ 15)). subst P. pose proof (Z.div_mod (p0 + Z.of_nat k) (2 ^ 15) ltac:(lia)). lia.
  - exists (- ((t0 + bases k) / 2 ^ 8)). subst T. pose proof (Z.div_mod (t0 + bases k) (2 ^ 8) ltac:(lia)). lia.
  - subst P. lia.
  - subst T. lia.
  - intros j Hj. pose proof (received_ge ks k R j Hj). specialize (B j (or_intror Hj)). pose proof (bases_le j). pose proof (bases_ge0 k).
    subst P T. unfold U64 in *. change (2 ^ 62) with 4611686018427387904 in B. cbn -[Z.of_nat ContigSpec.bases Z.modulo] in MP, MT |- *. lia.
Qed.

(** * VP9, as long as neither number has wrapped *)
Lemma vp9_go p0 t0 : 0 <= p0 -> 0 <= t0 -> forall ks qs i, received layer (i :: ks) -> length qs = length ks ->
  (forall k, In k (i :: ks) -> p0 + Z.of_nat k < 2 ^ 15 /\ t0 + bases k < 2 ^ 8) ->
  forall j, (j <= i)%nat ->
  okrun (Some j) ks (decide vp9_frame (mkC (Some (p0 + Z.of_nat j)) (Some (t0 + bases j))) (combine (map (on_wire layer p0 t0) ks) qs)).
Proof.
  intros HP HT. induction ks as [|k ks IH]; intros qs i R L B j JI; [constructor|].
  destruct qs as [|q qs]; [discriminate|]. cbn in L. cbn [map combine decide].
  pose proof (received_ge _ _ R k (or_introl eq_refl)) as IK. destruct (B k (or_intror (or_introl eq_refl))) as [B1 B2].
  pose proof (bases_ge0 j) as G1. pose proof (bases_ge0 k) as G2. pose proof (bases_mono j k ltac:(lia)) as G3.
  unfold vp9_frame. cbn [on_wire w_pid w_tl0 w_tid].
  rewrite (Z.mod_small (p0 + Z.of_nat k)) by lia. rewrite (Z.mod_small (t0 + bases k)) by lia.
  unfold vp9_check. pose proof (one p0 t0 j k q ltac:(lia) ltac:(lia) ltac:(unfold U64; lia) ltac:(lia) ltac:(unfold U64; lia)) as O.
  destruct (next_frame _ _ _ _ q) as [s d]. destruct O as [O1 ->].
  constructor; [exact O1|].
  assert (forall a, (a <= k)%nat -> fits U16 (Some (p0 + Z.of_nat a)) = Some (p0 + Z.of_nat a) /\ fits U8 (Some (t0 + bases a)) = Some (t0 + bases a)) as FT.
  { intros a Ha. pose proof (bases_mono a k Ha). unfold fits, U16, U8. destruct (p0 + Z.of_nat a <? 65536) eqn:Q1; [|lia]. destruct (t0 + bases a <? 256) eqn:Q2; [|lia]. auto. }
  destruct (fst d); cbn [last_pid last_tl0].
  - destruct (FT k ltac:(lia)) as [-> ->]. apply (IH qs k); auto; [eapply received_tl; exact R|]. intros x Hx. apply B. right. exact Hx.
  - destruct (FT j ltac:(lia)) as [-> ->]. apply (IH qs k); auto; [eapply received_tl; exact R| |lia]. intros x Hx. apply B. right. exact Hx.
Qed.

Lemma vp9_all p0 t0 ks qs : 0 <= p0 -> 0 <= t0 -> received layer ks -> length qs = length ks ->
  (forall k, In k ks -> p0 + Z.of_nat k < 2 ^ 15 /\ t0 + bases k < 2 ^ 8) ->
  okrun None ks (decide vp9_frame (mkC None None) (combine (map (on_wire layer p0 t0) ks) qs)).
Proof.
  intros HP HT R L B. destruct ks as [|k ks]; [constructor|]. destruct qs as [|q qs]; [discriminate|]. cbn in L. cbn [map combine decide].
  destruct (B k (or_introl eq_refl)) as [B1 B2]. pose proof (bases_ge0 k).
  unfold vp9_frame. cbn [on_wire w_pid w_tl0 w_tid].
  rewrite (Z.mod_small (p0 + Z.of_nat k)) by lia. rewrite (Z.mod_small (t0 + bases k)) by lia.
  unfold vp9_check. cbn [next_frame last_tl0 last_pid]. constructor; [reflexivity|]. cbn [fst].
  unfold fits, U16, U8. destruct (p0 + Z.of_nat k <? 65536) eqn:Q1; [|lia]. destruct (t0 + bases k <? 256) eqn:Q2; [|lia].
  apply vp9_go with (i := k); auto.
Qed.
End P.

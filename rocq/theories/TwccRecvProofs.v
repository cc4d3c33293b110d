(** Building TWCC feedback: the chunk encoder. *)
From Verif Require Import Base BaseFacts TwccModel TwccSpec TwccProofs TwccRecvModel TwccRecvSpec.

(** ** What interims stand for *)
Definition ex (i : interim) : list status := match i with Missing n => rep NotReceived n | Recv s _ => [s] end.
Definition exs (is : list interim) : list status := flat_map ex is.
Definition dls (is : list interim) : list delta := flat_map idelta is.
Definition nrecv (is : list interim) : nat := length (dls is).
Definition iok (i : interim) : Prop :=
  match i with
  | Missing n => 1 <= n <= 8192
  | Recv s d => (s = SmallDelta /\ 0 <= d < 256) \/ (s = LargeDelta /\ -32768 <= d < 32768)
  end.

Lemma ex_len i : iok i -> 1 <= zlen (ex i).
Proof. destruct i as [n|s d]; cbn [iok ex]; intro H; [rewrite zlen_rep by lia; lia|change (zlen [s]) with 1; lia]. Qed.
Lemma exs_cons i is : exs (i :: is) = ex i ++ exs is. Proof. reflexivity. Qed.
Lemma exs_app a b : exs (a ++ b) = exs a ++ exs b. Proof. apply flat_map_app. Qed.
Lemma weight_eq is : Forall iok is -> weight is = zlen (exs is).
Proof.
  induction 1 as [|i is H F IH]; [reflexivity|]. rewrite exs_cons, zlen_app. unfold weight in *. cbn [fold_right]. rewrite IH.
  destruct i as [n|s d]; cbn [ex iok] in *; [rewrite zlen_rep by lia; lia|change (zlen [s]) with 1; lia].
Qed.

(** ** A partly filled chunk *)
Definition bit1 (v f : Z) (i : Z) : status := if Z.testbit v (f - 1 - i) then SmallDelta else NotReceived.
Definition bit2 (v f : Z) (i : Z) : status := status_of (v / 4 ^ (f - 1 - i) mod 4).
Definition pst (c : chunk) : list status :=
  match c with
  | Run s n => rep s n
  | VSingle v f => map (bit1 v f) (zseq 0 (Z.to_nat f))
  | VDouble v f => map (bit2 v f) (zseq 0 (Z.to_nat f))
  end.
Definition pok (c : chunk) : Prop :=
  match c with
  | Run s n => 0 <= n <= 8192 /\ s <> Unknown
  | VSingle v f => 0 <= f <= 14 /\ 0 <= v < 2 ^ f
  | VDouble v f => 0 <= f <= 7 /\ 0 <= v < 4 ^ f
  end.
Definition same_kind (a b : chunk) : Prop :=
  match a, b with Run s _, Run s' _ => s = s' | VSingle _ _, VSingle _ _ => True | VDouble _ _, VDouble _ _ => True | _, _ => False end.

Lemma status_eqb_eq a b : status_eqb a b = true <-> a = b.
Proof. destruct a, b; cbn; split; intro; congruence. Qed.

Lemma single_step v f b : 0 <= f -> 0 <= v -> 0 <= b <= 1 ->
  pst (VSingle (2 * v + b) (f + 1)) = pst (VSingle v f) ++ [if b =? 1 then SmallDelta else NotReceived].
Proof.
  intros Hf Hv Hb. cbn [pst]. replace (Z.to_nat (f + 1)) with (Z.to_nat f + 1)%nat by lia. rewrite zseq_app, map_app. f_equal.
  - apply map_ext_in. intros i Hi. apply zseq_in in Hi. unfold bit1. f_equal.
    replace (f + 1 - 1 - i) with (Z.succ (f - 1 - i)) by lia. destruct (Z.eq_dec b 1) as [->|].
    + rewrite Z.testbit_odd_succ by lia. reflexivity.
    + assert (b = 0) as -> by lia. rewrite Z.add_0_r, Z.testbit_even_succ by lia. reflexivity.
  - cbn [zseq map]. unfold bit1. replace (f + 1 - 1 - (0 + Z.of_nat (Z.to_nat f))) with 0 by lia.
    destruct (Z.eq_dec b 1) as [->|]; [rewrite Z.testbit_odd_0; reflexivity|].
    assert (b = 0) as -> by lia. rewrite Z.add_0_r, Z.testbit_even_0. reflexivity.
Qed.
Lemma double_step v f b : 0 <= f -> 0 <= v -> 0 <= b <= 3 ->
  pst (VDouble (4 * v + b) (f + 1)) = pst (VDouble v f) ++ [status_of b].
Proof.
  intros Hf Hv Hb. cbn [pst]. replace (Z.to_nat (f + 1)) with (Z.to_nat f + 1)%nat by lia. rewrite zseq_app, map_app. f_equal.
  - apply map_ext_in. intros i Hi. apply zseq_in in Hi. unfold bit2. f_equal. f_equal.
    replace (f + 1 - 1 - i) with (1 + (f - 1 - i)) by lia. rewrite Z.pow_add_r by lia. change (4 ^ 1) with 4.
    rewrite <- Z.div_div by (try lia; apply Z.pow_pos_nonneg; lia). f_equal. dlia.
  - cbn [zseq map]. unfold bit2. replace (f + 1 - 1 - (0 + Z.of_nat (Z.to_nat f))) with 0 by lia. change (4 ^ 0) with 1.
    rewrite Z.div_1_r. f_equal. f_equal. dlia.
Qed.
Lemma single_shift k : forall v f, 0 <= f -> 0 <= v ->
  pst (VSingle (v * 2 ^ Z.of_nat k) (f + Z.of_nat k)) = pst (VSingle v f) ++ repeat NotReceived k.
Proof.
  induction k as [|k IH]; intros v f Hf Hv.
  - change (2 ^ Z.of_nat 0) with 1. rewrite Z.mul_1_r, Z.add_0_r, app_nil_r. reflexivity.
  - replace (v * 2 ^ Z.of_nat (S k)) with (2 * v * 2 ^ Z.of_nat k) by (rewrite Nat2Z.inj_succ, Z.pow_succ_r by lia; ring).
    replace (f + Z.of_nat (S k)) with (f + 1 + Z.of_nat k) by lia. rewrite IH by lia.
    pose proof (single_step v f 0 Hf Hv ltac:(lia)) as S1. rewrite Z.add_0_r in S1. rewrite S1, <- app_assoc. reflexivity.
Qed.
Lemma double_shift k : forall v f, 0 <= f -> 0 <= v ->
  pst (VDouble (v * 4 ^ Z.of_nat k) (f + Z.of_nat k)) = pst (VDouble v f) ++ repeat NotReceived k.
Proof.
  induction k as [|k IH]; intros v f Hf Hv.
  - change (4 ^ Z.of_nat 0) with 1. rewrite Z.mul_1_r, Z.add_0_r, app_nil_r. reflexivity.
  - replace (v * 4 ^ Z.of_nat (S k)) with (4 * v * 4 ^ Z.of_nat k) by (rewrite Nat2Z.inj_succ, Z.pow_succ_r by lia; ring).
    replace (f + Z.of_nat (S k)) with (f + 1 + Z.of_nat k) by lia. rewrite IH by lia.
    pose proof (double_step v f 0 Hf Hv ltac:(lia)) as S1. rewrite Z.add_0_r in S1. rewrite S1, <- app_assoc. reflexivity.
Qed.
Lemma firstn_repeat {A} (x : A) n k : (k <= n)%nat -> firstn k (repeat x n) = repeat x k.
Proof. revert n. induction k as [|k IH]; intros [|n] H; cbn; try reflexivity; try lia. f_equal. apply IH. lia. Qed.
Lemma pow2_14 f : 0 <= f <= 14 -> 2 ^ f <= 16384.
Proof. intro H. change 16384 with (2 ^ 14). apply Z.pow_le_mono_r; lia. Qed.
Lemma pow4 f : 0 <= f -> 4 ^ f = 2 ^ (2 * f).
Proof. intro H. rewrite Z.pow_mul_r by lia. reflexivity. Qed.

Lemma append_spec c i : pok c -> iok i -> can_append c (istatus i) = true ->
  let k := Z.min (free c) (zlen (ex i)) in
  exists c', append c i = (c', k) /\ pok c' /\ same_kind c c' /\ free c' = free c - k /\
    pst c' = pst c ++ firstn (Z.to_nat k) (ex i).
Proof.
  intros Hc Hi Hcan k. subst k. destruct c as [s n|v f|v f]; cbn [pok can_append free] in *.
  - apply status_eqb_eq in Hcan. destruct i as [m|s2 d]; cbn [istatus ex] in *; subst s.
    + rewrite zlen_rep by (cbn in Hi; lia). cbn [append free]. change (negb (status_eqb NotReceived NotReceived)) with false. cbn iota.
      eexists. split; [reflexivity|]. split; [cbn [iok] in Hi; split; [lia|discriminate]|]. split; [reflexivity|].
      split; [cbn [free]; lia|]. cbn [pst]. cbn [iok] in Hi. unfold rep. rewrite firstn_repeat by lia. rewrite <- repeat_app. f_equal. lia.
    + change (zlen [s2]) with 1. cbn [append free]. assert (negb (status_eqb s2 s2) = false) as -> by (destruct s2; reflexivity).
      eexists. split; [reflexivity|]. split; [split; [lia|apply Hc]|]. split; [reflexivity|].
      split; [cbn [free]; lia|]. cbn [pst]. unfold rep. destruct (Z.eq_dec n 8192) as [->|].
      * change (Z.min (8192 - 8192) 1) with 0. cbn [firstn Z.to_nat]. rewrite app_nil_r, Z.add_0_r. reflexivity.
      * replace (Z.min (8192 - n) 1) with 1 by lia. change (firstn (Z.to_nat 1) [s2]) with (repeat s2 1). rewrite <- repeat_app. f_equal. lia.
  - destruct Hc as [Hf Hv]. assert (2 ^ f <= 16384) by (apply pow2_14; lia).
    destruct i as [m|s2 d]; cbn [istatus ex iok] in *.
    + rewrite zlen_rep by lia. cbn [append free]. set (k := Z.min (14 - f) m). assert (0 <= k <= 14 - f /\ k <= m) as [Hk Hkm] by lia.
      assert (0 <= v * 2 ^ k < 2 ^ (f + k)) as B.
      { rewrite Z.pow_add_r by lia. assert (0 < 2 ^ k) by (apply Z.pow_pos_nonneg; lia). split; [apply Z.mul_nonneg_nonneg; lia|]. apply Z.mul_lt_mono_pos_r; lia. }
      assert (2 ^ (f + k) <= 16384) by (apply pow2_14; lia). rewrite Z.mod_small by lia.
      eexists. split; [reflexivity|]. split; [split; [lia|exact B]|]. split; [exact I|]. split; [cbn [free]; lia|].
      pose proof (single_shift (Z.to_nat k) v f ltac:(lia) ltac:(lia)) as S. rewrite Z2Nat.id in S by lia. rewrite S.
      unfold rep. rewrite firstn_repeat by lia. reflexivity.
    + change (zlen [s2]) with 1. cbn [append free].
      assert (s2 = SmallDelta) as ->. { destruct Hi as [[-> _]|[-> _]]; [reflexivity|]. discriminate. }
      change (status_eqb SmallDelta LargeDelta) with false. cbv iota zeta. destruct (Z.eq_dec f 14) as [->|].
      * change (Z.min (14 - 14) 1) with 0. cbv iota beta. change (0 =? 1) with false. cbv iota. eexists. split; [reflexivity|]. split; [split; [lia|assumption]|]. split; [exact I|].
        split; [cbn [free]; lia|]. change (firstn (Z.to_nat 0) [SmallDelta]) with (@nil status). rewrite app_nil_r. reflexivity.
      * replace (Z.min (14 - f) 1) with 1 by lia. change (1 =? 1) with true. cbv iota.
        assert (2 ^ (f + 1) <= 16384) by (apply pow2_14; lia). rewrite Z.pow_add_r in * by lia. change (2 ^ 1) with 2 in *.
        rewrite Z.mod_small by lia. rewrite (lor_add _ _ 1) by (change (2 ^ 1) with 2; dlia).
        eexists. split; [reflexivity|]. split; [split; [lia|rewrite Z.pow_add_r by lia; change (2 ^ 1) with 2; lia]|]. split; [exact I|].
        split; [cbn [free]; lia|]. replace (v * 2 + 1) with (2 * v + 1) by lia. rewrite single_step by lia. reflexivity.
  - destruct Hc as [Hf Hv]. assert (4 ^ f <= 16384) by (rewrite pow4 by lia; apply pow2_14; lia).
    destruct i as [m|s2 d]; cbn [istatus ex iok] in *.
    + rewrite zlen_rep by lia. cbn [append free]. set (k := Z.min (7 - f) m). assert (0 <= k <= 7 - f /\ k <= m) as [Hk Hkm] by lia.
      replace (2 ^ (k * 2)) with (4 ^ k) by (rewrite pow4 by lia; f_equal; lia).
      assert (0 <= v * 4 ^ k < 4 ^ (f + k)) as B.
      { rewrite Z.pow_add_r by lia. assert (0 < 4 ^ k) by (apply Z.pow_pos_nonneg; lia). split; [apply Z.mul_nonneg_nonneg; lia|]. apply Z.mul_lt_mono_pos_r; lia. }
      assert (4 ^ (f + k) <= 16384) by (rewrite pow4 by lia; apply pow2_14; lia). rewrite Z.mod_small by lia.
      eexists. split; [reflexivity|]. split; [split; [lia|exact B]|]. split; [exact I|]. split; [cbn [free]; lia|].
      pose proof (double_shift (Z.to_nat k) v f ltac:(lia) ltac:(lia)) as S. rewrite Z2Nat.id in S by lia. rewrite S.
      unfold rep. rewrite firstn_repeat by lia. reflexivity.
    + change (zlen [s2]) with 1. cbn [append free]. cbv zeta.
      assert (0 <= status_u s2 <= 3 /\ status_of (status_u s2) = s2) as [Hu Hs] by (destruct s2; cbn; split; (lia || reflexivity)).
      destruct (Z.eq_dec f 7) as [->|].
      * change (Z.min (7 - 7) 1) with 0. change (0 =? 1) with false. cbv iota. eexists. split; [reflexivity|]. split; [split; [lia|assumption]|]. split; [exact I|].
        split; [cbn [free]; lia|]. change (firstn (Z.to_nat 0) [s2]) with (@nil status). rewrite app_nil_r. reflexivity.
      * replace (Z.min (7 - f) 1) with 1 by lia. change (1 =? 1) with true. cbv iota.
        assert (4 ^ (f + 1) <= 16384) by (rewrite pow4 by lia; apply pow2_14; lia). rewrite Z.pow_add_r in * by lia. change (4 ^ 1) with 4 in *.
        rewrite Z.mod_small by lia. rewrite (lor_add _ _ 2) by (change (2 ^ 2) with 4; dlia).
        eexists. split; [reflexivity|]. split; [split; [lia|rewrite Z.pow_add_r by lia; change (4 ^ 1) with 4; lia]|]. split; [exact I|].
        split; [cbn [free]; lia|]. replace (v * 4 + status_u s2) with (4 * v + status_u s2) by lia. rewrite double_step by lia. rewrite Hs. reflexivity.
Qed.
Lemma can_append_kind c c' s : same_kind c c' -> can_append c' s = can_append c s.
Proof. destruct c, c'; cbn; intro H; try contradiction; [rewrite H; reflexivity|reflexivity|reflexivity]. Qed.
Lemma same_kind_trans a b c : same_kind a b -> same_kind b c -> same_kind a c.
Proof. destruct a, b, c; cbn; intros; try contradiction; try congruence; exact I. Qed.
Lemma same_kind_refl a : same_kind a a. Proof. destruct a; cbn; auto. Qed.
Lemma same_kind_full a b : same_kind a b -> must_be_full a = must_be_full b.
Proof. destruct a, b; cbn; intros; try contradiction; reflexivity. Qed.
Lemma free_nonneg c : pok c -> 0 <= free c.
Proof. destruct c; cbn [pok free]; lia. Qed.

(** ** [append_max] *)
(** [is] begins with [a], all of which can go into [c], and it either ends
    there, or the next one cannot, or the chunk is full by then *)
Lemma fill_max_spec : forall is c f r, pok c -> Forall iok is -> fill_max c is = (f, r) ->
  exists a b, is = a ++ b /\ Forall (fun i => can_append c (istatus i) = true) a /\
    pok f /\ same_kind c f /\ free c - free f = Z.min (free c) (zlen (exs a)) /\
    (b = [] \/ free f = 0 \/ exists j t, b = j :: t /\ can_append c (istatus j) = false) /\
    (r = false -> free f = 0 \/ b <> []) /\ (b = [] -> r = true \/ free f = 0).
Proof.
  induction is as [|i is IH]; intros c f r Hc Hi E; cbn [fill_max] in E.
  - injection E as <- <-. exists [], []. pose proof (free_nonneg c Hc). split; [reflexivity|]. split; [constructor|]. split; [assumption|].
    split; [apply same_kind_refl|]. split; [change (zlen (exs [])) with 0; lia|]. split; [auto|]. split; [discriminate|auto].
  - destruct (free c =? 0) eqn:E0.
    { injection E as <- <-. apply Z.eqb_eq in E0. exists [], (i :: is). split; [reflexivity|]. split; [constructor|]. split; [assumption|].
      split; [apply same_kind_refl|]. split; [change (zlen (exs [])) with 0; lia|]. split; [auto|]. split; [auto|]. intro; discriminate. }
    destruct (can_append c (istatus i)) eqn:Ec; cbn [negb] in E.
    2:{ injection E as <- <-. pose proof (free_nonneg c Hc). exists [], (i :: is). split; [reflexivity|]. split; [constructor|]. split; [assumption|].
        split; [apply same_kind_refl|]. split; [change (zlen (exs [])) with 0; lia|]. split; [right; right; eauto|]. split; [right; discriminate|]. intro; discriminate. }
    destruct (append_spec c i Hc (Forall_inv Hi) Ec) as (c' & Ea & Pc & K & Fc & _). rewrite Ea in E. cbn [fst] in E. cbv zeta in Fc.
    destruct (IH c' f r Pc (Forall_inv_tail Hi) E) as (a & b & -> & Fa & Pf & Kf & Ff & Cb & Cr & Cn).
    exists (i :: a), b. split; [reflexivity|]. split.
    { constructor; [assumption|]. eapply Forall_impl; [|exact Fa]. cbn beta. intros j Hj. rewrite <- (can_append_kind c c') by exact K. exact Hj. }
    split; [assumption|]. split; [eapply same_kind_trans; eassumption|]. rewrite exs_cons, zlen_app.
    pose proof (ex_len i (Forall_inv Hi)). pose proof (free_nonneg c Hc). pose proof (zlen_nonneg (exs a)).
    pose proof (free_nonneg c' Pc). pose proof (free_nonneg f Pf). pose proof (zlen_nonneg (ex i)).
    split; [lia|]. split; [|split; assumption]. destruct Cb as [Cb|[Cb|(j & t & Cb & Cj)]]; auto.
    right. right. exists j, t. split; [assumption|]. rewrite <- (can_append_kind c c') by exact K. exact Cj.
Qed.

Definition empty_chunk (c : chunk) : Prop := match c with Run s 0 => s <> Unknown | VSingle 0 0 => True | VDouble 0 0 => True | _ => False end.
Lemma empty_pok c : empty_chunk c -> pok c /\ pst c = [].
Proof. destruct c as [s [|?|?]|[|?|?] [|?|?]|[|?|?] [|?|?]]; cbn; try contradiction; intro; (split; [|reflexivity]); [split; [lia|assumption]|lia|lia]. Qed.

(** a plan: fill [c] with [todo] statuses from [is] *)
Definition plan (c : chunk) (todo : Z) (is : list interim) : Prop :=
  exists a b, is = a ++ b /\ Forall (fun i => can_append c (istatus i) = true) a /\ todo = Z.min (free c) (zlen (exs a)) /\
    (must_be_full c = true -> todo = free c \/ b = []).

Lemma append_max_plan c is : pok c -> Forall iok is -> 0 < append_max c is -> plan c (append_max c is) is.
Proof.
  intros Hc Hi. unfold append_max. destruct (fill_max c is) as [f r] eqn:E.
  destruct (fill_max_spec is c f r Hc Hi E) as (a & b & -> & Fa & Pf & K & Ff & Cb & Cr & Cn).
  pose proof (free_nonneg c Hc). pose proof (free_nonneg f Pf).
  destruct (must_be_full f && (0 <? free f) && negb r) eqn:Q; [lia|]. intro P.
  exists a, b. split; [reflexivity|]. split; [assumption|]. split; [assumption|]. intro M.
  rewrite (same_kind_full c f K) in M. rewrite M in Q. cbn [andb] in Q.
  destruct (0 <? free f) eqn:E0; [|left; lia]. cbn [andb] in Q. destruct r; [|discriminate]. right.
  (* the end was reached and the chunk is not full, so nothing is left *)
  clear -E Hi Hc E0 Fa Ff Cb K. revert Ff Cb. intros Ff Cb. destruct Cb as [->|[?|(j & t & -> & Cj)]]; [reflexivity|lia|].
  exfalso. revert c f Hc E E0 Fa Cj Ff K. induction a as [|i a IH]; intros c f Hc E E0 Fa Cj Ff K; cbn [app fill_max] in E.
  - destruct (free c =? 0); [injection E as _ E; discriminate|]. rewrite Cj in E. cbn [negb] in E. injection E as _ E. discriminate.
  - destruct (free c =? 0); [injection E as _ E; discriminate|]. rewrite (Forall_inv Fa) in E. cbn [negb] in E.
    destruct (append_spec c i Hc (Forall_inv Hi) (Forall_inv Fa)) as (c' & Ea & Pc & K' & Fc & _). rewrite Ea in E. cbn [fst] in E.
    cbn [app] in Hi. assert (same_kind c' f) as K2.
    { clear -K K'. destruct c, c', f; cbn in *; try contradiction; try congruence; exact I. }
    apply (IH (Forall_inv_tail Hi) c' f Pc E E0); [| | |exact K2].
    + eapply Forall_impl; [|exact (Forall_inv_tail Fa)]. cbn beta. intros x Hx. rewrite (can_append_kind c c') by exact K'. exact Hx.
    + rewrite (can_append_kind c c') by exact K'. exact Cj.
    + rewrite exs_cons, zlen_app in Ff. pose proof (free_nonneg c Hc). pose proof (zlen_nonneg (exs a)). pose proof (ex_len i (Forall_inv Hi)). pose proof (free_nonneg c' Pc). lia.
Qed.
Lemma run_max_ge i is : Forall iok (i :: is) -> istatus i <> Unknown -> zlen (ex i) <= append_max (Run (istatus i) 0) (i :: is) /\ empty_chunk (Run (istatus i) 0).
Proof.
  intros Hi Hu. set (c := Run (istatus i) 0). assert (empty_chunk c) as He by exact Hu. split; [|exact He].
  destruct (empty_pok c He) as [Hc _]. unfold append_max. destruct (fill_max c (i :: is)) as [f r] eqn:E.
  destruct (fill_max_spec _ c f r Hc Hi E) as (a & b & Eq & Fa & Pf & K & Ff & Cb & Cr & Cn).
  destruct f as [s n|v f|v f]; cbn in K; try contradiction. cbn [must_be_full andb].
  pose proof (Forall_inv Hi) as Hi0.
  assert (zlen (ex i) <= 8192) by (destruct i; cbn [ex iok] in *; [rewrite zlen_rep by lia; lia|change (zlen [s0]) with 1; lia]).
  destruct a as [|i' a].
  - exfalso. cbn [app] in Eq. subst b. change (zlen (exs [])) with 0 in Ff. change (free c) with 8192 in Ff. 
    destruct Cb as [Cb|[Cb|(j & t & Cb & Cj)]]; [discriminate|lia|]. injection Cb as <- <-. cbn [can_append c] in Cj.
    assert (status_eqb (istatus i) (istatus i) = true) by (apply status_eqb_eq; reflexivity). congruence.
  - injection Eq as <- ->. rewrite exs_cons, zlen_app in Ff. pose proof (zlen_nonneg (exs a)). change (free c) with 8192 in *. lia.
Qed.

(** ** The inner loop *)
Lemma append_pos c i c' k : append c i = (c', k) -> 0 < k -> iok i -> can_append c (istatus i) = true.
Proof.
  destruct c as [s n|v f|v f], i as [m|s2 d]; cbn [append can_append istatus]; intros E K Hi; try reflexivity.
  - destruct (status_eqb s NotReceived) eqn:Q; cbn [negb] in E; [reflexivity|injection E as _ <-; lia].
  - destruct (status_eqb s s2) eqn:Q; cbn [negb] in E; [reflexivity|injection E as _ <-; lia].
  - destruct (status_eqb s2 LargeDelta) eqn:Q; [injection E as _ <-; lia|reflexivity].
Qed.
Lemma deltas_len_app a b : deltas_len (a ++ b) = deltas_len a + deltas_len b.
Proof. induction a as [|d a IH]; [reflexivity|]. cbn [app deltas_len fold_right] in *. unfold deltas_len in *. cbn [fold_right]. lia. Qed.
Lemma deltas_len_nonneg a : 0 <= deltas_len a.
Proof. induction a as [|d a IH]; [cbn; lia|]. unfold deltas_len in *. cbn [fold_right]. destruct d; cbn [delta_len]; lia. Qed.
Lemma dls_cons i is : dls (i :: is) = idelta i ++ dls is. Proof. reflexivity. Qed.

Lemma fill_spec : forall fuel todo w w', fill fuel todo w = Ok w' -> pok (w_chunk w) -> Forall iok (w_is w) ->
  exists st nds, exs (w_is w) = st ++ exs (w_is w') /\ w_cnt w' = w_cnt w + zlen st /\ zlen st <= Z.max 0 todo /\
    pst (w_chunk w') = pst (w_chunk w) ++ st /\ pok (w_chunk w') /\ same_kind (w_chunk w) (w_chunk w') /\
    free (w_chunk w') = free (w_chunk w) - zlen st /\ Forall iok (w_is w') /\
    w_ds w' = w_ds w ++ nds /\ dls (w_is w) = nds ++ dls (w_is w') /\ w_bytes w' = w_bytes w - deltas_len nds /\
    w_from w' = (w_from w + length nds)%nat /\ (7 <= w_bytes w -> 5 <= w_bytes w') /\
    (7 <= w_bytes w -> 0 < todo -> w_is w <> [] -> st <> []) /\
    (w_cnt w < U16 -> w_cnt w' < U16) /\ (zlen st = Z.max 0 todo \/ w_bytes w' < 7 \/ w_is w' = []).
Proof.
  induction fuel as [|fuel IH]; intros todo w w' E Hc Hi; [discriminate|]. cbn [fill] in E.
  assert (forall st, w' = w -> st = @nil status -> zlen st <= Z.max 0 todo -> (7 <= w_bytes w -> 0 < todo -> w_is w = []) -> 
    (0 = Z.max 0 todo \/ w_bytes w' < 7 \/ w_is w' = []) ->
    exists st nds, exs (w_is w) = st ++ exs (w_is w') /\ w_cnt w' = w_cnt w + zlen st /\ zlen st <= Z.max 0 todo /\
    pst (w_chunk w') = pst (w_chunk w) ++ st /\ pok (w_chunk w') /\ same_kind (w_chunk w) (w_chunk w') /\
    free (w_chunk w') = free (w_chunk w) - zlen st /\ Forall iok (w_is w') /\
    w_ds w' = w_ds w ++ nds /\ dls (w_is w) = nds ++ dls (w_is w') /\ w_bytes w' = w_bytes w - deltas_len nds /\
    w_from w' = (w_from w + length nds)%nat /\ (7 <= w_bytes w -> 5 <= w_bytes w') /\
    (7 <= w_bytes w -> 0 < todo -> w_is w <> [] -> st <> []) /\
    (w_cnt w < U16 -> w_cnt w' < U16) /\ (zlen st = Z.max 0 todo \/ w_bytes w' < 7 \/ w_is w' = [])) as Triv.
  { intros st -> -> L NE STP. exists [], []. change (zlen (@nil status)) with 0. change (deltas_len []) with 0.
    rewrite !app_nil_r. cbn [app length]. split; [reflexivity|]. split; [lia|]. split; [lia|]. split; [reflexivity|]. split; [assumption|].
    split; [apply same_kind_refl|]. split; [lia|]. split; [assumption|]. split; [reflexivity|]. split; [reflexivity|]. split; [lia|]. split; [lia|].
    split; [lia|]. split; [intros A B C; elim C; apply NE; assumption|]. split; [auto|exact STP]. }
  destruct (w_bytes w <? 7) eqn:B7.
  { injection E as <-. apply (Triv []); [reflexivity|reflexivity|change (zlen (@nil status)) with 0; lia|lia|right; left; lia]. }
  destruct (todo =? 0) eqn:T0.
  { injection E as <-. apply (Triv []); [reflexivity|reflexivity|change (zlen (@nil status)) with 0; lia|lia|left; lia]. }
  destruct (w_is w) as [|i tl] eqn:Ei.
  { injection E as <-. rewrite <- Ei. rewrite Ei in Triv. rewrite <- Ei in Triv. apply (Triv []); [reflexivity|reflexivity|change (zlen (@nil status)) with 0; lia|auto|auto]. }
  clear Triv. destruct (append (w_chunk w) i) as [c' k] eqn:Ea. destruct (k <=? 0) eqn:K0; [discriminate|]. destruct (todo <? k) eqn:TK; [discriminate|].
  destruct (U16 <=? w_cnt w + k) eqn:KU; [discriminate|].
  pose proof (append_pos _ _ _ _ Ea ltac:(lia) (Forall_inv Hi)) as Can.
  destruct (append_spec _ _ Hc (Forall_inv Hi) Can) as (c2 & Ea2 & Pc & SK & Fc & Ps). cbv zeta in *. rewrite Ea in Ea2. injection Ea2 as <- Ek.
  rewrite <- Ek in *. pose proof (ex_len i (Forall_inv Hi)) as XL. rewrite exs_cons, dls_cons.
  destruct (consume i k) as [[i' done]| |] eqn:Ecs; cbn [bind] in E; try discriminate.
  destruct done.
  - (* used up *)
    assert (idelta i' = idelta i /\ firstn (Z.to_nat k) (ex i) = ex i /\ length (idelta i) = match i' with Recv _ _ => 1 | _ => 0 end%nat) as (D1 & F1 & N1).
    { destruct i as [m|s d]; cbn [consume] in Ecs.
      - destruct (m <? k) eqn:Q; [discriminate|]. injection Ecs as <- Q2. cbn [idelta]. cbn [ex] in *. pose proof (Forall_inv Hi) as Hm. cbn [iok] in Hm.
        split; [reflexivity|]. split; [|reflexivity]. rewrite firstn_all2; [reflexivity|]. unfold rep. rewrite repeat_length. lia.
      - destruct (1 <? k) eqn:Q; [discriminate|]. injection Ecs as <- Q2. split; [reflexivity|]. split.
        + cbn [ex] in *. apply firstn_all2. cbn [length]. lia.
        + cbn [idelta]. destruct s; reflexivity. }
    destruct (w_bytes w <? deltas_len (idelta i')) eqn:Bd; [discriminate|].
    destruct (IH _ _ _ E) as (st & nds & A1 & A2 & A3 & A4 & A5 & A6 & A7 & A8 & A9 & A10 & A11 & A12 & A13 & A14 & A15 & A16).
    { exact Pc. } { exact (Forall_inv_tail Hi). } cbn [w_is w_cnt w_chunk w_ds w_bytes w_from] in *.
    rewrite F1 in Ps. assert (zlen (ex i) = k) as Lk.
    { pose proof (f_equal (@length status) F1) as L. rewrite firstn_length in L. unfold zlen in *. lia. }
    assert (deltas_len (idelta i) <= 2) as D2 by (destruct i as [m|[] d]; cbn; lia).
    exists (ex i ++ st), (idelta i ++ nds). rewrite zlen_app, deltas_len_app, app_length, <- app_assoc.
    split; [rewrite A1; reflexivity|]. split; [lia|]. split; [lia|]. split; [rewrite A4, Ps, app_assoc; reflexivity|].
    split; [assumption|]. split; [eapply same_kind_trans; eassumption|]. split; [lia|]. split; [assumption|].
    split; [rewrite A9, D1, app_assoc; reflexivity|]. split; [rewrite A10, app_assoc; reflexivity|]. rewrite D1 in *.
    split; [lia|]. split; [rewrite A12, N1; clear; lia|]. split.
    { intro. destruct (Z_lt_dec (w_bytes w - deltas_len (idelta i)) 7) as [L|L].
      - assert (nds = []) as ->.
        { clear -E L Hi A9. destruct fuel; [discriminate|]. cbn [fill w_bytes] in E. destruct (w_bytes w - deltas_len (idelta i) <? 7) eqn:Q; [|lia].
          injection E as <-. cbn [w_ds] in A9. rewrite <- app_nil_r in A9 at 1. apply app_inv_head in A9. symmetry. exact A9. }
        change (deltas_len []) with 0 in A11. lia.
      - apply A13. lia. }
    split; [intros; intro Z; apply app_eq_nil in Z; destruct Z as [Z _]; rewrite Z in XL; change (zlen (@nil status)) with 0 in XL; lia|].
    split; [lia|]. destruct A16 as [A16|A16]; [left; lia|right; exact A16].
  - (* part of a gap *)
    destruct (negb (todo - k =? 0)) eqn:TK0; [discriminate|].
    assert (todo - k = 0) as TZ by (destruct (todo - k =? 0) eqn:Q; [lia|discriminate]).
    destruct i as [m|s d]; cbn [consume] in Ecs; [|destruct (1 <? k) eqn:Q1; [discriminate|]; injection Ecs as <- Q; lia].
    destruct (m <? k) eqn:Q; [discriminate|]. injection Ecs as <- Q2.
    pose proof (Forall_inv Hi) as Hm. cbn [iok] in Hm.
    destruct fuel as [|fuel]; [discriminate|]. cbn [fill w_bytes w_is] in E. rewrite B7 in E. rewrite TZ in E. cbn [Z.eqb] in E.
    injection E as <-. cbn [w_is w_cnt w_chunk w_ds w_bytes w_from ex idelta app] in *.
    exists (rep NotReceived k), []. rewrite zlen_rep by lia. change (deltas_len []) with 0. rewrite app_nil_r. cbn [length].
    split; [rewrite exs_cons; cbn [ex]; rewrite app_assoc; f_equal; unfold rep; rewrite <- repeat_app; f_equal; lia|]. split; [lia|]. split; [lia|].
    split; [rewrite Ps; f_equal; unfold rep; rewrite firstn_repeat by lia; reflexivity|]. split; [assumption|]. split; [assumption|]. split; [lia|].
    split; [constructor; [cbn [iok]; lia|exact (Forall_inv_tail Hi)]|]. split; [reflexivity|]. split; [reflexivity|]. split; [lia|]. split; [clear; lia|]. split; [lia|].
    split; [intros; intro Z; apply (f_equal (@length status)) in Z; unfold rep in Z; rewrite repeat_length in Z; cbn in Z; lia|]. split; [lia|left; lia].
Qed.

(** ** The outer loop *)
(** as [chunk_ok], but a run may have the length 8192 *)
Definition chunk_okw (c : chunk) : Prop :=
  match c with Run s n => 0 < n <= 8192 /\ s <> Unknown | VSingle v f => 0 <= v < 16384 /\ f = 14 | VDouble v f => 0 <= v < 16384 /\ f = 7 end.
Lemma full_chunk c : pok c -> (must_be_full c = true -> free c = 0) -> pst c <> [] -> chunk_okw c /\ chunk_statuses c = pst c.
Proof.
  destruct c as [s n|v f|v f]; cbn [pok must_be_full free]; intros P F N.
  - split; [cbn [chunk_okw]; split; [|tauto]|].
    + split; [|lia]. destruct (Z.eq_dec n 0) as [->|]; [elim N; reflexivity|lia].
    + cbn [chunk_statuses pst]. destruct s; try reflexivity. destruct P; congruence.
  - assert (f = 14) as -> by (specialize (F eq_refl); lia). split; [cbn [chunk_okw]; change 16384 with (2 ^ 14); tauto|].
    cbn [chunk_statuses pst]. apply map_ext. intro i. unfold bit1. replace (14 - 1 - i) with (13 - i) by lia. reflexivity.
  - assert (f = 7) as -> by (specialize (F eq_refl); lia). split; [cbn [chunk_okw]; change 16384 with (4 ^ 7); tauto|].
    cbn [chunk_statuses pst]. apply map_ext. intro i. unfold bit2. replace (7 - 1 - i) with (6 - i) by lia. reflexivity.
Qed.
Lemma iok_known i : iok i -> istatus i <> Unknown.
Proof. destruct i as [n|s d]; cbn; [discriminate|]. intros [[-> _]|[-> _]]; discriminate. Qed.

Lemma choose_spec bytes i is c mx : Forall iok (i :: is) -> choose bytes (istatus i) (i :: is) = (c, mx) ->
  empty_chunk c /\ 0 < mx /\ mx = append_max c (i :: is).
Proof.
  intros Hi E. destruct (run_max_ge i is Hi (iok_known i (Forall_inv Hi))) as [R1 R2]. pose proof (ex_len i (Forall_inv Hi)) as R3.
  unfold choose in E. set (l := i :: is) in *. clearbody l.
  set (mr := append_max (Run (istatus i) 0) l) in *. set (ms := append_max (VSingle 0 0) l) in *. set (md := append_max (VDouble 0 0) l) in *.
  assert (mr = append_max (Run (istatus i) 0) l) as Er by reflexivity. assert (ms = append_max (VSingle 0 0) l) as Es by reflexivity.
  assert (md = append_max (VDouble 0 0) l) as Ed by reflexivity. clearbody mr ms md.
  cbv zeta in E.
  destruct (Z.max (Z.max mr ms) md =? mr) eqn:Q1; [injection E as <- <-; split; [exact R2|split; [lia|assumption]]|].
  destruct ((Z.max (Z.max mr ms) md =? ms) && (19 <=? bytes)) eqn:Q2; [injection E as <- <-; split; [exact I|split; [lia|assumption]]|].
  destruct ((Z.max (Z.max mr ms) md =? md) && (19 <=? bytes)) eqn:Q3; [injection E as <- <-; split; [exact I|split; [lia|assumption]]|].
  injection E as <- <-. split; [exact R2|split; [lia|assumption]].
Qed.
Lemma chunk_okw_max c : chunk_okw c -> zlen (chunk_statuses c) = chunk_max c.
Proof.
  destruct c as [s n|v f|v f]; cbn [chunk_okw chunk_statuses chunk_max]; intro H.
  - apply zlen_rep. lia.
  - reflexivity.
  - reflexivity.
Qed.
Lemma size_app a b : size (a ++ b) = size a + size b.
Proof. induction a as [|c a IH]; [reflexivity|]. cbn [app]. rewrite !size_cons, IH. lia. Qed.

Lemma chunks_loop_spec : forall fuel a a', chunks_loop fuel a = Ok a' -> Forall iok (a_is a) ->
  exists st nds ncs m, exs (a_is a) = st ++ exs (a_is a') /\ dls (a_is a) = nds ++ dls (a_is a') /\
    Forall iok (a_is a') /\
    a_cnt a' = a_cnt a + zlen st /\ (a_cnt a < U16 -> a_cnt a' < U16) /\
    a_ds a' = a_ds a ++ nds /\ a_cs a' = a_cs a ++ ncs /\ a_from a' = (a_from a + length nds)%nat /\
    statuses ncs = st ++ rep NotReceived m /\ 0 <= m /\ (m = 0 \/ a_is a' = []) /\ Forall chunk_okw ncs /\
    a_bytes a' = a_bytes a - deltas_len nds - 2 * zlen ncs /\ (ncs = [] \/ 3 <= a_bytes a') /\
    (7 <= a_bytes a -> a_is a <> [] -> ncs <> []) /\
    (forall l c, ncs = l ++ [c] -> size l < zlen st) /\
    (a_is a' = [] \/ a_bytes a' < 7).
Proof.
  induction fuel as [|fuel IH]; intros a a' E Hi; [discriminate|]. cbn [chunks_loop] in E.
  assert (a' = a -> a_is a = [] \/ a_bytes a < 7 -> exists st nds ncs m, exs (a_is a) = st ++ exs (a_is a') /\ dls (a_is a) = nds ++ dls (a_is a') /\
    Forall iok (a_is a') /\
    a_cnt a' = a_cnt a + zlen st /\ (a_cnt a < U16 -> a_cnt a' < U16) /\
    a_ds a' = a_ds a ++ nds /\ a_cs a' = a_cs a ++ ncs /\ a_from a' = (a_from a + length nds)%nat /\
    statuses ncs = st ++ rep NotReceived m /\ 0 <= m /\ (m = 0 \/ a_is a' = []) /\ Forall chunk_okw ncs /\
    a_bytes a' = a_bytes a - deltas_len nds - 2 * zlen ncs /\ (ncs = [] \/ 3 <= a_bytes a') /\
    (7 <= a_bytes a -> a_is a <> [] -> ncs <> []) /\
    (forall l c, ncs = l ++ [c] -> size l < zlen st) /\
    (a_is a' = [] \/ a_bytes a' < 7)) as Triv.
  { intros -> H. exists [], [], [], 0. cbn [app length]. rewrite !app_nil_r. change (zlen (@nil status)) with 0. change (zlen (@nil chunk)) with 0. change (deltas_len []) with 0.
    split; [reflexivity|]. split; [reflexivity|]. split; [assumption|]. split; [lia|]. split; [auto|]. split; [reflexivity|]. split; [reflexivity|]. split; [lia|].
    split; [reflexivity|]. split; [lia|]. split; [auto|]. split; [constructor|]. split; [lia|]. split; [auto|]. split; [intros; destruct H; [contradiction|lia]|].
    split; [intros l c Q; destruct l; discriminate|exact H]. }
  destruct (a_is a) as [|i0 is0] eqn:Ei.
  { injection E as <-. rewrite <- Ei in Triv |- *. apply Triv; auto. }
  destruct (a_bytes a <? 7) eqn:B7.
  { injection E as <-. rewrite <- Ei in Triv |- *. apply Triv; [reflexivity|right; lia]. }
  clear Triv. destruct (choose (a_bytes a) (istatus i0) (i0 :: is0)) as [c mx] eqn:Ech.
  destruct (choose_spec _ _ _ _ _ Hi Ech) as (Em & Mx & _). destruct (empty_pok c Em) as [Pc0 Ps0].
  destruct (fill _ mx _) as [w| |] eqn:Ef; cbn [bind] in E; try discriminate.
  destruct (fill_spec _ _ _ _ Ef) as (st & nds & A1 & A2 & A3 & A4 & A5 & A6 & A7 & A8 & A9 & A10 & A11 & A12 & A13 & A14 & A15 & A16).
  { exact Pc0. } { exact Hi. }
  cbn [w_is w_cnt w_chunk w_ds w_bytes w_from] in *. rewrite Ps0 in A4. cbn [app] in A4.
  assert (st <> []) as Nst by (apply A14; [lia|lia|discriminate]).
  assert (5 <= w_bytes w) as B5 by (apply A13; lia).
  (* the chunk that is pushed *)
  assert (exists c2 m, (if must_be_full (w_chunk w) && (0 <? free (w_chunk w)) then
              match w_is w with [] => Ok (fst (append (w_chunk w) (Missing (free (w_chunk w))))) | _ => Panic end else Ok (w_chunk w)) = Ok c2 /\
            chunk_okw c2 /\ chunk_statuses c2 = st ++ rep NotReceived m /\ 0 <= m /\ (m = 0 \/ w_is w = [])) as (c2 & m & Ec2 & Ok2 & S2 & M2 & Me).
  { destruct (must_be_full (w_chunk w) && (0 <? free (w_chunk w))) eqn:MF.
    - apply andb_prop in MF. destruct MF as [MF1 MF2]. destruct (w_is w) as [|x y]; [|cbn [bind] in E; discriminate].
      assert (iok (Missing (free (w_chunk w)))) as IM.
      { cbn [iok]. destruct (w_chunk w) as [?|v f|v f]; [discriminate| |]; cbn [pok free] in *; lia. }
      assert (can_append (w_chunk w) (istatus (Missing (free (w_chunk w)))) = true) as CM.
      { destruct (w_chunk w); [discriminate| |]; reflexivity. }
      destruct (append_spec _ _ A5 IM CM) as (c2 & Ea & P2 & K2 & F2 & T2). cbv zeta in *.
      cbn [ex] in *. rewrite zlen_rep in * by (cbn [iok] in IM; lia). rewrite Z.min_id in *. 
      exists c2, (free (w_chunk w)). rewrite Ea. cbn [fst]. split; [reflexivity|].
      unfold rep in T2. rewrite firstn_repeat in T2 by lia. fold (rep NotReceived (free (w_chunk w))) in T2. rewrite A4 in T2.
      destruct (full_chunk c2 P2) as [C1 C2]; [intros _; lia|rewrite T2; intro Z; apply app_eq_nil in Z; tauto|].
      split; [exact C1|]. split; [rewrite C2; exact T2|]. split; [lia|auto].
    - exists (w_chunk w), 0. split; [reflexivity|].
      destruct (full_chunk (w_chunk w) A5) as [C1 C2].
      + intro Q. rewrite Q in MF. cbn [andb] in MF. pose proof (free_nonneg _ A5). lia.
      + rewrite A4. exact Nst.
      + split; [exact C1|]. split; [rewrite C2, A4; unfold rep; cbn; rewrite app_nil_r; reflexivity|]. split; [lia|auto]. }
  rewrite Ec2 in E. cbn [bind] in E. destruct (w_bytes w <? 2) eqn:B2; [discriminate|].
  destruct (IH _ _ E A8) as (st' & nds' & ncs' & m' & D1 & D2 & D3 & D4 & D5 & D6 & D7 & D8 & D9 & D10 & D11 & D12 & D13 & D14 & D15 & D16 & D17).
  cbn [a_is a_cnt a_ds a_cs a_from a_bytes] in *.
  assert (zlen st' = zlen st' /\ 0 < zlen st) as [_ Zst].
  { split; [reflexivity|]. destruct st; [congruence|]. unfold zlen. cbn [length]. lia. }
  destruct Me as [->|Me].
  - (* not padded *)
    exists (st ++ st'), (nds ++ nds'), (c2 :: ncs'), m'. rewrite !zlen_app, deltas_len_app, app_length. 
    assert (zlen (c2 :: ncs') = 1 + zlen ncs') as Z1 by (unfold zlen; cbn [length]; lia). rewrite Z1.
    split; [rewrite A1, D1, app_assoc; reflexivity|]. split; [rewrite A10, D2, app_assoc; reflexivity|]. split; [assumption|]. split; [lia|]. split; [auto|].
    split; [rewrite D6, A9, app_assoc; reflexivity|]. split; [rewrite D7, <- app_assoc; reflexivity|]. split; [rewrite D8, A12; clear; lia|].
    split. { unfold statuses in *. cbn [flat_map]. rewrite D9, S2. change (rep NotReceived 0) with (@nil status). rewrite app_nil_r, app_assoc. reflexivity. }
    split; [assumption|]. split; [assumption|]. split; [constructor; assumption|]. split; [lia|].
    split. { right. destruct D14 as [->|D14]; [|exact D14]. change (zlen (@nil chunk)) with 0 in D13.
      assert (nds' = []) as ->. { assert (st' = []) as ->. { cbn in D9. symmetry in D9. apply app_eq_nil in D9. tauto. } 
         destruct nds' as [|d nds']; [reflexivity|]. exfalso.
         clear -D7 E D6. destruct fuel as [|fuel]; [discriminate|]. cbn [chunks_loop a_is a_bytes] in E.
         destruct (w_is w) as [|x y]; [injection E as <-; cbn [a_ds] in D6; apply (f_equal (@length delta)) in D6; rewrite app_length in D6; cbn in D6; lia|].
         destruct (w_bytes w - 2 <? 7); [injection E as <-; cbn [a_ds] in D6; apply (f_equal (@length delta)) in D6; rewrite app_length in D6; cbn in D6; lia|].
         exfalso. clear D6. destruct (choose _ _ _) as [c3 mx3]. destruct (fill _ mx3 _) as [w3| |]; cbn [bind] in E; try discriminate.
         destruct (if must_be_full (w_chunk w3) && (0 <? free (w_chunk w3)) then _ else _) as [c4| |]; cbn [bind] in E; try discriminate.
         destruct (w_bytes w3 <? 2); [discriminate|]. 
         assert (forall f x y, chunks_loop f x = Ok y -> (length (a_cs x) <= length (a_cs y))%nat) as Mono.
         { clear. induction f as [|f IHf]; intros x y E; [discriminate|]. cbn [chunks_loop] in E. destruct (a_is x); [injection E as <-; lia|].
           destruct (a_bytes x <? 7); [injection E as <-; lia|]. destruct (choose _ _ _) as [c3 mx3]. destruct (fill _ mx3 _) as [w3| |]; cbn [bind] in E; try discriminate.
           destruct (if must_be_full (w_chunk w3) && (0 <? free (w_chunk w3)) then _ else _) as [c4| |]; cbn [bind] in E; try discriminate.
           destruct (w_bytes w3 <? 2); [discriminate|]. apply IHf in E. cbn [a_cs] in E. rewrite app_length in E. cbn in E. lia. }
         apply Mono in E. cbn [a_cs] in E. rewrite D7, !app_length in E. cbn in E. lia. }
      change (deltas_len []) with 0 in D13. lia. }
    split; [discriminate|]. split.
    { intros l c0 Q. destruct l as [|x l]; [change (size []) with 0; pose proof (zlen_nonneg st'); lia|]. cbn [app] in Q. injection Q as <- Q.
      rewrite size_cons. specialize (D16 l c0 Q). rewrite <- (chunk_okw_max c2 Ok2), S2. change (rep NotReceived 0) with (@nil status). rewrite app_nil_r. lia. }
    exact D17.
  - (* padded: nothing is left *)
    assert (a' = Acc (w_bytes w - 2) (w_is w) (w_cnt w) (w_ds w) (a_cs a ++ [c2]) (w_from w)) as ->.
    { destruct fuel as [|fuel]; [discriminate|]. cbn [chunks_loop a_is] in E. rewrite Me in E. injection E as <-. rewrite Me. reflexivity. }
    cbn [a_is a_cnt a_ds a_cs a_from a_bytes].
    exists st, nds, [c2], m. change (zlen [c2]) with 1.
    split; [assumption|]. split; [assumption|]. split; [rewrite Me; constructor|]. split; [assumption|]. split; [assumption|]. split; [assumption|]. split; [reflexivity|].
    split; [assumption|]. split; [unfold statuses; cbn [flat_map]; rewrite app_nil_r; exact S2|]. split; [assumption|]. split; [auto|].
    split; [repeat constructor; assumption|]. split; [lia|]. split; [right; lia|]. split; [discriminate|]. split.
    { intros l c0 Q. destruct l as [|x l]; [change (size []) with 0; lia|]. destruct l; discriminate. }
    left. exact Me.
Qed.

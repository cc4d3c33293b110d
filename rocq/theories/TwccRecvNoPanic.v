(** Building TWCC feedback: with enough room nothing panics. *)
From Verif Require Import Base BaseFacts TwccModel TwccSpec TwccProofs TwccRecvModel TwccRecvSpec TwccRecvProofs TwccRecvQueue.

Lemma exs_nil is : Forall iok is -> exs is = [] -> is = [].
Proof.
  destruct is as [|i is]; [reflexivity|]. intros H E. exfalso. rewrite exs_cons in E. apply app_eq_nil in E. destruct E as [E _].
  pose proof (ex_len i (Forall_inv H)) as L. rewrite E in L. change (zlen (@nil status)) with 0 in L. lia.
Qed.
Lemma deltas_len_dls_cons i is : deltas_len (dls (i :: is)) = deltas_len (idelta i) + deltas_len (dls is).
Proof. rewrite dls_cons. apply deltas_len_app. Qed.

Lemma fill_np : forall fuel todo w, pok (w_chunk w) -> Forall iok (w_is w) -> plan (w_chunk w) todo (w_is w) ->
  todo < Z.of_nat fuel -> 7 + deltas_len (dls (w_is w)) <= w_bytes w -> 0 <= w_cnt w -> w_cnt w + zlen (exs (w_is w)) < U16 ->
  exists w', fill fuel todo w = Ok w'.
Proof.
  induction fuel as [|fuel IH]; intros todo w Hc Hi (a & b & Eab & Ha & Et & Hf) Lf Hb C0 Hcnt.
  { pose proof (free_nonneg _ Hc). pose proof (zlen_nonneg (exs a)). lia. }
  cbn [fill]. pose proof (deltas_len_nonneg (dls (w_is w))). destruct (w_bytes w <? 7) eqn:B7; [lia|].
  destruct (todo =? 0) eqn:T0; [eexists; reflexivity|].
  destruct (w_is w) as [|i tl] eqn:Ei; [eexists; reflexivity|].
  destruct a as [|i' a].
  { exfalso. change (zlen (exs [])) with 0 in Et. pose proof (free_nonneg _ Hc). lia. }
  cbn [app] in Eab. injection Eab as <- ->.
  destruct (append_spec _ _ Hc (Forall_inv Hi) (Forall_inv Ha)) as (c' & Ea & Pc & SK & Fc & Ps). cbv zeta in *. rewrite Ea.
  pose proof (ex_len i (Forall_inv Hi)) as XL. pose proof (free_nonneg _ Hc) as F0. pose proof (zlen_nonneg (exs a)) as Z0. pose proof (zlen_nonneg (exs (a ++ b))) as Z1.
  rewrite exs_cons, zlen_app in Et, Hcnt. set (k := Z.min (free (w_chunk w)) (zlen (ex i))) in *. assert (k = Z.min (free (w_chunk w)) (zlen (ex i))) as Ek by reflexivity. clearbody k.
  assert (0 < k <= todo) as K0 by lia.
  destruct (k <=? 0) eqn:Q0; [lia|]. destruct (todo <? k) eqn:Q1; [lia|]. destruct (U16 <=? w_cnt w + k) eqn:Q2; [lia|].
  assert (exists i' done, consume i k = Ok (i', done) /\ (done = true -> k = zlen (ex i) /\ idelta i' = idelta i) /\ (done = false -> k < zlen (ex i) /\ iok i')) as (i' & done & Ecs & Dt & Df).
  { destruct i as [m|s d]; cbn [consume].
    - pose proof (Forall_inv Hi) as Hm. cbn [iok] in Hm. cbn [ex] in *. rewrite zlen_rep in * by lia. destruct (m <? k) eqn:Q; [lia|].
      eexists _, _. split; [reflexivity|]. split; [intro D; split; [lia|reflexivity]|]. intro D. split; [lia|cbn [iok]; lia].
    - cbn [ex] in *. change (zlen [s]) with 1 in *. destruct (1 <? k) eqn:Q; [lia|]. eexists _, _. split; [reflexivity|].
      split; [intro; split; [lia|reflexivity]|]. intro D. lia. }
  rewrite Ecs. cbn [bind]. destruct done.
  - destruct (Dt eq_refl) as [K1 D1]. rewrite D1. rewrite deltas_len_dls_cons in Hb. pose proof (deltas_len_nonneg (dls (a ++ b))).
    destruct (w_bytes w <? deltas_len (idelta i)) eqn:Q3; [lia|].
    apply IH; cbn [w_chunk w_is w_bytes w_cnt]; [exact Pc|exact (Forall_inv_tail Hi)| |lia|lia|lia|lia].
    exists a, b. split; [reflexivity|]. split.
    { eapply Forall_impl; [|exact (Forall_inv_tail Ha)]. cbn beta. intros x Hx. rewrite (can_append_kind _ _ _ SK). exact Hx. }
    split; [lia|]. intro M. rewrite <- (same_kind_full _ _ SK) in M. specialize (Hf M). destruct Hf as [Hf|Hf]; [left; lia|right; exact Hf].
  - destruct (Df eq_refl) as [K1 D1]. assert (todo - k = 0) as TZ by lia. rewrite TZ. cbn [Z.eqb negb].
    destruct fuel as [|fuel]; [lia|]. cbn [fill w_bytes]. rewrite B7. cbn [Z.eqb]. eexists; reflexivity.
Qed.

Lemma fill_mono : forall fuel todo w w', fill fuel todo w = Ok w' -> (length (w_is w') <= length (w_is w))%nat.
Proof.
  induction fuel as [|fuel IH]; intros todo w w' E; [discriminate|]. cbn [fill] in E.
  destruct (w_bytes w <? 7); [injection E as <-; lia|]. destruct (todo =? 0); [injection E as <-; lia|].
  destruct (w_is w) as [|i tl] eqn:Ei; [injection E as <-; rewrite Ei; lia|].
  destruct (append (w_chunk w) i) as [c' k]. destruct (k <=? 0); [discriminate|]. destruct (todo <? k); [discriminate|].
  destruct (U16 <=? w_cnt w + k); [discriminate|]. destruct (consume i k) as [[i' [|]]| |]; cbn [bind] in E; try discriminate.
  - destruct (w_bytes w <? deltas_len (idelta i')); [discriminate|]. apply IH in E. cbn [w_is] in E. cbn [length]. lia.
  - destruct (negb (todo - k =? 0)); [discriminate|]. apply IH in E. cbn [w_is length] in E. cbn [length]. lia.
Qed.
Lemma fill_first fuel todo w w' i tl : fill fuel todo w = Ok w' -> w_is w = i :: tl -> pok (w_chunk w) -> Forall iok (i :: tl) ->
  7 <= w_bytes w -> zlen (ex i) <= todo -> zlen (ex i) <= free (w_chunk w) -> zlen (w_is w') + 1 <= zlen (i :: tl).
Proof.
  intros E Ei Hc Hi B T F. pose proof (ex_len i (Forall_inv Hi)) as XL. destruct fuel as [|fuel]; [discriminate|]. cbn [fill] in E.
  destruct (w_bytes w <? 7) eqn:B7; [lia|]. destruct (todo =? 0) eqn:T0; [lia|]. rewrite Ei in E.
  destruct (append (w_chunk w) i) as [c' k] eqn:Ea. destruct (k <=? 0) eqn:K0; [discriminate|]. destruct (todo <? k); [discriminate|].
  destruct (U16 <=? w_cnt w + k); [discriminate|].
  pose proof (append_pos _ _ _ _ Ea ltac:(lia) (Forall_inv Hi)) as Can.
  destruct (append_spec _ _ Hc (Forall_inv Hi) Can) as (c2 & Ea2 & _). cbv zeta in *. rewrite Ea in Ea2. injection Ea2 as <- Ek.
  assert (k = zlen (ex i)) as Kx by lia. rewrite Kx in *. clear Kx Ek.
  assert (exists i', consume i (zlen (ex i)) = Ok (i', true)) as [i' Ecs].
  { pose proof (Forall_inv Hi) as Hm. destruct i as [m|s d]; cbn [consume ex iok] in *.
    - rewrite zlen_rep by lia. destruct (m <? m) eqn:Q; [lia|]. assert (m - m =? 0 = true) as -> by lia. eexists; reflexivity.
    - eexists; reflexivity. }
  rewrite Ecs in E. cbn [bind] in E. destruct (w_bytes w <? deltas_len (idelta i')); [discriminate|].
  apply fill_mono in E. cbn [w_is] in E. unfold zlen. cbn [length]. lia.
Qed.

Lemma chunks_loop_np : forall fuel a, Forall iok (a_is a) -> zlen (exs (a_is a)) < Z.of_nat fuel ->
  19 + 2 * zlen (a_is a) + deltas_len (dls (a_is a)) <= a_bytes a -> 0 <= a_cnt a -> a_cnt a + zlen (exs (a_is a)) < U16 ->
  exists a', chunks_loop fuel a = Ok a'.
Proof.
  induction fuel as [|fuel IH]; intros a Hi Lf Hb C0 Hc; [pose proof (zlen_nonneg (exs (a_is a))); lia|]. cbn [chunks_loop].
  destruct (a_is a) as [|i0 is0] eqn:Ei; [eexists; reflexivity|].
  pose proof (deltas_len_nonneg (dls (i0 :: is0))). pose proof (zlen_nonneg (i0 :: is0)).
  destruct (a_bytes a <? 7) eqn:B7; [lia|].
  destruct (choose (a_bytes a) (istatus i0) (i0 :: is0)) as [c mx] eqn:Ech.
  destruct (choose_spec _ _ _ _ _ Hi Ech) as (Em & Mx & Emx). destruct (empty_pok c Em) as [Pc0 Ps0].
  assert (zlen (ex i0) <= mx) as Mge.
  { destruct (run_max_ge i0 is0 Hi (iok_known i0 (Forall_inv Hi))) as [R1 _]. unfold choose in Ech. cbv zeta in Ech.
    assert (19 <=? a_bytes a = true) as B19 by lia. rewrite B19 in Ech. rewrite !andb_true_r in Ech.
    set (mr := append_max (Run (istatus i0) 0) (i0 :: is0)) in *. set (ms := append_max (VSingle 0 0) (i0 :: is0)) in *. set (md := append_max (VDouble 0 0) (i0 :: is0)) in *. clearbody mr ms md.
    destruct (Z.max (Z.max mr ms) md =? mr) eqn:Q1; [injection Ech as _ <-; lia|].
    destruct (Z.max (Z.max mr ms) md =? ms) eqn:Q2; [injection Ech as _ <-; lia|].
    destruct (Z.max (Z.max mr ms) md =? md) eqn:Q3; injection Ech as _ <-; lia. }
  pose proof (append_max_plan c (i0 :: is0) Pc0 Hi ltac:(rewrite <- Emx; exact Mx)) as Pl. rewrite <- Emx in Pl.
  destruct (fill_np (S (Z.to_nat mx)) mx (Work c (a_bytes a) (i0 :: is0) (a_cnt a) (a_ds a) (a_from a)) Pc0 Hi Pl) as [w Ef]; cbn [w_bytes w_is w_cnt]; [lia|lia|lia|lia|].
  rewrite Ef. cbn [bind].
  destruct (fill_spec _ _ _ _ Ef) as (st & nds & A1 & A2 & A3 & A4 & A5 & A6 & A7 & A8 & A9 & A10 & A11 & A12 & A13 & A14 & A15 & A16).
  { exact Pc0. } { exact Hi. }
  cbn [w_is w_cnt w_chunk w_ds w_bytes w_from] in *. rewrite A10, deltas_len_app in *. pose proof (deltas_len_nonneg (dls (w_is w))). pose proof (deltas_len_nonneg nds).
  (* at least the first interim is used up *)
  assert (zlen (w_is w) + 1 <= zlen (i0 :: is0)) as Prog.
  { destruct A16 as [A16|[A16|A16]]; [|lia|rewrite A16; change (zlen (@nil interim)) with 0; unfold zlen; cbn [length]; lia].
    apply (fill_first _ _ _ _ i0 is0 Ef); cbn [w_is w_bytes w_chunk]; try assumption; try reflexivity; try lia.
    destruct Pl as (pa & pb & _ & _ & Q & _). lia. }
  assert (exists c2, (if must_be_full (w_chunk w) && (0 <? free (w_chunk w)) then
              match w_is w with [] => Ok (fst (append (w_chunk w) (Missing (free (w_chunk w))))) | _ => Panic end else Ok (w_chunk w)) = Ok c2) as [c2 Ec2].
  { destruct (must_be_full (w_chunk w) && (0 <? free (w_chunk w))) eqn:MF; [|eexists; reflexivity].
    apply andb_prop in MF. destruct MF as [MF1 MF2]. rewrite <- (same_kind_full _ _ A6) in MF1.
    destruct (w_is w) as [|x y] eqn:Ew; [eexists; reflexivity|]. exfalso.
    destruct Pl as (pa & pb & Q1 & _ & Q3 & Q4). specialize (Q4 MF1). destruct A16 as [A16|[A16|A16]]; [|lia|discriminate].
    destruct Q4 as [Q4|Q4]; [lia|]. subst pb. rewrite app_nil_r in Q1. subst pa. rewrite A1, zlen_app in Q3.
    rewrite exs_cons, zlen_app in Q3. pose proof (ex_len x (Forall_inv A8)). pose proof (zlen_nonneg (exs y)). lia. }
  rewrite Ec2. cbn [bind]. destruct (w_bytes w <? 2) eqn:B2; [lia|].
  rewrite A1, zlen_app in *. assert (0 < zlen st) as Zst.
  { assert (st <> []) as N by (apply A14; [lia|lia|discriminate]). destruct st; [congruence|]. unfold zlen. cbn [length]. lia. }
  apply IH; cbn [a_is a_bytes a_cnt]; [exact A8|lia|lia|lia|lia].
Qed.

(** how many interims there are *)
Lemma missings_len : forall fuel n, 0 < n -> (Z.to_nat n <= fuel)%nat -> 8192 * zlen (missings fuel n) <= n + 8191.
Proof.
  induction fuel as [|fuel IH]; intros n Hn Hf; cbn [missings]; [change (zlen (@nil interim)) with 0; lia|].
  destruct (n <=? 0) eqn:E; [lia|]. unfold zlen in *. cbn [length]. destruct (Z_le_dec n 8192).
  - rewrite Z.min_l by lia. rewrite Z.sub_diag. assert (missings fuel 0 = []) as -> by (destruct fuel; reflexivity). cbn [length]. lia.
  - rewrite Z.min_r by lia. specialize (IH (n - 8192) ltac:(lia) ltac:(lia)). lia.
Qed.
Definition last_of (d : Z) (q : list (Z * Z)) : Z := last (map fst q) d.
Lemma last_of_cons d x q : last_of d (x :: q) = last_of (fst x) q.
Proof. unfold last_of. destruct q as [|y q]; [reflexivity|]. cbn [map]. change (last (fst x :: fst y :: map fst q) d) with (last (fst y :: map fst q) d). revert y. induction q as [|z q IH]; intro y; [reflexivity|]. cbn [map]. change (last (fst y :: fst z :: map fst q) d) with (last (fst z :: map fst q) d). change (last (fst y :: fst z :: map fst q) (fst x)) with (last (fst z :: map fst q) (fst x)). apply IH. Qed.
Lemma last_of_ge : forall q d, sorted q -> Forall (fun x => d <= fst x) q -> d <= last_of d q.
Proof.
  induction q as [|x q IH]; intros d So H; [unfold last_of; cbn; lia|]. rewrite last_of_cons.
  apply Sorting.Sorted.StronglySorted_inv in So. destruct So as [So Hd]. pose proof (Forall_inv H) as H0. cbn beta in H0.
  assert (fst x <= last_of (fst x) q); [|lia]. apply IH; [exact So|]. eapply Forall_impl; [|exact Hd]. cbn beta. intros; lia.
Qed.
Lemma interims_len : forall qs ps pt n, sorted qs ->
  (n = ps + 1 \/ exists t, hd_error qs = Some (ps, t) /\ n = ps) -> Forall (fun x => n <= fst x) qs ->
  let is := build_interims qs ps pt in
  8192 * zlen is <= 16384 * zlen qs + (last_of n qs - n) /\ zlen (exs is) <= last_of n qs - n + 1 /\ deltas_len (dls is) <= 2 * zlen qs.
Proof.
  induction qs as [|[s t] qs IH]; intros ps pt n So Hn Hge is; subst is; cbn [build_interims].
  - unfold last_of. cbn. lia.
  - rewrite last_of_cons. cbn [fst]. pose proof (Forall_inv Hge) as Hs. cbn [fst] in Hs.
    set (miss := if 1 <? s - ps then missings (Z.to_nat (s - ps)) (s - ps - 1) else []).
    assert (8192 * zlen miss <= s - n + 8191 /\ zlen (exs miss) = s - n /\ dls miss = []) as (M1 & M2 & M3).
    { unfold miss. destruct (1 <? s - ps) eqn:E.
      - destruct Hn as [->|(t0 & Ht & ->)]; [|cbn in Ht; injection Ht as -> _; lia].
        destruct (missings_spec (Z.to_nat (s - ps)) (s - ps - 1)) as (A & B & C); [lia|lia|].
        split; [pose proof (missings_len (Z.to_nat (s - ps)) (s - ps - 1) ltac:(lia) ltac:(lia)); lia|]. split; [|exact C]. rewrite B, zlen_rep by lia. lia.
      - assert (s - n = 0) as ->. { destruct Hn as [->|(t0 & Ht & ->)]; [lia|]. cbn in Ht. injection Ht as -> _. lia. }
        split; [cbn; lia|]. split; reflexivity. }
    clearbody miss. pose proof (Sorting.Sorted.StronglySorted_inv So) as [So' Hd]. cbn [fst] in Hd.
    assert (s <= last_of s qs) as Ls. { apply last_of_ge; [exact So'|]. eapply Forall_impl; [|exact Hd]. cbn beta. intros; lia. }
    assert (zlen ((s, t) :: qs) = 1 + zlen qs) as Lq by (unfold zlen; cbn [length]; lia). rewrite Lq. pose proof (zlen_nonneg qs).
    cbv zeta. set (diff := Z.quot (t - pt) 1000). clearbody diff.
    destruct ((diff <? -8192000) || (8191750 <? diff)) eqn:E.
    + rewrite M3, M2. change (deltas_len []) with 0. lia.
    + destruct (IH s t (s + 1) So' (or_introl eq_refl)) as (A1 & A2 & A3).
      { eapply Forall_impl; [|exact Hd]. cbn beta. intros a Ha. lia. }
      assert (last_of (s + 1) qs = last_of s qs \/ qs = []) as LL.
      { destruct qs as [|x qs]; [auto|]. left. rewrite !last_of_cons. reflexivity. }
      rewrite exs_app, dls_app, exs_cons, dls_cons, M3. cbn [app]. rewrite deltas_len_app, (zlen_app (exs miss)), M2.
      set (rest := build_interims qs s t) in *.
      assert (zlen (miss ++ Recv (if (diff <? 0) || (63750 <? diff) then LargeDelta else SmallDelta) (Z.quot diff 250) :: rest) = zlen miss + 1 + zlen rest) as ->.
      { rewrite zlen_app. unfold zlen. cbn [length]. lia. }
      cbn [ex]. rewrite zlen_app. match goal with |- context [zlen (A:=status) [?x]] => change (zlen [x]) with 1 end.
      match goal with |- context [deltas_len (idelta (Recv ?s ?d))] => assert (deltas_len (idelta (Recv s d)) <= 2) by (destruct s; cbn; lia) end.
      destruct LL as [LL|LL]; [rewrite LL in *; lia|]. subst qs. assert (rest = []) as -> by reflexivity.
      change (zlen (@nil interim)) with 0 in *. change (zlen (exs [])) with 0 in *. change (deltas_len (dls [])) with 0 in *. change (zlen (@nil (Z*Z))) with 0 in *.
      clear A1 A2 A3 IH. change (last_of s []) with s in *. lia.
Qed.

(** Building TWCC feedback: the receipts. *)
From Verif Require Import Base BaseFacts TwccModel TwccSpec TwccProofs TwccRecvModel TwccRecvSpec TwccRecvProofs.
From Coq Require Import Sorting.Sorted.

Lemma missings_spec : forall fuel n, (Z.to_nat n <= fuel)%nat -> 0 <= n ->
  Forall iok (missings fuel n) /\ exs (missings fuel n) = rep NotReceived n /\ dls (missings fuel n) = [].
Proof.
  induction fuel as [|fuel IH]; intros n Hf Hn; cbn [missings].
  - assert (n = 0) as -> by lia. split; [constructor|]. split; reflexivity.
  - destruct (n <=? 0) eqn:E.
    + assert (n = 0) as -> by lia. split; [constructor|]. split; reflexivity.
    + destruct (IH (n - Z.min n 8192)) as (A & B & C); [lia|lia|]. split; [constructor; [cbn [iok]; lia|exact A]|].
      split; [|exact C]. rewrite exs_cons, B. cbn [ex]. unfold rep. rewrite <- repeat_app. f_equal. lia.
Qed.
Lemma dls_app a b : dls (a ++ b) = dls a ++ dls b. Proof. apply flat_map_app. Qed.
Lemma quot_abs x k : 0 < k -> Z.abs (x - k * Z.quot x k) < k.
Proof. intro Hk. pose proof (Z.quot_rem' x k) as Q. pose proof (Z.rem_bound_abs x k ltac:(lia)) as R. replace (x - k * Z.quot x k) with (Z.rem x k) by lia. lia. Qed.
Lemma quot_ge x k m : 0 < k -> m * k <= x -> m <= Z.quot x k.
Proof.
  intros Hk H. destruct (Z_le_dec 0 x) as [P|P].
  - rewrite Z.quot_div_nonneg by lia. apply Z.div_le_lower_bound; lia.
  - replace x with (- (- x)) by lia. rewrite Z.quot_opp_l by lia. rewrite Z.quot_div_nonneg by lia.
    assert (- x / k <= - m); [|lia]. apply Z.div_le_upper_bound; lia.
Qed.
Lemma quot_le x k m : 0 < k -> x <= m * k -> Z.quot x k <= m.
Proof.
  intros Hk H. pose proof (quot_ge (- x) k (- m) Hk ltac:(lia)) as Q. rewrite Z.quot_opp_l in Q by lia. lia.
Qed.

Lemma received_at_app : forall a b n, received_at n (a ++ b) = received_at n a ++ received_at (n + zlen a) b.
Proof.
  induction a as [|s a IH]; intros b n; cbn [app received_at].
  - change (zlen (@nil status)) with 0. rewrite Z.add_0_r. reflexivity.
  - rewrite IH, <- app_assoc. do 2 f_equal. f_equal. unfold zlen. cbn [length]. lia.
Qed.
Lemma received_at_missing k : forall n, received_at n (repeat NotReceived k) = [].
Proof. induction k as [|k IH]; intro n; [reflexivity|]. cbn. apply IH. Qed.
Lemma received_at_len : forall l n, length (received_at n l) = length (needs l).
Proof. induction l as [|s l IH]; intro n; [reflexivity|]. unfold needs. cbn [received_at flat_map]. rewrite !app_length, IH. destruct s; reflexivity. Qed.
Lemma received_at_in : forall l n x, In x (received_at n l) <-> exists i s, nth_error l i = Some s /\ (s = SmallDelta \/ s = LargeDelta) /\ x = n + Z.of_nat i.
Proof.
  induction l as [|s l IH]; intros n x; cbn [received_at].
  - split; [contradiction|]. intros (i & s & H & _). destruct i; discriminate.
  - rewrite in_app_iff, IH. split.
    + intros [H|(i & s' & H & K & ->)].
      * exists O, s. split; [reflexivity|]. destruct s; cbn in H; try contradiction; destruct H as [<-|[]]; (split; [auto|cbn; lia]).
      * exists (S i), s'. split; [exact H|]. split; [exact K|]. lia.
    + intros ([|i] & s' & H & K & ->).
      * left. cbn in H. injection H as ->. destruct K as [->| ->]; cbn; left; lia.
      * right. exists i, s'. split; [exact H|]. split; [exact K|]. lia.
Qed.

Lemma kinds_interims is : Forall iok is -> map kind (dls is) = needs (exs is).
Proof.
  induction 1 as [|i is H F IH]; [reflexivity|]. rewrite exs_cons, dls_cons, map_app, needs_app, IH. f_equal.
  destruct i as [n|s d]; cbn [iok idelta ex] in *.
  - unfold rep. rewrite <- (Nat2Z.id (Z.to_nat n)). fold (rep NotReceived (Z.of_nat (Z.to_nat n))). rewrite needs_rep. cbn [need]. rewrite concat_nils. reflexivity.
  - destruct H as [[-> _]|[-> _]]; reflexivity.
Qed.
Lemma deltas_interims is : Forall iok is -> Forall delta_ok (dls is).
Proof.
  induction 1 as [|i is H F IH]; [constructor|]. rewrite dls_cons. apply Forall_app. split; [|exact IH].
  destruct i as [n|s d]; cbn [iok idelta] in *; [constructor|].
  destruct H as [[-> H]|[-> H]]; repeat constructor; cbn; try rewrite Z.mod_small by lia; lia.
Qed.

(** [n] is the number the first status stands for *)
Lemma interims_spec : forall qs ps pt n, sorted qs ->
  (n = ps + 1 \/ exists t, hd_error qs = Some (ps, t) /\ n = ps) -> Forall (fun x => n <= fst x) qs ->
  let is := build_interims qs ps pt in
  Forall iok is /\ received_at n (exs is) = map fst (firstn (length (dls is)) qs) /\
  Forall (fun x => n + zlen (exs is) <= fst x) (skipn (length (dls is)) qs) /\
  tracks pt qs (dls is) /\ (length (dls is) <= length qs)%nat.
Proof.
  induction qs as [|[s t] qs IH]; intros ps pt n So Hn Hge is; subst is; cbn [build_interims].
  - split; [constructor|]. split; [reflexivity|]. split; [constructor|]. split; [exact I|reflexivity].
  - pose proof (Forall_inv Hge) as Hs. cbn [fst] in Hs.
    set (miss := if 1 <? s - ps then missings (Z.to_nat (s - ps)) (s - ps - 1) else []).
    assert (Forall iok miss /\ exs miss = rep NotReceived (s - n) /\ dls miss = []) as (M1 & M2 & M3).
    { unfold miss. destruct (1 <? s - ps) eqn:E.
      - destruct Hn as [->|(t0 & Ht & ->)]; [|cbn in Ht; injection Ht as -> _; lia].
        destruct (missings_spec (Z.to_nat (s - ps)) (s - ps - 1)) as (A & B & C); [lia|lia|].
        split; [exact A|]. split; [|exact C]. rewrite B. f_equal. lia.
      - assert (s - n = 0) as ->. { destruct Hn as [->|(t0 & Ht & ->)]; [lia|]. cbn in Ht. injection Ht as -> _. lia. }
        split; [constructor|]. split; reflexivity. }
    clearbody miss. assert (zlen (exs miss) = s - n) as M4 by (rewrite M2; apply zlen_rep; lia).
    pose proof (StronglySorted_inv So) as [So' Hd]. cbn [fst] in Hd.
    set (diff := Z.quot (t - pt) 1000). assert (diff = Z.quot (t - pt) 1000) as Ed by reflexivity. clearbody diff. cbv zeta.
    destruct ((diff <? -8192000) || (8191750 <? diff)) eqn:E.
    + split; [exact M1|]. rewrite M3. cbn [length firstn skipn map].
      split; [rewrite M2; apply received_at_missing|]. split.
      * rewrite M4. constructor; [cbn; lia|]. eapply Forall_impl; [|exact Hd]. cbn beta. intros a Ha. lia.
      * split; [exact I|lia].
    + destruct (IH s t (s + 1) So' (or_introl eq_refl)) as (A1 & A2 & A3 & A4 & A5).
      { eapply Forall_impl; [|exact Hd]. cbn beta. intros a Ha. lia. }
      set (rest := build_interims qs s t) in *. clearbody rest.
      set (d := Z.quot diff 250). assert (d = Z.quot diff 250) as Edd by reflexivity. clearbody d.
      assert (-32768 <= d <= 32767) as Bd. { subst d. split; [apply quot_ge; lia|apply quot_le; lia]. }
      set (st := if (diff <? 0) || (63750 <? diff) then LargeDelta else SmallDelta).
      assert (iok (Recv st d)) as Ir.
      { unfold st. cbn [iok]. destruct ((diff <? 0) || (63750 <? diff)) eqn:Q; [right; split; [reflexivity|lia]|].
        left. split; [reflexivity|]. subst d. split; [apply quot_ge; lia|]. assert (Z.quot diff 250 <= 255); [apply quot_le; lia|lia]. }
      assert (exists x, idelta (Recv st d) = [x] /\ delta_ns x = 250000 * d) as (x & Ex & Ens).
      { clearbody st. cbn [iok] in Ir. destruct Ir as [[-> Hd2]|[-> Hd2]]; cbn [idelta]; eexists; (split; [reflexivity|]); unfold delta_ns; [rewrite Z.mod_small by lia|]; reflexivity. }
      assert (st = SmallDelta \/ st = LargeDelta) as Kst by (unfold st; destruct ((diff <? 0) || (63750 <? diff)); auto). clearbody st.
      split; [apply Forall_app; split; [exact M1|constructor; assumption]|].
      rewrite exs_app, dls_app, exs_cons, dls_cons, M3, Ex. cbn [app ex length firstn skipn map fst].
      split.
      { rewrite M2. unfold rep. rewrite received_at_app, received_at_missing. cbn [app received_at].
        assert (n + zlen (repeat NotReceived (Z.to_nat (s - n))) = s) as ->. { unfold zlen. rewrite repeat_length. lia. }
        destruct Kst as [-> | ->]; cbn [app]; f_equal; exact A2. }
      split.
      { eapply Forall_impl; [|exact A3]. cbn beta. intros a Ha. rewrite zlen_app, M4. assert (zlen (st :: exs rest) = 1 + zlen (exs rest)) as -> by (unfold zlen; cbn [length]; lia). lia. }
      split; [|lia]. cbn [tracks]. split; [|exact A4].
      rewrite Ens. subst d diff. rewrite Z.quot_quot by lia. change (1000 * 250) with 250000. pose proof (quot_abs (t - pt) 250000 ltac:(lia)). lia.
Qed.
Lemma tracks_prefix : forall ds ds' pt qs, tracks pt qs (ds ++ ds') -> tracks pt qs ds.
Proof.
  induction ds as [|d ds IH]; intros ds' pt qs H; [destruct qs; exact I|]. cbn [app tracks] in *. destruct qs as [|[s t] qs]; [contradiction|].
  destruct H as [H1 H2]. split; [exact H1|]. exact (IH _ _ _ H2).
Qed.

(** ** The register *)
Definition reg_ok (r : recv) : Prop :=
  sorted (rv_q r) /\ (rv_from r <= length (rv_q r))%nat /\ Forall (fun x => 0 <= fst x) (rv_q r) /\ 0 <= rv_gen r.

Lemma sorted_app_inv a b : sorted (a ++ b) -> sorted a /\ sorted b /\ Forall (fun x => Forall (fun y => fst x < fst y) b) a.
Proof.
  induction a as [|x a IH]; cbn [app]; intro H; [split; [constructor|split; [exact H|constructor]]|].
  apply StronglySorted_inv in H. destruct H as [H1 H2]. destruct (IH H1) as (A & B & C). apply Forall_app in H2. destruct H2 as [H2 H3].
  split; [constructor; assumption|]. split; [exact B|]. constructor; assumption.
Qed.
Lemma sorted_app a b : sorted a -> sorted b -> Forall (fun x => Forall (fun y => fst x < fst y) b) a -> sorted (a ++ b).
Proof.
  induction a as [|x a IH]; intros A B C; [exact B|]. cbn [app]. apply StronglySorted_inv in A. destruct A as [A1 A2]. constructor.
  - apply IH; [assumption|assumption|exact (Forall_inv_tail C)].
  - apply Forall_app. split; [exact A2|exact (Forall_inv C)].
Qed.
Lemma split_sorted q seq : sorted q -> ~ In seq (map fst q) ->
  let i := length (filter (fun x => fst x <? seq) q) in
  Forall (fun x => fst x < seq) (firstn i q) /\ Forall (fun x => seq < fst x) (skipn i q).
Proof.
  induction q as [|x q IH]; intros So N i; subst i; cbn [filter]; [split; constructor|].
  apply StronglySorted_inv in So. destruct So as [So Hd]. cbn [map In] in N.
  destruct (fst x <? seq) eqn:E.
  - destruct (IH So) as [A B]; [tauto|]. cbn [length firstn skipn]. split; [constructor; [lia|exact A]|exact B].
  - assert (filter (fun x => fst x <? seq) q = []) as ->.
    { clear -Hd E. induction q as [|y q IH]; [reflexivity|]. cbn [filter]. inversion_clear Hd. destruct (fst y <? seq) eqn:Q; [lia|]. apply IH. assumption. }
    cbn [length firstn skipn]. split; [constructor|]. constructor; [lia|]. eapply Forall_impl; [|exact Hd]. cbn beta. intros; lia.
Qed.
Lemma existsb_seq (q : list (Z * Z)) seq : existsb (fun x => fst x =? seq) q = true <-> In seq (map fst q).
Proof.
  rewrite existsb_exists, in_map_iff. split; intros (x & A & B); exists x; [apply Z.eqb_eq in B|split; [tauto|apply Z.eqb_eq; tauto]]. split; auto. 
Qed.

Lemma update_ok r seq t : reg_ok r -> 0 <= seq -> reg_ok (update_seq r seq t).
Proof.
  intros (So & Fr & Nn & Gn) Hs. unfold update_seq. destruct (existsb _ _) eqn:E; [exact (conj So (conj Fr (conj Nn Gn)))|].
  assert (~ In seq (map fst (rv_q r))) as NI by (rewrite <- existsb_seq; congruence).
  match goal with |- context [if ?c then r else _] => destruct c end; [exact (conj So (conj Fr (conj Nn Gn)))|].
  set (i := length (filter (fun x => fst x <? seq) (rv_q r))). cbn [rv_q rv_from].
  destruct (split_sorted _ _ So NI) as [A B]. fold i in A, B.
  assert (length (firstn i (rv_q r) ++ (seq, t) :: skipn i (rv_q r)) = S (length (rv_q r))) as L.
  { rewrite app_length. cbn [length]. rewrite Nat.add_succ_r, <- app_length, firstn_skipn. reflexivity. }
  split; [|split; [|split; [|exact Gn]]].
  - pose proof So as So'. rewrite <- (firstn_skipn i (rv_q r)) in So'. destruct (sorted_app_inv _ _ So') as (S1 & S2 & S3). cbn [rv_q].
    apply sorted_app; [exact S1| |].
    + constructor; [exact S2|]. exact B.
    + rewrite Forall_forall in A, S3 |- *. intros x Hx. constructor; [exact (A x Hx)|exact (S3 x Hx)].
  - cbn [rv_q rv_from]. rewrite L. destruct (i <? rv_from r)%nat eqn:Q; [apply Nat.ltb_lt in Q; lia|lia].
  - cbn [rv_q]. pose proof Nn as Nn'. rewrite <- (firstn_skipn i (rv_q r)) in Nn'. apply Forall_app in Nn'. destruct Nn' as [N1 N2].
    apply Forall_app. split; [exact N1|]. constructor; [exact Hs|exact N2].
Qed.

Lemma skipn_skipn' {A} (l : list A) : forall a b, skipn a (skipn b l) = skipn (a + b) l.
Proof.
  induction l as [|x l IH]; intros a b; [rewrite !skipn_nil; reflexivity|]. destruct b as [|b]; [rewrite Nat.add_0_r; reflexivity|].
  rewrite Nat.add_succ_r. cbn [skipn]. apply IH.
Qed.
Lemma skipn_hd {A} (l : list A) n x : nth_error l n = Some x -> exists tl, skipn n l = x :: tl.
Proof. revert l. induction n as [|n IH]; intros [|y l] H; try discriminate; [injection H as ->; exists l; reflexivity|]. cbn in H. exact (IH l H). Qed.

Lemma exs_known is : Forall iok is -> Forall (fun s => s <> Unknown) (exs is).
Proof.
  induction 1 as [|i is H F IH]; [constructor|]. rewrite exs_cons. apply Forall_app. split; [|exact IH].
  destruct i as [n|s d]; cbn [ex iok] in *.
  - apply Forall_forall. intros x Hx. apply repeat_spec in Hx. subst x. discriminate.
  - repeat constructor. destruct H as [[-> _]|[-> _]]; discriminate.
Qed.
(** What a successful call does. *)
Definition pending_of (r : recv) : list (Z * Z) := skipn (rv_from r) (rv_q r).
Definition is_of (r : recv) (base_seq first_time : Z) : list interim :=
  let start := match rv_start r with Some s => s | None => first_time end in
  build_interims (pending_of r) base_seq (start + (Z.max 0 (first_time - start) / 1000 / 64000) mod U32 * 64000000).

Lemma build_report_spec r mx o r' : reg_ok r -> build_report r mx = Ok (o, r') -> mx <= 10000 ->
  reg_ok r' /\
  match o with
  | None => rv_q r' = rv_q r /\ rv_from r' = rv_from r
  | Some t => exists base t0 m sts start,
      hd_error (pending_of r) = Some (base, t0) /\ (start = match rv_start r with Some s => s | None => t0 end) /\ rv_start r' = Some start /\
      t_base t = base mod U16 /\ 0 < t_count t < U16 /\ t_count t = zlen sts /\ Forall (fun s => s <> Unknown) sts /\
      t_ref t = (Z.max 0 (t0 - start) / 1000 / 64000) mod U32 /\ t_fb t = rv_gen r mod 256 /\ rv_gen r' = rv_gen r + 1 /\
      t_sender t = 0 /\ t_ssrc t = 0 /\
      statuses (t_chunks t) = sts ++ rep NotReceived m /\ 0 <= m /\ t_chunks t <> [] /\
      Forall chunk_okw (t_chunks t) /\ (forall l c, t_chunks t = l ++ [c] -> size l < t_count t) /\
      map kind (t_deltas t) = needs sts /\ Forall delta_ok (t_deltas t) /\
      received_at base sts = map fst (firstn (length (t_deltas t)) (pending_of r)) /\
      Forall (fun x => base + t_count t <= fst x) (skipn (length (t_deltas t)) (pending_of r)) /\
      tracks (start + t_ref t * 64000000) (pending_of r) (t_deltas t) /\
      pending_of r' = skipn (length (t_deltas t)) (pending_of r) /\ (length (t_deltas t) <= length (pending_of r))%nat /\
      20 + 2 * zlen (t_chunks t) + deltas_len (t_deltas t) + 3 <= mx /\
      exists gone, rv_q r = gone ++ rv_q r'
  end.
Proof.
  intros Rok E Hmx. pose proof Rok as (So & Fr & Nn & Gn). unfold build_report in E. destruct (10000 <? mx) eqn:E1; [lia|].
  destruct (nth_error (rv_q r) (rv_from r)) as [[base t0]|] eqn:En.
  2:{ injection E as <- <-. split; [exact Rok|]. auto. }
  destruct (skipn_hd _ _ _ En) as [tl Hsk]. fold (pending_of r) in *.
  destruct (mx <? 20) eqn:E2; [discriminate|].
  set (start := match rv_start r with Some s => s | None => t0 end) in *.
  set (ref := (Z.max 0 (t0 - start) / 1000 / 64000) mod U32) in *. cbv zeta in E.
  set (is := build_interims (pending_of r) base (start + ref * 64000000)) in *.
  assert (sorted (pending_of r)) as Sp.
  { unfold pending_of. rewrite <- (firstn_skipn (rv_from r)) in So. apply sorted_app_inv in So. tauto. }
  destruct (interims_spec (pending_of r) base (start + ref * 64000000) base Sp) as (I1 & I2 & I3 & I4 & I5).
  { right. exists t0. rewrite Hsk. split; reflexivity. }
  { rewrite Hsk. rewrite Hsk in Sp. apply StronglySorted_inv in Sp. destruct Sp as [_ Sp]. cbn [fst] in Sp.
    constructor; [cbn; lia|]. eapply Forall_impl; [|exact Sp]. cbn beta. intros; lia. }
  fold is in I1, I2, I3, I4, I5. clearbody is. assert (ref = (Z.max 0 (t0 - start) / 1000 / 64000) mod U32) as Eref by reflexivity. clearbody ref.
  destruct (chunks_loop _ _) as [a| |] eqn:El; cbn [bind] in E; try discriminate.
  destruct (chunks_loop_spec _ _ _ El I1) as (st & nds & ncs & m & D1 & D2 & D3 & D4 & D5 & D6 & D7 & D8 & D9 & D10 & D11 & D12 & D13 & D14 & D15 & D16 & D17).
  cbn [a_is a_cnt a_ds a_cs a_from a_bytes app] in *.
  assert (map kind nds = needs st) as Kn.
  { pose proof (kinds_interims is I1) as K. pose proof (kinds_interims _ D3) as K'. rewrite D1, D2, map_app, needs_app, K' in K. apply app_inv_tail in K. exact K. }
  assert (Forall delta_ok nds) as Dn.
  { pose proof (deltas_interims is I1) as K. rewrite D2 in K. apply Forall_app in K. tauto. }
  rewrite D1, received_at_app in I2.
  assert (length nds = length (needs st)) as Ln by (rewrite <- Kn, map_length; reflexivity).
  assert (length nds <= length (dls is))%nat as Lle by (rewrite D2, app_length; lia).
  assert (received_at base st = map fst (firstn (length nds) (pending_of r))) as Ra.
  { pose proof (f_equal (firstn (length nds)) I2) as Q. rewrite firstn_app, received_at_len, Ln, Nat.sub_diag in Q. cbn [firstn] in Q.
    rewrite app_nil_r in Q. rewrite firstn_all2 in Q by (rewrite received_at_len; lia). rewrite firstn_map, firstn_firstn in Q. rewrite Ln in Lle. rewrite Nat.min_l in Q by exact Lle. rewrite Ln. exact Q. }
  assert (Forall (fun x => base + zlen st <= fst x) (skipn (length nds) (pending_of r))) as Rb.
  { assert (forall A (l : list A) a b, (a <= b)%nat -> skipn a l = skipn a (firstn b l) ++ skipn b l) as SK.
    { clear. intros A l. induction l as [|x l IH]; intros a b H; [rewrite firstn_nil, !skipn_nil; reflexivity|].
      destruct b as [|b]; [assert (a = 0)%nat as -> by lia; reflexivity|]. destruct a as [|a]; cbn [skipn firstn app]; [f_equal; apply (IH O); lia|]. apply IH. lia. }
    rewrite (SK _ _ _ _ Lle). apply Forall_app. split.
    - apply Forall_forall. intros x Hx. apply (in_map fst) in Hx. rewrite <- skipn_map in Hx. rewrite <- I2 in Hx.
      rewrite skipn_app in Hx. rewrite received_at_len, Ln, Nat.sub_diag in Hx. rewrite skipn_all2 in Hx by (rewrite received_at_len; lia).
      cbn [app skipn] in Hx. apply received_at_in in Hx. destruct Hx as (i & s & _ & _ & ->). lia.
    - eapply Forall_impl; [|exact I3]. cbn beta. intros x Hx. rewrite D1, zlen_app in Hx. pose proof (zlen_nonneg (exs (a_is a))). lia. }
  destruct (a_cs a) as [|c0 cs0] eqn:Ecs.
  - injection E as <- <-. 
    assert (nds = []) as ->.
    { subst ncs. cbn in D9. symmetry in D9. apply app_eq_nil in D9. destruct D9 as [-> _]. destruct nds; [reflexivity|discriminate]. }
    cbn [length] in *. rewrite Nat.add_0_r in D8. split; [|cbn [rv_q rv_from]; auto]. unfold reg_ok. cbn [rv_q rv_from rv_gen]. rewrite D8. auto.
  - subst ncs. injection E as <- <-. cbn [t_base t_count t_ref t_fb t_sender t_ssrc t_chunks t_deltas rv_q rv_from rv_gen rv_start].
    set (rem := (a_from a - rv_keep r)%nat). assert (rem <= a_from a)%nat as Hrem by lia.
    assert (length (pending_of r) = length (rv_q r) - rv_from r)%nat as Lp by (unfold pending_of; apply skipn_length).
    assert (a_from a <= length (rv_q r))%nat as Haf by lia.
    split.
    { unfold reg_ok. cbn [rv_q rv_from rv_gen]. split.
      - rewrite <- (firstn_skipn rem) in So. apply sorted_app_inv in So. tauto.
      - rewrite skipn_length. split; [lia|]. split; [|lia]. rewrite <- (firstn_skipn rem) in Nn. apply Forall_app in Nn. tauto. }
    exists base, t0, m, st, start. split; [rewrite Hsk; reflexivity|]. split; [reflexivity|]. split; [reflexivity|].
    split; [reflexivity|].
    assert (0 < zlen st) as Pst.
    { destruct st as [|s st]; [|unfold zlen; cbn [length]; lia]. exfalso. destruct (exists_last (l := c0 :: cs0) ltac:(discriminate)) as (l & c & Q).
      specialize (D16 l c Q). change (zlen (@nil status)) with 0 in D16.
      assert (Forall chunk_okw l) as Fl by (rewrite Q in D12; apply Forall_app in D12; tauto).
      clear -Fl D16. induction Fl as [|c l Hc Fl IH]; [change (size []) with 0 in D16; lia|]. rewrite size_cons in D16.
      assert (0 <= chunk_max c) by (rewrite <- (chunk_okw_max c Hc); apply zlen_nonneg). apply IH. lia. }
    assert (U16 = 65536) by reflexivity.
    split; [split; [lia|]; rewrite D4; specialize (D5 ltac:(lia)); lia|]. split; [lia|].
    split; [pose proof (exs_known is I1) as KN; rewrite D1 in KN; apply Forall_app in KN; tauto|]. split; [exact Eref|]. split; [reflexivity|]. split; [reflexivity|].
    split; [reflexivity|]. split; [reflexivity|]. split; [exact D9|]. split; [exact D10|]. split; [discriminate|]. split; [exact D12|].
    split; [intros l c Q; rewrite D4; cbn [Z.add]; exact (D16 l c Q)|]. rewrite D6. split; [exact Kn|]. split; [exact Dn|]. split; [exact Ra|].
    split; [rewrite D4; exact Rb|]. split; [rewrite D2 in I4; exact (tracks_prefix _ _ _ _ I4)|].
    split; [|split; [lia|split; [destruct D14 as [D14|D14]; [discriminate|lia]|exists (firstn rem (rv_q r)); rewrite firstn_skipn; reflexivity]]].
    unfold pending_of. cbn [rv_q rv_from]. rewrite !skipn_skipn'. f_equal. lia.
Qed.

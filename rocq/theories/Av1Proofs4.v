From Verif Require Import Base BaseFacts Brute BufRxSpec Vp8Model Vp8Spec Vp8Proofs Av1Model Av1Spec Av1Proofs Av1Proofs2 Av1Proofs3.

Lemma assemble_app : forall a b acc, assemble acc (a ++ b) =
  match assemble acc a with Some (us, c) => match assemble c b with Some (vs, d) => Some (us ++ vs, d) | None => None end | None => None end.
Proof.
  induction a as [|k a IH]; intros b acc; [cbn [app assemble]; destruct (assemble acc b) as [[? ?]|]; reflexivity|]. cbn [app assemble].
  destruct (Bool.eqb _ _); [|reflexivity]. destruct (if k_y k then _ else _) as [us c]. rewrite IH. destruct (assemble c a) as [[vs d]|]; [|reflexivity].
  destruct (assemble d b) as [[ws e]|]; [|reflexivity]. rewrite app_assoc. reflexivity.
Qed.
Lemma firstn_snoc obus i : 0 <= i < zlen obus -> firstn (Z.to_nat (i + 1)) obus = firstn (Z.to_nat i) obus ++ [at_ obus i].
Proof.
  intro H. replace (Z.to_nat (i + 1)) with (S (Z.to_nat i)) by lia. unfold at_. unfold zlen in H. assert (Z.to_nat i < length obus)%nat as L by lia. clear H. revert L. generalize (Z.to_nat i). clear i.
  intro n. revert obus. induction n as [|n IH]; intros [|o obus] L; cbn in L; try lia; [reflexivity|]. cbn [nth]. change (firstn (S (S n)) (o :: obus)) with (o :: firstn (S n) obus). rewrite IH by lia. reflexivity.
Qed.
Lemma removelast_snoc {A} (l : list A) x : removelast (l ++ [x]) = l.
Proof. rewrite removelast_app by discriminate. cbn. apply app_nil_r. Qed.
Lemma last_snoc {A} (l : list A) x d : last (l ++ [x]) d = x.
Proof. induction l as [|y l IH]; [reflexivity|]. cbn [app]. destruct (l ++ [x]) eqn:E; [destruct l; discriminate|]. exact IH. Qed.
Lemma joined_snoc acc es x : es <> [] -> joined acc (es ++ [x]) = joined acc es ++ [x].
Proof. intro H. destruct es; [congruence|]. destruct acc; reflexivity. Qed.

Lemma skipn_next {A} : forall n (l : list A) x r, skipn n l = x :: r -> skipn (S n) l = r.
Proof. induction n as [|n IH]; intros [|y l] x r H; cbn [skipn] in *; try discriminate; [injection H as _ <-; reflexivity|]. apply (IH l x r H). Qed.

Section Plan.
Context (obus : list obu) (max : Z) (MAX : 1 <= max <= 2 ^ 62).
Let kf := kp obus false.

(** done packets, the units they complete, and what is left over *)
Definition done_ok (ps : list pkt) (us : list (list Z)) (acc : option (list Z)) : Prop :=
  Forall (planned obus max) ps /\ assemble None (map (kp obus false) ps) = Some (us, acc).
(** between units: the current packet ends with a complete unit, or is empty *)
Definition between (ps : list pkt) (cur : pkt) (rem i : Z) : Prop :=
  exists us acc, done_ok ps us acc /\ 0 <= first_obu cur /\ 0 <= num cur /\ first_obu cur + num cur = i /\ i <= zlen obus /\ rem + psize cur = max /\ 0 <= rem /\
    ((num cur = 0 /\ psize cur = 0 /\ first_off cur = 0 /\ acc = None /\ us = map eo (firstn (Z.to_nat i) obus)) \/
     (planned obus max cur /\ offl cur + last_size cur = o_size (at_ obus (i - 1)) /\ some acc = (0 <? first_off cur) /\
      us ++ joined acc (elems obus cur) = map eo (firstn (Z.to_nat i) obus))).

Lemma fulls_complete cur i : planned obus max cur -> first_obu cur + num cur = i -> offl cur + last_size cur = o_size (at_ obus (i - 1)) ->
  elems obus cur = fulls obus (Z.to_nat (num cur)) (first_obu cur) (first_off cur).
Proof.
  intros (N & F & B & O & L & OL & PS & PM) I C. unfold elems. replace (Z.to_nat (num cur)) with (S (Z.to_nat (num cur - 1))) by lia. rewrite fulls_snoc. f_equal. f_equal. unfold last_elem.
  rewrite Z2Nat.id by lia. replace (first_obu cur + (num cur - 1)) with (first_obu cur + num cur - 1) by lia.
  replace (if num cur - 1 =? 0 then first_off cur else 0) with (offl cur) by (unfold offl; destruct (num cur =? 1) eqn:Q1, (num cur - 1 =? 0) eqn:Q2; try lia; reflexivity).
  apply firstn_all2. rewrite skipn_length. pose proof (eo_len (at_ obus (first_obu cur + num cur - 1))) as EL. unfold zlen in EL. subst i. lia.
Qed.
Lemma done_push ps us acc cur i : done_ok ps us acc -> planned obus max cur -> first_obu cur + num cur = i -> offl cur + last_size cur = o_size (at_ obus (i - 1)) -> some acc = (0 <? first_off cur) ->
  done_ok (ps ++ [cur]) (us ++ joined acc (elems obus cur)) None.
Proof.
  intros (D1 & D2) P I C S. split; [apply Forall_app; split; [exact D1|constructor; [exact P|constructor]]|]. rewrite map_app, assemble_app, D2. cbn [map assemble]. unfold kp at 1. cbn [k_z].
  fold (some acc). rewrite S, Bool.eqb_reflx. cbn [kp k_y k_elems]. rewrite I, C. rewrite Z.ltb_irrefl. rewrite app_nil_r. reflexivity.
Qed.
Lemma done_push_cut ps us acc cur o : done_ok ps us acc -> planned obus max cur -> some acc = (0 <? first_off cur) -> at_ obus (first_obu cur + num cur - 1) = o ->
  offl cur + last_size cur < o_size o ->
  done_ok (ps ++ [cur]) (us ++ removelast (joined acc (elems obus cur))) (Some (last (joined acc (elems obus cur)) [])).
Proof.
  intros (D1 & D2) P S I C. split; [apply Forall_app; split; [exact D1|constructor; [exact P|constructor]]|]. rewrite map_app, assemble_app, D2. cbn [map assemble]. unfold kp at 1. cbn [k_z].
  fold (some acc). rewrite S, Bool.eqb_reflx. cbn [kp k_y k_elems]. rewrite I. replace (offl cur + last_size cur <? o_size o) with true by lia. rewrite app_nil_r. reflexivity.
Qed.

(** inside a unit: everything up to [off] is in done packets *)
Definition inside (ps : list pkt) (cur : pkt) (off i : Z) : Prop :=
  exists us acc, done_ok ps us acc /\ planned obus max cur /\ some acc = (0 <? first_off cur) /\ first_obu cur + num cur - 1 = i /\ 0 < off < o_size (at_ obus i) /\
    offl cur + last_size cur = off /\ us ++ joined acc (elems obus cur) = map eo (firstn (Z.to_nat i) obus) ++ [firstn (Z.to_nat off) (eo (at_ obus i))].
Lemma elems_ne p : elems obus p <> [].
Proof. unfold elems. destruct (fulls _ _ _ _); discriminate. Qed.
Lemma joined_ne acc es : es <> [] -> joined acc es <> [].
Proof. destruct es; [congruence|]. destruct acc; discriminate. Qed.
Lemma inside_push ps cur off i : inside ps cur off i -> done_ok (ps ++ [cur]) (map eo (firstn (Z.to_nat i) obus)) (Some (firstn (Z.to_nat off) (eo (at_ obus i)))).
Proof.
  intros (us & acc & D & P & S & I & O & OL & U). pose proof (done_push_cut ps us acc cur (at_ obus i) D P S ltac:(rewrite I; reflexivity) ltac:(lia)) as H.
  pose proof (joined_ne acc _ (elems_ne cur)) as NE. rewrite (app_removelast_last [] NE), app_assoc in U. apply app_inj_tail in U. destruct U as (U1 & U2). rewrite U1, U2 in H. exact H.
Qed.
Lemma frag_planned i off fs : 0 <= i < zlen obus -> 0 <= off -> 0 < fs <= max -> off + fs <= o_size (at_ obus i) -> planned obus max (mkPk i 1 off fs fs).
Proof.
  intros I O F S. unfold planned, offl. cbn [num first_obu first_off last_size psize]. change (3 <? 1) with false. change (1 =? 1) with true. change (Z.to_nat (1 - 1)) with 0%nat. cbn [fulls fullw].
  replace (i + 1 - 1) with i by lia. repeat split; lia.
Qed.
Lemma frag_elems i off fs s : elems obus (mkPk i 1 off fs s) = [firstn (Z.to_nat fs) (skipn (Z.to_nat off) (eo (at_ obus i)))].
Proof. unfold elems, last_elem, offl. cbn [num first_obu first_off last_size]. change (1 =? 1) with true. change (Z.to_nat (1 - 1)) with 0%nat. cbn [fulls app]. replace (i + 1 - 1) with i by lia. reflexivity. Qed.
Lemma firstn_more (l : list Z) a b : firstn a l ++ firstn b (skipn a l) = firstn (a + b) l.
Proof.
  revert l. induction a as [|a IH]; intro l; [reflexivity|]. destruct l as [|x l]; [cbn; rewrite firstn_nil; reflexivity|]. cbn [firstn skipn Nat.add app]. rewrite IH. reflexivity.
Qed.
Lemma middles_spec i : 0 <= i < zlen obus -> forall fuel ps cur off, inside ps cur off i -> (Z.to_nat (o_size (at_ obus i) - off) <= fuel)%nat ->
  exists ps' cur' off', middles fuel max (o_size (at_ obus i)) i ps cur off = Ok (ps', cur', off') /\ inside ps' cur' off' i /\ o_size (at_ obus i) <= off' + max.
Proof.
  intro I. induction fuel as [|fuel IH]; intros ps cur off IN F.
  - destruct IN as (? & ? & ? & ? & ? & ? & ? & _). lia.
  - cbn [middles]. destruct (off + max <? o_size (at_ obus i)) eqn:Q; [|exists ps, cur, off; split; [reflexivity|split; [exact IN|lia]]].
    apply IH; [|destruct IN as (? & ? & ? & ? & ? & ? & ? & _); lia]. pose proof (inside_push ps cur off i IN) as D. destruct IN as (us & acc & _ & _ & _ & _ & O & _).
    exists (map eo (firstn (Z.to_nat i) obus)), (Some (firstn (Z.to_nat off) (eo (at_ obus i)))). split; [exact D|]. split; [apply frag_planned; lia|].
    cbn [first_off first_obu num last_size]. split; [cbn [some]; lia|]. split; [lia|]. split; [lia|]. split; [unfold offl; cbn [num first_off]; change (1 =? 1) with true; cbv iota; lia|].
    rewrite frag_elems. cbn [joined]. rewrite firstn_more. replace (Z.to_nat off + Z.to_nat max)%nat with (Z.to_nat (off + max)) by lia. reflexivity.
Qed.
Lemma middles_stop fuel size i ps cur off : (off + max <? size) = false -> middles fuel max size i ps cur off = Ok (ps, cur, off).
Proof. intro H. destruct fuel; cbn [middles]; rewrite H; reflexivity. Qed.

Lemma step_spec ps cur rem i : between ps cur rem i -> i < zlen obus ->
  exists ps' cur' rem', emit_step max (ps, cur, rem) i (o_size (at_ obus i)) = Ok (ps', cur', rem') /\ between ps' cur' rem' (i + 1) /\ 1 <= num cur'.
Proof.
  intros B IL. unfold emit_step.
  set (prev := extra_size cur). set (minr0 := if 3 <=? num cur then 2 else 1).
  set (QQ0 := if rem <? prev + minr0 then (ps ++ [cur], pk_new i, max, 0) else (ps, cur, rem, prev)).
  (* the packet to put the unit into *)
  assert (exists ps1 cur1 rem1 prev1 us acc, QQ0 = (ps1, cur1, rem1, prev1) /\ done_ok ps1 us acc /\ 0 <= first_obu cur1 /\ 0 <= num cur1 /\ first_obu cur1 + num cur1 = i /\
    rem1 + psize cur1 = max /\ prev1 + (if 3 <=? num cur1 then 2 else 1) <= rem1 /\ 0 <= prev1 /\
    psize cur1 + prev1 = fullw (fulls obus (Z.to_nat (num cur1)) (first_obu cur1) (first_off cur1)) /\
    0 <= first_off cur1 < o_size (at_ obus (first_obu cur1)) /\ (num cur1 = 0 -> acc = None /\ first_off cur1 = 0) /\ some acc = (0 <? first_off cur1) /\
    us ++ joined acc (fulls obus (Z.to_nat (num cur1)) (first_obu cur1) (first_off cur1)) = map eo (firstn (Z.to_nat i) obus)) as
    (ps1 & cur1 & rem1 & prev1 & us & acc & -> & D & F & N & FI & RP & RM & PV & PS & FO & N0 & S & U).
  { destruct B as (us & acc & D & F & N & FI & IL2 & RP & R0 & [ (N0 & P0 & O0 & A0 & U0) | (P & C & S & U) ]).
    - assert (QQ0 = (ps, cur, rem, 0)) as ->. { unfold QQ0, prev, minr0, extra_size. rewrite P0, N0. cbn. destruct (rem <? 1) eqn:QQ; [lia|reflexivity]. }
      exists ps, cur, rem, 0, us, acc. rewrite N0, O0, P0. cbn [Z.to_nat fulls fullw Z.leb Z.compare joined].
      assert (joined acc [] = []) as -> by (destruct acc; reflexivity). rewrite app_nil_r. pose proof (o_size_pos (at_ obus (first_obu cur))).
      rewrite A0 in *. repeat split; try assumption; try lia; cbn; try lia; destruct D; assumption.
    - pose proof (fulls_complete cur i P FI C) as FC. pose proof P as (PN & PF & PB & PO & PL & POL & PPS & PPM).
      pose proof (fullw_nonneg (fulls obus (Z.to_nat (num cur - 1)) (first_obu cur) (first_off cur))). pose proof (leb_size_pos (last_size cur)).
      assert (psize cur + prev = fullw (elems obus cur)) as PW.
      { unfold elems. rewrite fullw_app. cbn [fullw]. rewrite (last_elem_len obus max cur P). unfold prev, extra_size. destruct (psize cur =? 0) eqn:Q0; [destruct (3 <? num cur); lia|]. destruct (3 <? num cur); lia. }
      assert (0 <= prev) as PP by (unfold prev, extra_size; destruct (psize cur =? 0); [lia|]; destruct (3 <? num cur); lia).
      unfold QQ0. destruct (rem <? prev + minr0) eqn:QR.
      + exists (ps ++ [cur]), (pk_new i), max, 0, (us ++ joined acc (elems obus cur)), None. cbn [pk_new num first_obu first_off psize Z.to_nat fulls fullw joined Z.leb Z.compare some].
        rewrite app_nil_r. pose proof (o_size_pos (at_ obus i)). destruct (done_push ps us acc cur i D P FI C S) as (DD1 & DD2).
        repeat split; try assumption; try lia.
      + exists ps, cur, rem, prev, us, acc. rewrite <- FC. destruct D as (D1 & D2). repeat split; try assumption; try lia. }
  clear prev minr0 B ps cur rem.
  set (minr := if 3 <=? num cur1 then 2 else 1) in *. unfold sub at 1. destruct (rem1 <? prev1) eqn:QS; [unfold minr in *; destruct (3 <=? num cur1); lia|]. cbn [bind]. cbn [first_obu num first_off last_size psize].
  set (es := fulls obus (Z.to_nat (num cur1)) (first_obu cur1) (first_off cur1)) in *.
  set (o := at_ obus i) in *. pose proof (o_size_pos o) as OP. set (must := 3 <? num cur1 + 1) in *.
  assert (1 <= rem1 - prev1 /\ (must = true -> 2 <= rem1 - prev1)) as (R1 & R2) by (unfold must, minr in *; destruct (3 <=? num cur1) eqn:Q3, (3 <? num cur1 + 1) eqn:Q4; lia).
  pose proof (fullw_nonneg es) as FW. pose proof (leb_size_pos (o_size o)) as LP.
  assert (LEN : length es = Z.to_nat (num cur1)) by (unfold es; apply fulls_len).
  (* the current packet with (part of) the unit appended *)
  assert (forall fs, 0 < fs -> fs <= o_size o -> fs + (if must then leb_size fs else 0) <= rem1 - prev1 ->
     let p := mkPk (first_obu cur1) (num cur1 + 1) (first_off cur1) fs (psize cur1 + prev1 + fs + (if must then leb_size fs else 0)) in
     (num cur1 = 0 -> first_off cur1 = 0) -> planned obus max p /\ offl p = 0 /\ elems obus p = es ++ [firstn (Z.to_nat fs) (eo o)]) as APP.
  { intros fs F0 F1 F2 p FF. assert (offl p = 0) as OO by (unfold offl, p; cbn [num first_off]; destruct (num cur1 + 1 =? 1) eqn:Q1; [apply FF; lia|reflexivity]).
    split; [|split; [exact OO|]].
    - unfold planned. rewrite OO. unfold p. cbn [num first_obu first_off last_size psize]. replace (first_obu cur1 + (num cur1 + 1) - 1) with i by lia. replace (num cur1 + 1 - 1) with (num cur1) by lia. fold es o must.
      repeat split; try assumption; try lia.
    - unfold elems, last_elem. rewrite OO. unfold p. cbn [num first_obu first_off last_size]. replace (first_obu cur1 + (num cur1 + 1) - 1) with i by lia. replace (num cur1 + 1 - 1) with (num cur1) by lia. fold es o. reflexivity. }
  assert (forall x, us ++ joined acc (es ++ [x]) = map eo (firstn (Z.to_nat i) obus) ++ [x]) as JX.
  { intro x. destruct (Z.eq_dec (num cur1) 0) as [E0|E0].
    - destruct (N0 E0) as (-> & _). unfold es. rewrite E0. cbn [Z.to_nat fulls app joined]. rewrite <- U. unfold es. rewrite E0. cbn [Z.to_nat fulls joined]. rewrite app_nil_r. reflexivity.
    - rewrite joined_snoc by (intro EE; rewrite EE in LEN; cbn in LEN; lia). rewrite app_assoc, U. reflexivity. }
  assert (FF : num cur1 = 0 -> first_off cur1 = 0) by (intro E0; apply N0; exact E0).
  destruct (o_size o + (if must then leb_size (o_size o) else 0) <=? rem1 - prev1) eqn:QQ.
  - eexists _, _, _. split; [reflexivity|]. destruct (APP (o_size o) ltac:(lia) ltac:(lia) ltac:(lia) FF) as (A1 & A2 & A3). split; [|cbn [num]; lia].
    rewrite Z.add_assoc. exists us, acc. split; [exact D|]. cbn [first_obu num psize]. split; [lia|]. split; [lia|]. split; [lia|]. split; [lia|]. split; [lia|]. split; [lia|]. right.
    split; [exact A1|]. rewrite A2, A3. cbn [last_size first_off]. replace (i + 1 - 1) with i by lia. split; [reflexivity|]. split; [exact S|].
    rewrite JX, firstn_snoc, map_app by lia. cbn [map]. fold o. f_equal. f_equal. apply firstn_all2. pose proof (eo_len o) as EL. unfold zlen in EL. lia.
  - assert (exists f, (if must then max_frag (rem1 - prev1) else Ok (rem1 - prev1)) = Ok f /\ 1 <= f < o_size o /\ f + (if must then leb_size f else 0) <= rem1 - prev1) as (f & -> & FB & FS).
    { destruct must eqn:MU.
      - destruct (max_frag_spec (rem1 - prev1)) as (f & E & F1 & F2); [specialize (R2 eq_refl); lia|]. exists f. split; [exact E|]. split; [|exact F2]. split; [exact F1|].
        destruct (Z_lt_le_dec f (o_size o)) as [|LT]; [assumption|]. pose proof (leb_size_mono (o_size o) f ltac:(lia)). lia.
      - exists (rem1 - prev1). split; [reflexivity|]. lia. }
    cbn [bind]. replace (f =? 0) with false by lia. cbn [bind]. destruct (APP f ltac:(lia) ltac:(lia) FS FF) as (A1 & A2 & A3).
    set (p := mkPk (first_obu cur1) (num cur1 + 1) (first_off cur1) f (psize cur1 + prev1 + f + (if must then leb_size f else 0))) in *.
    assert (inside ps1 p f i) as IN.
    { exists us, acc. split; [exact D|]. split; [exact A1|]. split; [exact S|]. split; [unfold p; cbn [first_obu num]; lia|]. fold o. split; [lia|]. split; [rewrite A2; reflexivity|]. rewrite A3. apply JX. }
    destruct (middles_spec i ltac:(lia) (Z.to_nat (o_size o)) ps1 p f IN ltac:(fold o; lia)) as (ps2 & cur2 & off & ME & IN2 & OM). fold o in ME, OM. rewrite ME. cbn [bind].
    pose proof (inside_push ps2 cur2 off i IN2) as D2. destruct IN2 as (_ & _ & _ & _ & _ & _ & OB & _). fold o in OB. unfold sub. destruct (o_size o <? off) eqn:X1; [lia|]. cbn [bind].
    destruct (max <? o_size o - off) eqn:X2; [lia|]. cbn [bind]. eexists _, _, _. split; [reflexivity|]. split; [|cbn [num]; lia].
    exists (map eo (firstn (Z.to_nat i) obus)), (Some (firstn (Z.to_nat off) (eo o))). split; [exact D2|]. cbn [first_obu num psize]. split; [lia|]. split; [lia|]. split; [lia|]. split; [lia|]. split; [lia|]. split; [lia|]. right.
    split; [apply frag_planned; fold o; lia|]. split; [unfold offl; cbn [num first_off last_size]; change (1 =? 1) with true; cbv iota; replace (i + 1 - 1) with i by lia; fold o; lia|].
    cbn [first_off some]. split; [lia|]. rewrite frag_elems. fold o. cbn [joined]. rewrite firstn_more, firstn_snoc, map_app by lia. cbn [map]. fold o. f_equal. f_equal.
    pose proof (eo_len o) as EL. unfold zlen in EL. apply firstn_all2. lia.
Qed.

Lemma loop_spec : forall rest i ps cur rem, between ps cur rem i -> skipn (Z.to_nat i) obus = rest -> 0 <= i -> (rest <> [] \/ 1 <= num cur) ->
  exists ps' cur' rem', emit_loop max (ps, cur, rem) i (map o_size rest) = Ok (ps', cur', rem') /\ between ps' cur' rem' (zlen obus) /\ 1 <= num cur'.
Proof.
  induction rest as [|o rest IH]; intros i ps cur rem B SK I NE.
  - destruct NE as [NE|NE]; [congruence|]. exists ps, cur, rem. split; [reflexivity|]. split; [|exact NE]. assert (length (skipn (Z.to_nat i) obus) = 0)%nat as LL by (rewrite SK; reflexivity). rewrite skipn_length in LL.
    destruct B as (us & acc & B). assert (i = zlen obus) as <- by (destruct B as (_ & _ & _ & _ & B & _); unfold zlen in *; lia). exists us, acc. exact B.
  - assert (i < zlen obus) as IL by (assert (length (skipn (Z.to_nat i) obus) = S (length rest)) as LL by (rewrite SK; reflexivity); rewrite skipn_length in LL; unfold zlen; lia).
    assert (at_ obus i = o) as AT. { unfold at_. rewrite <- (firstn_skipn (Z.to_nat i) obus) at 1. rewrite SK. unfold zlen in IL. rewrite app_nth2; rewrite firstn_length_le by lia; [|lia]. rewrite Nat.sub_diag. reflexivity. }
    cbn [map emit_loop]. rewrite <- AT. destruct (step_spec ps cur rem i B IL) as (ps1 & cur1 & rem1 & E & B1 & N1). rewrite E. cbn [bind]. apply IH; [exact B1| |lia|right; exact N1].
    replace (Z.to_nat (i + 1)) with (S (Z.to_nat i)) by lia. apply (skipn_next _ _ _ _ SK).
Qed.

Lemma between_start : obus <> [] -> between [] (pk_new 0) max 0.
Proof.
  intro NE. exists [], None. cbn [pk_new first_obu num psize first_off]. pose proof (zlen_nonneg obus).
  split; [split; [constructor|reflexivity]|]. split; [lia|]. split; [lia|]. split; [lia|]. split; [lia|]. split; [lia|]. split; [lia|]. left. repeat split.
Qed.
Lemma plan_spec : obus <> [] -> exists ps cur rem, emit_loop max ([], pk_new 0, max) 0 (map o_size obus) = Ok (ps, cur, rem) /\ done_ok (ps ++ [cur]) (map eo obus) None.
Proof.
  intro NE. destruct (loop_spec obus 0 [] (pk_new 0) max (between_start NE) eq_refl ltac:(lia) (or_introl NE)) as (ps & cur & rem & E & B & N).
  exists ps, cur, rem. split; [exact E|]. destruct B as (us & acc & D & F & N' & FI & IL2 & RP & R0 & [ (N0 & _) | (P & C & S & U) ]); [lia|].
  pose proof (done_push ps us acc cur (zlen obus) D P FI C S) as H. rewrite U in H. unfold zlen in H. rewrite Nat2Z.id, firstn_all in H. exact H.
Qed.
End Plan.

(** * The packets of a frame *)
Definition plan_pkts (obus : list obu) (ps : list pkt) : list apkt :=
  match ps with [] => [] | p :: ps => kp obus (obu_type (o_header (at_ obus 0)) =? 1) p :: map (kp obus false) ps end.
Lemma write_all_spec obus max : obus <> [] -> forall ps isf, Forall (planned obus max) ps ->
  write_all obus ps isf = Ok (map enc_pkt (if isf then plan_pkts obus ps else map (kp obus false) ps)).
Proof.
  intro NE. induction ps as [|p ps IH]; intros isf F; [destruct isf; reflexivity|]. inversion F as [|? ? F1 F2]; subst. cbn [write_all].
  rewrite (write_packet_spec obus max p isf NE F1). cbn [bind]. rewrite (IH false F2). cbn [bind]. f_equal. destruct isf; cbn [plan_pkts map].
  - rewrite andb_true_r. reflexivity.
  - rewrite andb_false_r. reflexivity.
Qed.
Lemma assemble_n k1 k2 ks acc : k_z k1 = k_z k2 -> k_y k1 = k_y k2 -> k_elems k1 = k_elems k2 -> assemble acc (k1 :: ks) = assemble acc (k2 :: ks).
Proof. intros A B C. cbn [assemble]. rewrite A, B, C. reflexivity. Qed.
Lemma assemble_plan obus ps acc : assemble acc (plan_pkts obus ps) = assemble acc (map (kp obus false) ps).
Proof. destruct ps as [|p ps]; [reflexivity|]. cbn [plan_pkts map]. apply assemble_n; reflexivity. Qed.

Lemma emit_ok mtu obus : obus <> [] -> 2 <= mtu <= 2 ^ 62 -> exists ps, ps <> [] /\
  emit mtu obus = Ok (map enc_pkt (plan_pkts obus ps)) /\ Forall (planned obus (mtu - 1)) ps /\ assemble None (plan_pkts obus ps) = Some (map eo obus, None).
Proof.
  intros NE M. unfold emit. destruct obus as [|o0 obus]; [congruence|]. set (os := o0 :: obus) in *. unfold sub. destruct (mtu <? 1) eqn:Q; [lia|]. cbn [bind].
  destruct (plan_spec os (mtu - 1) ltac:(lia) NE) as (ps & cur & rem & E & D1 & D2). rewrite E. cbn [bind]. exists (ps ++ [cur]). split; [destruct ps; discriminate|].
  split; [rewrite (write_all_spec os (mtu - 1) NE _ true D1); reflexivity|]. split; [exact D1|]. rewrite assemble_plan. exact D2.
Qed.

Lemma fulls_in obus : forall n i off e, In e (fulls obus n i off) -> 0 <= i -> i + Z.of_nat n <= zlen obus -> 0 <= off -> (n = O \/ off < o_size (at_ obus i)) ->
  exists j k, In j obus /\ e = skipn k (eo j) /\ e <> [].
Proof.
  induction n as [|n IH]; intros i off e IN I N O OS; [destruct IN|]. cbn [fulls] in IN. destruct OS as [OS|OS]; [discriminate|]. destruct IN as [<- | IN].
  - exists (at_ obus i), (Z.to_nat off). split; [apply nth_In; unfold zlen in N; lia|]. split; [reflexivity|]. intro H. apply (f_equal (@length Z)) in H. rewrite skipn_length in H. pose proof (eo_len (at_ obus i)) as EL. unfold zlen in EL. cbn [length] in H. lia.
  - apply (IH (i + 1) 0 e IN); try lia. right. pose proof (o_size_pos (at_ obus (i + 1))). lia.
Qed.
Lemma elems_in obus max p e : planned obus max p -> In e (elems obus p) -> exists j k m, In j obus /\ e = firstn m (skipn k (eo j)) /\ e <> [].
Proof.
  intros P IN. pose proof (last_elem_len obus max p P) as LL. destruct P as (N & F & B & O & L & OL & PS & PM). unfold elems in IN. apply in_app_iff in IN. destruct IN as [IN | [<- | []]].
  - destruct (fulls_in _ _ _ _ _ IN) as (j & k & J1 & J2 & J3); try lia. exists j, k, (length e). split; [exact J1|]. split; [rewrite <- J2, firstn_all; reflexivity|exact J3].
  - exists (at_ obus (first_obu p + num p - 1)), (Z.to_nat (offl p)), (Z.to_nat (last_size p)). split; [apply nth_In; unfold zlen in B; lia|]. split; [reflexivity|]. intro H. rewrite H in LL. change (zlen []) with 0 in LL. lia.
Qed.
Definition obu_ok (o : obu) : Prop := bytes_ok (eo o) /\ o_size o < 2 ^ 63.
Lemma kp_ok obus max n p : planned obus max p -> Forall obu_ok obus -> (n = true -> first_off p = 0) -> pkt_ok (kp obus n p).
Proof.
  intros P OK NF. unfold pkt_ok, kp. cbn [k_elems k_w k_n k_z]. split; [apply elems_ne|]. split; [|split].
  - apply Forall_forall. intros e IN. destruct (elems_in obus max p e P IN) as (j & k & m & J1 & -> & J3). rewrite Forall_forall in OK. destruct (OK j J1) as (B1 & B2). split; [exact J3|].
    split; [|rewrite <- eo_len in B2; unfold zlen in *; rewrite firstn_length, skipn_length; lia].
    assert (forall l, bytes_ok l -> bytes_ok (skipn k l)) as BS. { intros l H. rewrite <- (firstn_skipn k l) in H. apply Forall_app in H. apply H. }
    assert (forall l, bytes_ok l -> bytes_ok (firstn m l)) as BF. { intros l H. rewrite <- (firstn_skipn m l) in H. apply Forall_app in H. apply H. }
    apply BF, BS, B1.
  - destruct P as (N & _). destruct (num p <=? 3) eqn:Q; [right|left; reflexivity]. split; [|lia]. unfold elems. rewrite zlen_app. unfold zlen. rewrite fulls_len. cbn [length]. lia.
  - intro H. rewrite (NF H). reflexivity.
Qed.
Lemma enc_pkt_len obus max n p : planned obus max p -> zlen (enc_pkt (kp obus n p)) = 1 + psize p.
Proof.
  intro P. pose proof (last_elem_len obus max p P) as LL. destruct P as (N & F & B & O & L & OL & PS & PM). unfold enc_pkt. rewrite zlen_cons. unfold kp. cbn [k_w k_elems].
  unfold elems. rewrite enc_elems_pref, !zlen_app, pref_len, LL, PS. destruct (num p <=? 3) eqn:Q, (3 <? num p) eqn:Q3; try lia.
  - replace (num p =? 0) with false by lia. change (zlen []) with 0. lia.
  - change (0 =? 0) with true. cbv iota. rewrite leb_zlen. lia.
Qed.
Lemma ahead_w obus p : planned obus (zlen obus + psize p) p \/ 1 <= num p -> 0 <= (if num p <=? 3 then num p else 0) < 4.
Proof. intro H. assert (1 <= num p) by (destruct H as [(H & _)|H]; exact H). destruct (num p <=? 3) eqn:Q; lia. Qed.

Lemma emit_full mtu obus : obus <> [] -> 2 <= mtu <= 2 ^ 62 -> Forall obu_ok obus -> exists ks, ks <> [] /\
  emit mtu obus = Ok (map enc_pkt ks) /\ Forall pkt_ok ks /\ assemble None ks = Some (map eo obus, None) /\ Forall (fun k => zlen (enc_pkt k) <= mtu) ks /\
  existsb k_n ks = (obu_type (o_header (at_ obus 0)) =? 1) /\
  match ks with [] => False | k :: ks => k_z k = false /\ k_n k = (obu_type (o_header (at_ obus 0)) =? 1) /\ Forall (fun k => k_n k = false) ks end.
Proof.
  intros NE M OK. destruct (emit_ok mtu obus NE M) as (ps & PN & E & P & A). exists (plan_pkts obus ps). destruct ps as [|p ps]; [congruence|]. set (key := obu_type (o_header (at_ obus 0)) =? 1) in *.
  inversion P as [|? ? P1 P2]; subst. cbn [plan_pkts] in *. fold key in E, A |- *.
  assert (k_z (kp obus key p) = false) as KZ. { cbn [assemble] in A. destruct (Bool.eqb (k_z (kp obus key p)) false) eqn:Q; [apply Bool.eqb_prop in Q; exact Q|discriminate]. }
  assert (Forall (fun k => k_n k = false) (map (kp obus false) ps)) as KN by (apply Forall_forall; intros k IN; apply in_map_iff in IN; destruct IN as (q & <- & _); reflexivity).
  split; [discriminate|]. split; [exact E|]. split; [|split; [exact A|split; [|split; [|auto]]]].
  - constructor; [apply (kp_ok obus (mtu - 1)); auto; intros _; cbn [kp k_z] in KZ; destruct P1 as (_ & _ & _ & O & _); lia|].
    apply Forall_forall. intros k IN. apply in_map_iff in IN. destruct IN as (q & <- & IN). rewrite Forall_forall in P2. apply (kp_ok obus (mtu - 1)); [apply P2; exact IN|exact OK|discriminate].
  - constructor; [rewrite (enc_pkt_len obus (mtu - 1)) by exact P1; destruct P1 as (_ & _ & _ & _ & _ & _ & _ & H); lia|].
    apply Forall_forall. intros k IN. apply in_map_iff in IN. destruct IN as (q & <- & IN). rewrite Forall_forall in P2. rewrite (enc_pkt_len obus (mtu - 1)) by (apply P2; exact IN). destruct (P2 q IN) as (_ & _ & _ & _ & _ & _ & _ & H). lia.
  - cbn [existsb kp k_n]. assert (existsb k_n (map (kp obus false) ps) = false) as ->; [|apply orb_false_r]. clear. induction ps as [|q ps IH]; [reflexivity|]. exact IH.
Qed.

(** * Frames *)
Lemma parse_all : forall os last, Forall aobu_ok os -> os <> [] ->
  exists us, parse_obus (frame_of os last) = Ok (map (fun u => obu_of (fst u) (snd u)) us) /\ map snd us = filter sendable os.
Proof.
  intros os last F NE. unfold frame_of. destruct (rev os) as [|o rest] eqn:R; [apply (f_equal (@rev aobu)) in R; rewrite rev_involutive in R; cbn in R; congruence|].
  assert (os = rev rest ++ [o]) as -> by (rewrite <- (rev_involutive os), R; reflexivity). apply Forall_app in F. destruct F as (F1 & F2). inversion F2 as [|? ? F3 _]; subst. clear R NE F2.
  induction (rev rest) as [|x xs IH].
  - cbn [map concat app filter]. rewrite parse_one by exact F3. exists (if sendable o then [(last, o)] else []). destruct (sendable o); split; reflexivity.
  - inversion F1 as [|? ? Fx Fxs]; subst. destruct (IH Fxs) as (us & E1 & E2). cbn [map concat app]. rewrite <- app_assoc. rewrite parse_enc by auto. rewrite E1. cbn [bind filter].
    exists (if sendable x then (true, x) :: us else us). cbn [app filter]. rewrite <- E2. destruct (sendable x); split; reflexivity.
Qed.
Lemma eo_obu_of sized o : aobu_ok o -> eo (obu_of sized o) = enc_obu false o.
Proof.
  intro K. destruct (hd_facts sized o K) as (H1 & _ & _ & _ & H5 & _). unfold eo, has_ext. cbn [obu_of o_header o_ext o_payload]. rewrite H1, H5, enc_split. cbn [app]. f_equal. destruct (a_ext o); reflexivity.
Qed.
Lemma enc_bytes o : aobu_ok o -> bytes_ok (enc_obu false o).
Proof.
  intro K. destruct (hd_facts false o K) as (_ & _ & _ & _ & _ & H6). rewrite enc_split. destruct K as (_ & K2 & K3 & _). cbn [app]. constructor; [exact H6|]. apply Forall_app. split; [|exact K3]. destruct (a_ext o); [|constructor]. constructor; [exact K2|constructor].
Qed.
Lemma obu_of_ok sized o : aobu_ok o -> obu_ok (obu_of sized o).
Proof.
  intro K. split; [rewrite eo_obu_of by exact K; apply enc_bytes; exact K|]. unfold o_size. cbn [obu_of o_payload]. destruct K as (_ & _ & _ & K). destruct (has_ext _); lia.
Qed.

Theorem av1_round mtu os last s : Forall aobu_ok os -> existsb sendable os = true -> 2 <= mtu <= 2 ^ 62 ->
  exists pkts first rest s' key, av1_packetize mtu (frame_of os last) = Ok pkts /\ pkts = first :: rest /\ fit mtu pkts /\
    av1_head first = true /\ feed av1_dep s pkts [] None = (s', Some (delivered os, Some key)) /\
    key = match filter sendable os with o :: _ => a_type o =? 1 | [] => false end /\ av1_keyframe first = key /\ Forall (fun p => av1_keyframe p = false) rest.
Proof.
  intros F X M. assert (os <> []) as NE by (intro H; subst; discriminate). destruct (parse_all os last F NE) as (us & E1 & E2).
  assert (Forall aobu_ok (map snd us)) as FU. { rewrite E2. apply Forall_forall. intros o IN. apply filter_In in IN. rewrite Forall_forall in F. apply F, IN. }
  set (obus := map (fun u => obu_of (fst u) (snd u)) us) in *.
  assert (us <> []) as UN. { intro H. subst us. cbn in E2. apply existsb_exists in X. destruct X as (o & IN & S). assert (In o (filter sendable os)) as IN2 by (apply filter_In; auto). rewrite <- E2 in IN2. exact IN2. }
  assert (obus <> []) as ON by (unfold obus; destruct us; [congruence|discriminate]).
  assert (Forall obu_ok obus) as OO. { unfold obus. apply Forall_forall. intros o IN. apply in_map_iff in IN. destruct IN as (u & <- & IN). apply obu_of_ok. rewrite Forall_forall in FU. apply FU, in_map, IN. }
  destruct (emit_full mtu obus ON M OO) as (ks & KN & E & KO & A & FIT & EX & HD).
  destruct ks as [|k ks]; [congruence|]. destruct HD as (KZ & KK & KR).
  assert (obu_type (o_header (at_ obus 0)) =? 1 = match filter sendable os with o :: _ => a_type o =? 1 | [] => false end) as KEY.
  { rewrite <- E2. unfold obus, at_. destruct us as [|u us]; [congruence|]. cbn [map Z.to_nat nth obu_of o_header]. cbn [map] in FU. inversion FU as [|? ? FU1 _]; subst. destruct (hd_facts (fst u) (snd u) FU1) as (_ & _ & -> & _). reflexivity. }
  destruct (feed_pkts (k :: ks) None s [] None (map (fun u => (false, snd u)) us) KO I) as (s' & FE).
  - rewrite A. f_equal. f_equal. unfold obus. rewrite !map_map. apply map_ext_in. intros u IN. unfold enc_u. cbn [fst snd]. apply eo_obu_of. rewrite Forall_forall in FU. apply FU, in_map, IN.
  - apply Forall_forall. intros u IN. apply in_map_iff in IN. destruct IN as (v & <- & IN). cbn [snd]. rewrite Forall_forall in FU. apply FU, in_map, IN.
  - discriminate.
  - exists (map enc_pkt (k :: ks)), (enc_pkt k), (map enc_pkt ks), s', (obu_type (o_header (at_ obus 0)) =? 1).
    assert (forall k, pkt_ok k -> av1_head (enc_pkt k) = negb (k_z k) /\ av1_keyframe (enc_pkt k) = k_n k) as HK.
    { intros q (_ & _ & W & _). unfold av1_head, av1_keyframe, enc_pkt. fold (ahead (k_z q) (k_y q) (k_n q) (k_w q)). assert (0 <= k_w q < 4) as WB by (pose proof (zlen_nonneg (k_elems q)); lia).
      destruct (ahead_facts (k_z q) (k_y q) (k_n q) (k_w q) WB) as (-> & _ & _ & -> & _). auto. }
    inversion KO as [|? ? KO1 KO2]; subst.
    split; [|split; [reflexivity|split; [|split; [|split; [|split; [exact KEY|split]]]]]].
    + unfold av1_packetize. assert (frame_of os last <> []) as FN by (intro H; rewrite H in E1; apply ON; change (Ok [] = Ok obus) in E1; injection E1 as E1; symmetry; exact E1).
      destruct (zlen (frame_of os last) =? 0) eqn:Q; [apply Z.eqb_eq in Q; apply zlen_0 in Q; congruence|]. destruct (mtu <=? 1) eqn:Q2; [lia|]. cbn [orb]. rewrite E1. cbn [bind]. exact E.
    + split; [discriminate|]. apply Forall_forall. intros q IN. apply in_map_iff in IN. destruct IN as (k2 & <- & IN). rewrite Forall_forall in FIT. split; [|apply FIT, IN]. unfold enc_pkt. rewrite zlen_cons. pose proof (zlen_nonneg (enc_elems (k_w k2 =? 0) (k_elems k2))). lia.
    + rewrite (proj1 (HK k KO1)), KZ. reflexivity.
    + rewrite FE. f_equal. f_equal. rewrite orb_false_r, EX. f_equal. cbn [app]. rewrite outs_delivered, map_map. unfold delivered. cbn [snd]. change (fun x : bool * aobu => snd x) with (@snd bool aobu). rewrite E2. clear. 
      induction os as [|o os IH]; [reflexivity|]. cbn [filter]. destruct (sendable o) eqn:S; [cbn [filter]; rewrite S; cbn [map concat]; rewrite IH; reflexivity|exact IH].
    + rewrite (proj2 (HK k KO1)). exact KK.
    + apply Forall_forall. intros q IN. apply in_map_iff in IN. destruct IN as (k2 & <- & IN). rewrite Forall_forall in KO2. rewrite (proj2 (HK k2 (KO2 k2 IN))). rewrite Forall_forall in KR. apply KR, IN.
Qed.

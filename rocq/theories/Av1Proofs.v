From Verif Require Import Base BaseFacts Brute BufRxSpec Vp8Model Vp8Spec Vp8Proofs Av1Model Av1Spec.

(** * LEB128 *)
Lemma leb_byte v : Z.lor (Z.land v 127) 128 = v mod 128 + 128.
Proof.
  change 127 with (Z.ones 7). rewrite Z.land_ones by lia. change (2 ^ 7) with 128.
  rewrite Z.lor_comm. rewrite (lor_add 128 (v mod 128) 7); [lia|lia|change (2 ^ 7) with 128; apply Z.mod_pos_bound; lia|reflexivity].
Qed.
Lemma leb_eq v : leb v = leb128 v.
Proof.
  unfold leb, leb128. generalize 10%nat. intro n. revert v. induction n as [|n IH]; intro v; [reflexivity|]. cbn [leb_ leb128_].
  destruct (v <? 128); [reflexivity|]. rewrite leb_byte, IH, Z.shiftr_div_pow2 by lia. reflexivity.
Qed.
Lemma leb_zlen v : zlen (leb128 v) = leb_size v.
Proof.
  rewrite <- leb_eq. unfold leb, leb_size. generalize 10%nat. intro n. revert v. induction n as [|n IH]; intro v; [reflexivity|]. cbn [leb_ leb_size_].
  destruct (v <? 128); [reflexivity|]. rewrite zlen_cons, IH. lia.
Qed.
Lemma leb_size_pos v : 1 <= leb_size v.
Proof.
  unfold leb_size. change 10%nat with (S 9). generalize 9%nat. intro n. cbn [leb_size_]. destruct (v <? 128); [lia|].
  assert (forall n v, 0 <= leb_size_ n v) as H. { clear. induction n as [|n IH]; intro v; cbn [leb_size_]; [lia|]. destruct (v <? 128); [lia|]. specialize (IH (Z.shiftr v 7)). lia. }
  specialize (H n (Z.shiftr v 7)). lia.
Qed.
Lemma get_leb_spec : forall fuel v i acc r, (1 <= fuel)%nat -> 0 <= v < 128 ^ Z.of_nat fuel -> 0 <= i -> 0 <= acc < 2 ^ i -> v * 2 ^ i < 2 ^ 64 ->
  get_leb_ fuel i acc (leb128_ fuel v ++ r) = Some (acc + v * 2 ^ i, r).
Proof.
  induction fuel as [|fuel IH]; intros v i acc r F V I A B.
  - lia.
  - cbn [leb128_ get_leb_]. assert (0 < 2 ^ i) as P by (apply Z.pow_pos_nonneg; lia).
    assert (forall d, 0 <= d < 128 -> d * 2 ^ i < 2 ^ 64 -> Z.lor acc (Z.shiftl d i mod 2 ^ 64) = acc + d * 2 ^ i) as LO.
    { intros d D D2. rewrite Z.shiftl_mul_pow2 by lia. rewrite Z.mod_small by nia. rewrite Z.lor_comm. rewrite (lor_add _ _ i); [lia|lia|lia|]. apply Z.mod_mul. lia. }
    destruct (v <? 128) eqn:Q; cbn [app].
    + assert (Z.land v 127 = v) as ->. { change 127 with (Z.ones 7). rewrite Z.land_ones by lia. apply Z.mod_small. cbn. lia. }
      rewrite Q. rewrite LO by lia. reflexivity.
    + assert (0 <= v mod 128 < 128) as M by (apply Z.mod_pos_bound; lia).
      assert (Z.land (v mod 128 + 128) 127 = v mod 128) as ->.
      { change 127 with (Z.ones 7). rewrite Z.land_ones by lia. change (2 ^ 7) with 128. dlia. }
      assert (v = 128 * (v / 128) + v mod 128) as DV by (apply Z.div_mod; lia).
      destruct (v mod 128 + 128 <? 128) eqn:Q2; [lia|]. rewrite LO; [|lia|nia].
      assert (128 ^ Z.of_nat (S fuel) = 128 * 128 ^ Z.of_nat fuel) as PW by (rewrite Nat2Z.inj_succ, Z.pow_succ_r by lia; reflexivity).
      assert (2 ^ (i + 7) = 2 ^ i * 128) as PI by (rewrite Z.pow_add_r by lia; reflexivity).
      assert (1 <= fuel)%nat as F'. { destruct fuel; [|lia]. cbn in V. lia. }
      rewrite IH; [|exact F'|split; [apply Z.div_pos; lia|apply Z.div_lt_upper_bound; lia]|lia|rewrite PI; nia|rewrite PI; nia].
      f_equal. f_equal. rewrite PI. nia.
Qed.
Lemma get_leb_128 v r : 0 <= v < 2 ^ 63 -> get_leb (leb128 v ++ r) = Some (v, r).
Proof.
  intro V. unfold get_leb, leb128. rewrite get_leb_spec; [f_equal; f_equal; lia| | | | |]; try lia.
Qed.
Lemma get_leb_len : forall fuel i acc l v r, get_leb_ fuel i acc l = Some (v, r) -> (length r < length l)%nat.
Proof.
  induction fuel as [|fuel IH]; intros i acc l v r H; [discriminate|]. cbn [get_leb_] in H. destruct l as [|b l]; [discriminate|].
  destruct (b <? 128); [injection H as _ <-; cbn; lia|]. apply IH in H. cbn. lia.
Qed.

(** * Units *)
Lemma head_facts f t x s r : 0 <= t < 16 ->
  let h (x s : bool) := b2z f * 128 + t * 8 + (if x then 4 else 0) + b2z s * 2 + b2z r in
  bit (h x s) 4 = x /\ bit (h x s) 2 = s /\ obu_type (h x s) = t /\ Z.lor (h x s) 2 = h x true /\ Z.land (h x s) 253 = h x false /\ byte_ok (h x s).
Proof.
  intros T h. pose proof (brute 16 (fun t => forallb (fun f => forallb (fun x => forallb (fun s => forallb (fun r =>
     let h (x s : bool) := b2z f * 128 + t * 8 + (if x then 4 else 0) + b2z s * 2 + b2z r in
     Bool.eqb (bit (h x s) 4) x && Bool.eqb (bit (h x s) 2) s && (obu_type (h x s) =? t) && (Z.lor (h x s) 2 =? h x true) && (Z.land (h x s) 253 =? h x false) && byteb (h x s))
     [true; false]) [true; false]) [true; false]) [true; false]) ltac:(vm_compute; reflexivity) t T) as Q. cbn beta in Q.
  rewrite forallb_forall in Q. specialize (Q f ltac:(destruct f; cbn; auto)). rewrite forallb_forall in Q. specialize (Q x ltac:(destruct x; cbn; auto)).
  rewrite forallb_forall in Q. specialize (Q s ltac:(destruct s; cbn; auto)). rewrite forallb_forall in Q. specialize (Q r ltac:(destruct r; cbn; auto)).
  cbv zeta in Q. cbv beta delta [h]. clear h.
  repeat (apply andb_prop in Q; destruct Q as (Q & ?)). 
  repeat match goal with H : (_ =? _) = true |- _ => apply Z.eqb_eq in H | H : Bool.eqb _ _ = true |- _ => apply Bool.eqb_prop in H end.
  unfold byteb in *. split; [assumption|]. split; [assumption|]. split; [assumption|]. split; [assumption|]. split; [assumption|]. unfold byte_ok. lia.
Qed.
Definition hd_of (sized : bool) (o : aobu) : Z :=
  b2z (a_forbidden o) * 128 + a_type o * 8 + (match a_ext o with Some _ => 4 | None => 0 end) + b2z sized * 2 + b2z (a_reserved o).
Lemma hd_facts sized o : aobu_ok o ->
  bit (hd_of sized o) 4 = (match a_ext o with Some _ => true | None => false end) /\ bit (hd_of sized o) 2 = sized /\ obu_type (hd_of sized o) = a_type o /\
  Z.lor (hd_of sized o) 2 = hd_of true o /\ Z.land (hd_of sized o) 253 = hd_of false o /\ byte_ok (hd_of sized o).
Proof.
  intros (T & _). unfold hd_of. destruct (head_facts (a_forbidden o) (a_type o) (match a_ext o with Some _ => true | None => false end) sized (a_reserved o) T) as (H1 & H2 & H3 & H4 & H5 & H6).
  destruct (a_ext o); repeat (split; [assumption|]); assumption.
Qed.
Lemma kept_hd sized o : aobu_ok o -> kept (hd_of sized o) = sendable o.
Proof. intro H. unfold kept, sendable. destruct (hd_facts sized o H) as (_ & _ & -> & _). reflexivity. Qed.
Definition obu_of (sized : bool) (o : aobu) : obu := mkO (hd_of sized o) (match a_ext o with Some x => x | None => 0 end) (a_payload o).

Lemma parse_fuel : forall n f1 f2 l, (length l <= n)%nat -> (length l <= f1)%nat -> (length l <= f2)%nat -> parse_obus_ f1 l = parse_obus_ f2 l.
Proof.
  induction n as [|n IH]; intros f1 f2 l L F1 F2.
  - destruct l; [|cbn in L; lia]. destruct f1, f2; reflexivity.
  - destruct l as [|h r]; [destruct f1, f2; reflexivity|]. destruct f1 as [|f1]; [cbn in F1; lia|]. destruct f2 as [|f2]; [cbn in F2; lia|].
    cbn in L, F1, F2. cbn [parse_obus_].
    destruct (if bit h 4 then _ else _) as [[x r2]|] eqn:E1; [|reflexivity].
    assert (length r2 <= length r)%nat as L2. { destruct (bit h 4); [destruct r as [|y r]; [discriminate|]; injection E1 as _ <-; cbn; lia|injection E1 as _ <-; lia]. }
    destruct (if bit h 2 then _ else _) as [[pl r3]|] eqn:E2; [|reflexivity].
    assert (length r3 <= length r2)%nat as L3.
    { destruct (bit h 2); [|injection E2 as _ <-; cbn; lia]. destruct (get_leb r2) as [[v r4]|] eqn:G; [|discriminate]. apply get_leb_len in G.
      destruct (zlen r4 <? v); [discriminate|]. injection E2 as _ <-. rewrite skipn_length. lia. }
    rewrite (IH f1 f2 r3) by lia. reflexivity.
Qed.
Lemma parse_enc sized o rest : aobu_ok o -> (sized = true \/ rest = []) ->
  parse_obus (enc_obu sized o ++ rest) = do os <- parse_obus rest ; Ok (if sendable o then obu_of sized o :: os else os).
Proof.
  intros K S. destruct (hd_facts sized o K) as (H1 & H2 & H3 & H4 & H5 & H6). pose proof (kept_hd sized o K) as HK.
  unfold parse_obus at 1. unfold enc_obu. fold (hd_of sized o). cbn [app length parse_obus_]. rewrite H1, H2, HK.
  set (tail := (if sized then leb128 (zlen (a_payload o)) else []) ++ a_payload o).
  assert (forall fuel, (length rest <= fuel)%nat -> parse_obus_ fuel rest = parse_obus rest) as PF by (intros fuel L; unfold parse_obus; eapply parse_fuel; [apply Nat.le_refl|exact L|lia]).
  assert ((match a_ext o with Some _ => true | None => false end) = false \/ exists x, a_ext o = Some x) as EX by (destruct (a_ext o); eauto).
  assert ((if match a_ext o with Some _ => true | None => false end
      then match ((match a_ext o with Some x => [x] | None => [] end) ++ tail) ++ rest with [] => None | x :: r => Some (x, r) end
      else Some (0, ((match a_ext o with Some x => [x] | None => [] end) ++ tail) ++ rest)) = Some (match a_ext o with Some x => x | None => 0 end, tail ++ rest)) as ->.
  { destruct (a_ext o); reflexivity. }
  assert ((if sized
     then match get_leb (tail ++ rest) with None => None | Some (n, r) => if zlen r <? n then None else Some (firstn (Z.to_nat n) r, skipn (Z.to_nat n) r) end
     else Some (tail ++ rest, [])) = Some (a_payload o, rest)) as ->.
  { unfold tail. destruct sized.
    - rewrite <- app_assoc. destruct K as (_ & _ & _ & K). pose proof (zlen_nonneg (a_payload o)). rewrite get_leb_128 by lia.
      destruct (zlen (a_payload o ++ rest) <? zlen (a_payload o)) eqn:Q; [rewrite zlen_app in Q; pose proof (zlen_nonneg rest); lia|].
      replace (Z.to_nat (zlen (a_payload o))) with (length (a_payload o)) by (unfold zlen; lia).
      rewrite firstn_app, skipn_app, firstn_all, skipn_all, Nat.sub_diag. cbn [firstn skipn app]. rewrite app_nil_r. reflexivity.
    - destruct S as [S| ->]; [discriminate|]. rewrite !app_nil_r. reflexivity. }
  rewrite PF; [reflexivity|]. unfold tail. rewrite !app_length. lia.
Qed.
Lemma parse_one sized o : aobu_ok o -> parse_obus (enc_obu sized o) = Ok (if sendable o then [obu_of sized o] else []).
Proof. intro K. rewrite <- (app_nil_r (enc_obu sized o)). rewrite parse_enc by auto. cbn. destruct (sendable o); reflexivity. Qed.

(** what the depacketizer adds for one unit *)
Definition unit_out (u : bool * aobu) : list Z := if sendable (snd u) then enc_obu true (snd u) else [].
Definition enc_u (u : bool * aobu) : list Z := enc_obu (fst u) (snd u).
Lemma enc_split sized o : enc_obu sized o = (hd_of sized o :: match a_ext o with Some x => [x] | None => [] end) ++ (if sized then leb128 (zlen (a_payload o)) else []) ++ a_payload o.
Proof. reflexivity. Qed.

Lemma loop_nil fuel z y count idx s out : av1_loop fuel z y count idx s [] out = (s, Ok out).
Proof. destruct fuel; reflexivity. Qed.

(** One complete unit, in the middle of a packet or at its end. *)
Lemma unit_step fuel z y count idx s r out u e (last : bool) :
  ob s ++ e = enc_u u -> olen s = zlen (ob s) -> aobu_ok (snd u) -> last && y = false -> (last = true -> r = []) ->
  (match parse_obus (ob s ++ e) with
   | Panic => (mkAv (ob s ++ e) (olen s + zlen e), Panic)
   | Err => (mkAv (ob s ++ e) (olen s + zlen e), Err)
   | Ok [] => av1_loop fuel z y count (idx + 1) avd0 r out
   | Ok (o :: _) =>
       let h := Z.lor (o_header o) 2 in
       let l := Z.max 0 (olen s + zlen e - 1) in
       let l := if has_ext o then Z.max 0 (l - 1) else l in
       let out := out ++ [h] ++ (if has_ext o then [o_ext o] else []) ++ (if bit (o_header o) 2 then [] else leb l) in
       if zlen (ob s ++ e) <? l then (mkAv (ob s ++ e) l, Err)
       else
         let out := out ++ skipn (Z.to_nat (zlen (ob s ++ e) - l)) (ob s ++ e) in
         if last then (avd0, Ok out) else av1_loop fuel z y count (idx + 1) avd0 r out
   end) = av1_loop fuel z y count (idx + 1) avd0 r (out ++ unit_out u).
Proof.
  intros E L K LY LR. assert (olen s + zlen e = zlen (ob s ++ e)) as -> by (rewrite zlen_app; lia). rewrite E. destruct u as [sized o]. unfold enc_u, unit_out in *. cbn [fst snd] in *.
  rewrite parse_one by exact K. destruct (sendable o); [|rewrite app_nil_r; reflexivity].
  destruct (hd_facts sized o K) as (H1 & H2 & H3 & H4 & H5 & H6). cbv zeta. cbn [obu_of o_header o_ext has_ext]. unfold has_ext. cbn [o_header obu_of]. rewrite H1, H2, H4.
  set (T := (if sized then leb128 (zlen (a_payload o)) else []) ++ a_payload o).
  assert (enc_obu sized o = (hd_of sized o :: match a_ext o with Some x => [x] | None => [] end) ++ T) as EE by reflexivity.
  assert (exists k, zlen (enc_obu sized o) = Z.of_nat k + zlen T /\ k = length (hd_of sized o :: match a_ext o with Some x => [x] | None => [] end)) as (k & KE & KK).
  { eexists. split; [|reflexivity]. rewrite EE, zlen_app. unfold zlen. lia. }
  pose proof (zlen_nonneg T).
  assert ((if match a_ext o with Some _ => true | None => false end then Z.max 0 (Z.max 0 (zlen (enc_obu sized o) - 1) - 1) else Z.max 0 (zlen (enc_obu sized o) - 1)) = zlen T) as ->.
  { rewrite KE, KK. destruct (a_ext o); cbn [length]; lia. }
  destruct (zlen (enc_obu sized o) <? zlen T) eqn:Q; [lia|].
  assert (skipn (Z.to_nat (zlen (enc_obu sized o) - zlen T)) (enc_obu sized o) = T) as ->.
  { replace (Z.to_nat (zlen (enc_obu sized o) - zlen T)) with k by lia. rewrite EE, KK, skipn_app, skipn_all, Nat.sub_diag. reflexivity. }
  assert ((out ++ [hd_of true o] ++ (if match a_ext o with Some _ => true | None => false end then [match a_ext o with Some x => x | None => 0 end] else []) ++ (if sized then [] else leb (zlen T))) ++ T = out ++ enc_obu true o) as ->.
  { rewrite enc_split, leb_eq. rewrite <- !app_assoc. f_equal. cbn [app]. f_equal. unfold T. destruct (a_ext o), sized; cbn [app]; reflexivity. }
  destruct last; [|reflexivity]. rewrite (LR eq_refl), loop_nil. reflexivity.
Qed.

Definition outs (us : list (bool * aobu)) : list Z := concat (map unit_out us).
Lemma enc_elems_cons all e es : es <> [] -> enc_elems all (e :: es) = leb128 (zlen e) ++ e ++ enc_elems all es.
Proof. destruct es; [congruence|reflexivity]. Qed.
Lemma leb_nonempty v : leb128 v <> [].
Proof. intro H. pose proof (leb_zlen v) as Q. rewrite H in Q. pose proof (leb_size_pos v). change (zlen []) with 0 in Q. lia. Qed.
Lemma enc_elems_pos all es : es <> [] -> Forall (fun e => e <> []) es -> 1 <= zlen (enc_elems all es).
Proof.
  intros NE F. destruct es as [|e [|e2 es]]; [congruence| |].
  - inversion F; subst. cbn [enc_elems]. rewrite zlen_app. pose proof (zlen_nonneg (if all then leb128 (zlen e) else [])). assert (1 <= zlen e) by (destruct e; [congruence|]; rewrite zlen_cons; pose proof (zlen_nonneg e); lia). lia.
  - rewrite enc_elems_cons by discriminate. rewrite zlen_app. pose proof (leb_zlen (zlen e)). pose proof (leb_size_pos (zlen e)). pose proof (zlen_nonneg (e ++ enc_elems all (e2 :: es))). lia.
Qed.

(** One round of the loop on well-formed elements. *)
Lemma round_elem fuel z y count idx s e (es : list (list Z)) out (all : bool) :
  e <> [] -> zlen e < 2 ^ 63 -> Forall (fun e => e <> []) es -> (if all then count = 0 else count <> 0 /\ count = idx + zlen (e :: es)) -> 0 <= idx ->
  (idx =? 0) && z && (zlen (ob s) =? 0) = false -> olen s = zlen (ob s) ->
  let last := match es with [] => true | _ => false end in
  av1_loop (S fuel) z y count idx s (enc_elems all (e :: es)) out =
  if last && y then (mkAv (ob s ++ e) (olen s + zlen e), Ok out)
  else match parse_obus (ob s ++ e) with
   | Panic => (mkAv (ob s ++ e) (olen s + zlen e), Panic)
   | Err => (mkAv (ob s ++ e) (olen s + zlen e), Err)
   | Ok [] => av1_loop fuel z y count (idx + 1) avd0 (enc_elems all es) out
   | Ok (o :: _) =>
       let h := Z.lor (o_header o) 2 in
       let l := Z.max 0 (olen s + zlen e - 1) in
       let l := if has_ext o then Z.max 0 (l - 1) else l in
       let out := out ++ [h] ++ (if has_ext o then [o_ext o] else []) ++ (if bit (o_header o) 2 then [] else leb l) in
       if zlen (ob s ++ e) <? l then (mkAv (ob s ++ e) l, Err)
       else
         let out := out ++ skipn (Z.to_nat (zlen (ob s ++ e) - l)) (ob s ++ e) in
         if last then (avd0, Ok out) else av1_loop fuel z y count (idx + 1) avd0 (enc_elems all es) out
   end.
Proof.
  intros NE B F C I SK OL last. 
  assert (1 <= zlen e) as LE. { destruct e; [congruence|]. rewrite zlen_cons. pose proof (zlen_nonneg e). lia. }
  assert (1 <= zlen (enc_elems all (e :: es))) as LP by (apply enc_elems_pos; [discriminate|constructor; auto]).
  cbn [av1_loop]. destruct (enc_elems all (e :: es)) as [|b0 r0] eqn:ER; [cbn in LP; lia|]. rewrite <- ER. clear LP.
  set (R := match es with [] => [] | _ => enc_elems all es end). assert (R = enc_elems all es) as RE by (unfold R; destruct es; reflexivity).
  assert ((if (count =? 0) || negb (negb (count =? 0) && (idx =? count - 1)) then
     match get_leb (enc_elems all (e :: es)) with None => None
     | Some (n, r) => Some (n, (if (count =? 0) && (n =? zlen r) then true else negb (count =? 0) && (idx =? count - 1)), r) end
     else Some (zlen (enc_elems all (e :: es)), negb (count =? 0) && (idx =? count - 1), enc_elems all (e :: es))) = Some (zlen e, last, e ++ R)) as ->.
  { pose proof (zlen_nonneg es). destruct all.
    - subst count. cbn [Z.eqb orb andb negb]. assert (enc_elems true (e :: es) = leb128 (zlen e) ++ e ++ R) as ->.
      { unfold R. destruct es; [cbn [enc_elems]; rewrite app_nil_r; reflexivity|apply enc_elems_cons; discriminate]. }
      rewrite get_leb_128 by lia. f_equal. f_equal. f_equal. rewrite zlen_app. unfold last, R. destruct es as [|e2 es]; [change (zlen []) with 0; rewrite Z.add_0_r, Z.eqb_refl; reflexivity|].
      pose proof (enc_elems_pos true (e2 :: es) ltac:(discriminate) F). destruct (zlen e =? zlen e + zlen (enc_elems true (e2 :: es))) eqn:Q; [lia|reflexivity].
    - destruct C as (C0 & C). rewrite zlen_cons in C. replace (count =? 0) with false by lia. cbn [orb andb negb]. unfold last, R. destruct es as [|e2 es].
      + change (zlen []) with 0 in C. replace (idx =? count - 1) with true by lia. cbn [negb enc_elems app]. rewrite app_nil_r. reflexivity.
      + rewrite zlen_cons in C, H. pose proof (zlen_nonneg es). replace (idx =? count - 1) with false by lia. cbn [negb]. rewrite enc_elems_cons by discriminate. rewrite get_leb_128 by lia. reflexivity. }
  destruct (zlen e =? 0) eqn:Q; [lia|]. destruct (zlen (e ++ R) <? zlen e) eqn:Q2; [rewrite zlen_app in Q2; pose proof (zlen_nonneg R); lia|].
  replace (Z.to_nat (zlen e)) with (length e) by (unfold zlen; lia). rewrite firstn_app, skipn_app, firstn_all, skipn_all, Nat.sub_diag. cbn [firstn skipn app]. rewrite app_nil_r.
  rewrite SK. rewrite RE. cbv zeta. cbn [ob olen]. reflexivity.
Qed.

Lemma removelast_cons2 {A} (x y : A) l : removelast (x :: y :: l) = x :: removelast (y :: l). Proof. reflexivity. Qed.

(** * A whole packet *)
Lemma loop_elems : forall (es : list (list Z)) fuel z (y : bool) count idx s out (all : bool) us,
  es <> [] -> Forall (fun e => e <> [] /\ zlen e < 2 ^ 63) es -> (length (enc_elems all es) <= fuel)%nat ->
  (if all then count = 0 else count <> 0 /\ count = idx + zlen es) -> 0 <= idx ->
  (idx =? 0) && z && (zlen (ob s) =? 0) = false -> olen s = zlen (ob s) ->
  let js := match es with e :: es => (ob s ++ e) :: es | [] => [] end in
  (if y then removelast js else js) = map enc_u us -> Forall (fun u => aobu_ok (snd u)) us ->
  av1_loop fuel z y count idx s (enc_elems all es) out =
    ((if y then mkAv (last js []) (zlen (last js [])) else avd0), Ok (out ++ outs us)).
Proof.
  induction es as [|e es IH]; intros fuel z y count idx s out all us NE F FU C I SK OL js E UK; [congruence|].
  inversion F as [|? ? (Fe & Fl) Fr]; subst. assert (Forall (fun e => e <> []) es) as Fn by (eapply Forall_impl; [|exact Fr]; intros ? (?&?); assumption).
  pose proof (enc_elems_pos all (e :: es) NE ltac:(constructor; auto)) as EP. destruct fuel as [|fuel]; [unfold zlen in EP; lia|].
  rewrite (round_elem fuel z y count idx s e es out all) by assumption. cbv zeta.
  destruct es as [|e2 es].
  - unfold js in *. destruct y; cbn [andb].
    + cbn [removelast last] in *. symmetry in E. apply map_eq_nil in E. subst us. cbn [outs map concat]. rewrite app_nil_r, OL, zlen_app. reflexivity.
    + destruct us as [|u us]; [discriminate|]. cbn [map] in E. injection E as E1 E2. symmetry in E2. apply map_eq_nil in E2. subst us. inversion UK; subst.
      pose proof (unit_step fuel z false count idx s (enc_elems all []) out u e true E1 OL ltac:(assumption) eq_refl (fun _ => eq_refl)) as US. cbv zeta in US. rewrite US.
      cbn [enc_elems]. rewrite loop_nil. unfold outs. cbn [map concat]. rewrite app_nil_r. reflexivity.
  - cbn [andb]. set (R := enc_elems all (e2 :: es)) in *.
    assert (exists u us', us = u :: us' /\ ob s ++ e = enc_u u /\ (if y then removelast (e2 :: es) else e2 :: es) = map enc_u us') as (u & us' & -> & E1 & E2).
    { unfold js in E. destruct y.
      - rewrite removelast_cons2 in E. destruct us as [|u us]; [discriminate|]. cbn [map] in E. injection E as E1 E2. eauto.
      - destruct us as [|u us]; [discriminate|]. cbn [map] in E. injection E as E1 E2. exists u, us. cbn [map]. auto. }
    inversion UK as [|? ? UK1 UK2]; subst.
    pose proof (unit_step fuel z y count idx s R out u e false E1 OL UK1 eq_refl ltac:(discriminate)) as US. cbv zeta in US. rewrite US. clear US.
    unfold R. rewrite (IH fuel z y count (idx + 1) avd0 (out ++ unit_out u) all us'); try assumption; try discriminate; try lia.
    + unfold js. cbn [ob avd0 app]. unfold outs. cbn [map concat]. rewrite <- app_assoc. reflexivity.
    + rewrite enc_elems_cons in FU by discriminate. rewrite !app_length in FU. fold R in FU |- *. pose proof (leb_zlen (zlen e)). pose proof (leb_size_pos (zlen e)). unfold zlen in *. lia.
    + destruct all; [exact C|]. rewrite zlen_cons in C. lia.
    + destruct (idx + 1 =? 0) eqn:Q; [lia|reflexivity].
Qed.

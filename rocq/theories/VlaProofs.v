From Verif Require Import Base BaseFacts Brute VlaModel VlaSpec.

(** ** bits *)
Lemma bitmask_range s : zlen s <= 4 -> 0 <= bitmask s < 16.
Proof.
  unfold zlen. intro H. do 5 (destruct s as [|? s]; [cbn [bitmask]; repeat match goal with |- context [active ?x] => destruct (active x) end; cbn; lia|]).
  cbn [length] in H. lia.
Qed.

Lemma lower4_bitmask s : stream_ok s -> lower4 (bitmask s) = map active s.
Proof.
  intros (L & _ & E). unfold zlen in L.
  destruct E as [->|[s' [l [-> A]]]]; [reflexivity|].
  do 4 (destruct s' as [|? s']; [cbn [app bitmask map]; rewrite A; repeat match goal with |- context [active ?x] => destruct (active x) end; reflexivity|]).
  rewrite app_length in L. cbn [length] in L. lia.
Qed.

Lemma split2_pack a b : 0 <= a < 16 -> 0 <= b < 16 -> split2 (a * 16 + b) = [a; b].
Proof.
  intros. unfold split2, read_bits. f_equal; [|f_equal].
  - change (2 ^ (8 - 4)) with 16. change (2 ^ (4 - 0)) with 16. dlia.
  - change (2 ^ (8 - 8)) with 1. change (2 ^ (8 - 4)) with 16. dlia.
Qed.
Lemma split4_pack a b c d : 0 <= a < 4 -> 0 <= b < 4 -> 0 <= c < 4 -> 0 <= d < 4 ->
  split4 (a * 64 + b * 16 + c * 4 + d) = [a; b; c; d].
Proof.
  intros. unfold split4, read_bits.
  change (2 ^ (8 - 2)) with 64. change (2 ^ (8 - 4)) with 16. change (2 ^ (8 - 6)) with 4. change (2 ^ (8 - 8)) with 1.
  change (2 ^ (2 - 0)) with 4. change (2 ^ (4 - 2)) with 4. change (2 ^ (6 - 4)) with 4.
  change (2 ^ (8 - 6)) with 4. f_equal; [dlia|]. f_equal; [dlia|]. f_equal; [dlia|]. f_equal. rewrite Z.div_1_r. dlia.
Qed.

Lemma pack2_spec n : forall l, (length l <= n)%nat -> Forall (fun x => 0 <= x < 16) l ->
  firstn (length l) (flat_map split2 (pack2 l)) = l /\ zlen (pack2 l) = div_round_up (zlen l) 2.
Proof.
  induction n as [|n IH]; intros l Hn F.
  - destruct l; [split; reflexivity|cbn in Hn; lia].
  - destruct l as [|a [|b r]]; [split; reflexivity| |].
    + inversion F; subst. split; [|reflexivity]. cbn [pack2 flat_map]. rewrite <- (Z.add_0_r (a * 16)), split2_pack by lia. reflexivity.
    + inversion F as [|? ? F1 F2]; subst. inversion F2 as [|? ? F3 F4]; subst. cbn [pack2 flat_map length]. rewrite split2_pack by assumption.
      cbn [app firstn]. destruct (IH r) as [A B]; [cbn in Hn; lia|assumption|]. rewrite A. split; [reflexivity|].
      unfold zlen in *. cbn [length]. rewrite Nat2Z.inj_succ, B. unfold div_round_up.
      destruct (Z.eqb_spec (Z.of_nat (length r)) 0) as [E|E]; destruct (Z.eqb_spec (Z.of_nat (S (S (length r)))) 0); try lia.
      all: dlia.
Qed.

Lemma pack4_spec n : forall l, (length l <= n)%nat -> Forall (fun x => 0 <= x < 4) l ->
  firstn (length l) (flat_map split4 (pack4 l)) = l /\ zlen (pack4 l) = div_round_up (zlen l) 4.
Proof.
  induction n as [|n IH]; intros l Hn F.
  - destruct l; [split; reflexivity|cbn in Hn; lia].
  - destruct l as [|a [|b [|c [|d r]]]]; [split; reflexivity| | | |];
    repeat match goal with H : Forall _ (_ :: _) |- _ => inversion H; clear H; subst end;
    cbn [pack4 flat_map length].
    + split; [|reflexivity]. replace (a * 64) with (a * 64 + 0 * 16 + 0 * 4 + 0) by lia. rewrite split4_pack by lia. reflexivity.
    + split; [|reflexivity]. replace (a * 64 + b * 16) with (a * 64 + b * 16 + 0 * 4 + 0) by lia. rewrite split4_pack by lia. reflexivity.
    + split; [|reflexivity]. replace (a * 64 + b * 16 + c * 4) with (a * 64 + b * 16 + c * 4 + 0) by lia. rewrite split4_pack by lia. reflexivity.
    + rewrite split4_pack by assumption. cbn [app firstn].
      destruct (IH r) as [A B]; [cbn in Hn; lia|assumption|]. rewrite A. split; [reflexivity|].
      unfold zlen in *. cbn [length]. rewrite Nat2Z.inj_succ, B. unfold div_round_up.
      destruct (Z.eqb_spec (Z.of_nat (length r)) 0) as [E|E]; destruct (Z.eqb_spec (Z.of_nat (S (S (S (S (length r)))))) 0); try lia.
      all: dlia.
Qed.

Lemma map_firstn_comm {A B} (f : A -> B) n l : firstn n (map f l) = map f (firstn n l).
Proof. revert l. induction n; intros [|x l]; cbn; congruence. Qed.

(** ** leb *)
Lemma rb_top b : 0 <= b < 256 -> read_bit b 0 = (128 <=? b).
Proof. intro H. unfold read_bit, read_bits. change (2 ^ (8 - (0 + 1))) with 128. change (2 ^ (0 + 1 - 0)) with 2. apply eq_true_iff_eq. rewrite Z.ltb_lt, Z.leb_le. dlia. Qed.
Lemma rb_low b : 0 <= b < 256 -> read_bits b 1 8 = b mod 128.
Proof. intro H. unfold read_bits. change (2 ^ (8 - 8)) with 1. change (2 ^ (8 - 1)) with 128. rewrite Z.div_1_r. reflexivity. Qed.

Lemma leb_parse fuel : forall v idx acc rest, (1 <= fuel)%nat -> 0 <= v < 2 ^ (7 * Z.of_nat fuel) -> 0 <= idx -> idx + Z.of_nat fuel = 9 ->
  leb_from idx acc (leb fuel v ++ rest) = Some (acc + v * 2 ^ (7 * idx), rest).
Proof.
  induction fuel as [|f IH]; intros v i acc rest H1 Hv Hi Hs; [lia|]. cbn [leb].
  destruct (Z.ltb_spec v 128) as [L|L].
  - cbn [app leb_from]. rewrite rb_top, rb_low by lia. destruct (Z.leb_spec 128 v); [lia|]. cbn [negb orb].
    rewrite Z.mod_small by lia. reflexivity.
  - cbn [app leb_from].
    assert (0 <= v mod 128 < 128) by (apply Z.mod_pos_bound; lia).
    rewrite rb_top, rb_low by lia. destruct (Z.leb_spec 128 (v mod 128 + 128)); [|lia]. cbn [negb orb].
    assert (f <> 0)%nat as Nf.
    { intros ->. replace (7 * Z.of_nat 1) with 7 in Hv by lia. change (2 ^ 7) with 128 in Hv. lia. }
    destruct (Z.eqb_spec i 8); [lia|].
    replace ((v mod 128 + 128) mod 128) with (v mod 128) by (clear; dlia).
    rewrite IH; try lia.
    + f_equal. f_equal. replace (7 * (i + 1)) with (7 * i + 7) by lia. rewrite Z.pow_add_r by lia. change (2 ^ 7) with 128.
      rewrite (Z.div_mod v 128) at 3 by lia. ring.
    + replace (7 * Z.of_nat (S f)) with (7 * Z.of_nat f + 7) in Hv by lia. rewrite Z.pow_add_r in Hv by lia. change (2 ^ 7) with 128 in Hv.
      split; [apply Z.div_pos; lia|]. apply Z.div_lt_upper_bound; lia.
Qed.

Lemma parse_rates_ok rs rest : Forall (fun r => 0 <= r < 2 ^ 63) rs ->
  parse_rates (length rs) (flat_map (leb 9) rs ++ rest) = (rs, rest).
Proof.
  induction 1 as [|r rs H F IH]; [reflexivity|]. cbn [length parse_rates flat_map]. rewrite <- app_assoc.
  unfold parse_leb. rewrite leb_parse by (cbn; lia). cbn [Z.mul Z.add]. rewrite IH. f_equal. f_equal. change (2 ^ 0) with 1. lia.
Qed.

(** ** building *)
Lemma next_res_ok l more : res_ok (sp_res l) -> res_prefix (l :: more) ->
  next_res (flat_map res_bytes (l :: more)) = Ok (sp_res l, flat_map res_bytes more).
Proof.
  intros R P. cbn [flat_map res_prefix] in *. unfold res_bytes at 1. destruct (sp_res l) as [[[w h] f]|] eqn:E.
  - cbn [res_ok] in R. unfold be16. cbn [app next_res].
    destruct R as (R1 & R2 & R3).
    replace (rd16 ((w - 1) / 256 mod 256) ((w - 1) mod 256)) with (w - 1) by (unfold rd16; clear - R1; dlia).
    replace (rd16 ((h - 1) / 256 mod 256) ((h - 1) mod 256)) with (h - 1) by (unfold rd16; clear - R2; dlia).
    destruct (Z.eqb_spec (w - 1) 65535); [lia|]. destruct (Z.eqb_spec (h - 1) 65535); [lia|]. cbn [orb].
    do 3 f_equal. f_equal. f_equal; lia.
  - cbn [app]. assert (flat_map res_bytes more = []) as ->; [|reflexivity].
    clear - P. induction P as [|x more H F IH]; [reflexivity|]. cbn [flat_map]. unfold res_bytes at 1. rewrite H. exact IH.
Qed.

Lemma res_prefix_tl l more : res_prefix (l :: more) -> res_prefix more.
Proof.
  cbn [res_prefix]. destruct (sp_res l); [tauto|]. intro F. induction F; cbn; [exact I|]. rewrite H. exact F.
Qed.
Lemma res_prefix_app a b : res_prefix (a ++ b) -> res_prefix b.
Proof. induction a; cbn [app]; [tauto|]. intro H. apply IHa. eapply res_prefix_tl. exact H. Qed.

Definition tlen (l : spatial) : Z := zlen (sp_tl l).

Lemma build_stream_ok s more : forall cs rs, Forall layer_ok s -> res_prefix (filter active s ++ more) ->
  build_stream (map active s) (map tlen (filter active s) ++ cs) (flat_map sp_tl (filter active s) ++ rs)
    (flat_map res_bytes (filter active s ++ more))
  = Ok (s, (cs, rs, flat_map res_bytes more)).
Proof.
  induction s as [|l s IH]; intros cs rs F P; [reflexivity|]. inversion F as [|? ? F1 F2]; subst.
  cbn [map filter] in *. unfold layer_ok in F1. destruct (active l) eqn:A.
  - cbn [map build_stream app flat_map] in *. change (res_bytes l ++ flat_map res_bytes (filter active s ++ more)) with (flat_map res_bytes (l :: filter active s ++ more)).
    rewrite next_res_ok; [|tauto|exact P]. cbn [bind]. rewrite <- !app_assoc.
    replace (Z.to_nat (tlen l)) with (length (sp_tl l)) by (unfold tlen, zlen; rewrite Nat2Z.id; reflexivity).
    rewrite skipn_app, skipn_all, Nat.sub_diag. cbn [skipn app].
    rewrite IH; [|exact F2|eapply res_prefix_tl; exact P]. cbn [bind].
    rewrite firstn_app, firstn_all, Nat.sub_diag. cbn [firstn]. rewrite app_nil_r. destruct l; reflexivity.
  - cbn [build_stream]. rewrite IH by assumption. cbn [bind]. do 2 f_equal. destruct l as [tl r]. cbn in *. subst r.
    unfold active in A. cbn in A. destruct tl; [reflexivity|discriminate].
Qed.

Lemma build_ok ss : Forall (Forall layer_ok) ss -> res_prefix (filter active (concat ss)) ->
  build (map (map active) ss) (map tlen (filter active (concat ss))) (flat_map sp_tl (filter active (concat ss)))
    (flat_map res_bytes (filter active (concat ss))) = Ok ss.
Proof.
  induction ss as [|s ss IH]; intros F P; [reflexivity|]. inversion F as [|? ? F1 F2]; subst. cbn [concat map build] in *. rewrite filter_app in *.
  rewrite !map_app, flat_map_app. rewrite build_stream_ok by assumption. cbn [bind].
  rewrite IH; [reflexivity|exact F2|eapply res_prefix_app; exact P].
Qed.

Lemma count_active_ok ss : count_active (map (map active) ss) = zlen (filter active (concat ss)).
Proof.
  unfold count_active. f_equal. unfold zlen. f_equal.
  rewrite <- concat_map. induction (concat ss) as [|x l IH]; [reflexivity|]. cbn [map filter]. destruct (active x); cbn [length]; congruence.
Qed.

Lemma sum_tlen ls : sum (map tlen ls) = zlen (flat_map sp_tl ls).
Proof.
  induction ls as [|l ls IH]; [reflexivity|]. cbn [map flat_map]. unfold sum in *. cbn [fold_right]. rewrite IH.
  unfold tlen, zlen. rewrite app_length. lia.
Qed.

Lemma uniform_map ss : uniform ss = true -> map bitmask ss = rep (bitmask (hd [] ss)) (zlen ss) /\ bitmask (hd [] ss) <> 0.
Proof.
  unfold uniform. intro H. apply andb_true_iff in H as [H N]. apply negb_true_iff, Z.eqb_neq in N. split; [|exact N].
  unfold rep, zlen. rewrite Nat2Z.id. clear N. generalize (bitmask (hd [] ss)) as m, H. clear. intros m H.
  induction ss as [|s ss IH]; [reflexivity|]. cbn [forallb map length repeat] in *. apply andb_true_iff in H as [E H].
  apply Z.eqb_eq in E. rewrite E, IH by exact H. reflexivity.
Qed.

Lemma split_at_app a b n : n = zlen a -> split_at (a ++ b) n = Some (a, b).
Proof.
  intros ->. unfold split_at, zlen. rewrite app_length. destruct (Z.ltb_spec (Z.of_nat (length a + length b)) (Z.of_nat (length a))); [lia|].
  rewrite Nat2Z.id, firstn_app, firstn_all, skipn_app, skipn_all, Nat.sub_diag. cbn. rewrite app_nil_r. reflexivity.
Qed.

Lemma map_repeat {A B} (f : A -> B) x n : map f (repeat x n) = repeat (f x) n.
Proof. induction n; cbn; congruence. Qed.

Lemma in_layers v l : In l (layers v) -> Forall stream_ok (v_streams v) -> active l = true /\ layer_ok l.
Proof.
  unfold layers. intros H F. apply filter_In in H as [H A]. split; [exact A|]. apply in_concat in H as [s [S1 S2]].
  rewrite Forall_forall in F. destruct (F _ S1) as (_ & G & _). rewrite Forall_forall in G. apply G. exact S2.
Qed.

Theorem parse_enc v : vla_ok v -> parse (enc v) = Ok v.
Proof.
  intros (C & N & F & P). unfold enc. set (ss := v_streams v) in *. set (L := layers v) in *.
  set (CB := pack4 (map (fun l => zlen (sp_tl l) - 1) L)).
  set (RB := flat_map (leb 9) (flat_map sp_tl L)). set (RS := flat_map res_bytes L).
  assert (Forall (fun s => 0 <= bitmask s < 16) ss) as FB.
  { eapply Forall_impl; [|exact F]. intros s (A & _). apply bitmask_range. exact A. }
  assert (0 <= bitmask (hd [] ss) < 16) as HB.
  { destruct ss; cbn [hd bitmask]; [lia|]. inversion FB; assumption. }
  assert (Forall (fun x => 0 <= x < 4) (map (fun l => zlen (sp_tl l) - 1) L)) as FC.
  { apply Forall_forall. intros x Hx. apply in_map_iff in Hx as [l [<- Hl]]. destruct (in_layers _ _ Hl F) as [A LO].
    unfold layer_ok in LO. rewrite A in LO. destruct LO as (LO & _). unfold active in A. destruct (sp_tl l); [discriminate|].
    unfold zlen in *. cbn [length] in *. lia. }
  assert (map lower4 (map bitmask ss) = map (map active) ss) as LM.
  { rewrite map_map. apply map_ext_in. intros s Hs. apply lower4_bitmask. rewrite Forall_forall in F. auto. }
  set (sh := if uniform ss then bitmask (hd [] ss) else 0). 
  assert (0 <= sh < 16) as HS by (unfold sh; destruct (uniform ss); lia).
  set (b0 := v_cur v * 64 + (zlen ss - 1) * 16 + sh).
  assert (read_bits b0 0 2 = v_cur v) as R1.
  { unfold read_bits, b0. change (2 ^ (8 - 2)) with 64. change (2 ^ (2 - 0)) with 4. clear - C N HS. dlia. }
  assert (read_bits b0 2 4 = zlen ss - 1) as R2.
  { unfold read_bits, b0. change (2 ^ (8 - 4)) with 16. change (2 ^ (4 - 2)) with 4. clear - C N HS. dlia. }
  assert (read_bits b0 4 8 = sh) as R3.
  { unfold read_bits, b0. change (2 ^ (8 - 8)) with 1. change (2 ^ (8 - 4)) with 16. clear - C N HS. dlia. }
  cbn [app parse]. rewrite R1, R2, R3. replace (zlen ss - 1 + 1) with (zlen ss) by lia.
  set (MB := if uniform ss then [] else pack2 (map bitmask ss)).
  assert (forall A (x : A) (l : list A), zlen (x :: l) =? 0 = false) as ZC by (intros; unfold zlen; cbn [length]; apply Z.eqb_neq; lia).
  destruct (pack2_spec (length (map bitmask ss)) (map bitmask ss) (le_n _)) as [PA PB].
  { clear - FB. induction FB; constructor; auto. }
  rewrite map_length in PA.
  destruct (pack4_spec (length (map (fun l => zlen (sp_tl l) - 1) L)) _ (le_n _) FC) as [QA QB]. rewrite map_length in QA.
  assert ((b0 =? 0) && (zlen (MB ++ CB ++ RB ++ RS) =? 0) = false) as NZ.
  { unfold MB. destruct (uniform ss) eqn:U.
    - apply andb_false_intro1. apply Z.eqb_neq. unfold b0, sh. destruct (uniform_map _ U) as [_ U2]. lia.
    - apply andb_false_intro2. apply Z.eqb_neq. unfold zlen. rewrite app_length.
      assert (0 < zlen (pack2 (map bitmask ss))); [|unfold zlen in *; lia]. rewrite PB. unfold zlen at 1. rewrite map_length. fold (zlen ss).
      unfold div_round_up. destruct (Z.eqb_spec (zlen ss) 0); [lia|]. clear - N. dlia. }
  rewrite NZ.
  assert ((if 0 <? sh then Some (rep (lower4 sh) (zlen ss), MB ++ CB ++ RB ++ RS)
           else match split_at (MB ++ CB ++ RB ++ RS) (div_round_up (zlen ss) 2) with
                | Some (m, rest) => Some (map lower4 (firstn (Z.to_nat (zlen ss)) (flat_map split2 m)), rest)
                | None => None end) = Some (map (map active) ss, CB ++ RB ++ RS)) as ->.
  { unfold sh, MB. destruct (uniform ss) eqn:U.
    - destruct (uniform_map _ U) as [U1 U2]. destruct (Z.ltb_spec 0 (bitmask (hd [] ss))); [|lia]. cbn [app].
      rewrite <- LM, U1. unfold rep. rewrite map_repeat. reflexivity.
    - cbn [Z.ltb Z.compare]. rewrite split_at_app by (rewrite PB; unfold zlen; rewrite map_length; reflexivity).
      unfold zlen at 1. rewrite Nat2Z.id, PA, LM. reflexivity. }
  rewrite count_active_ok. fold L. change (filter active (concat ss)) with L.
  rewrite split_at_app by (unfold CB; rewrite QB; unfold zlen; rewrite map_length; reflexivity).
  assert (firstn (Z.to_nat (zlen L)) (map (fun x => x + 1) (flat_map split4 CB)) = map tlen L) as ->.
  { rewrite map_firstn_comm. unfold zlen at 1. rewrite Nat2Z.id. unfold CB. rewrite QA, map_map. apply map_ext. intro l. unfold tlen. lia. }
  rewrite sum_tlen. unfold zlen at 1. rewrite Nat2Z.id. unfold RB. rewrite parse_rates_ok.
  2: { apply Forall_forall. intros r Hr. apply in_flat_map in Hr as [l [Hl Hr]]. destruct (in_layers _ _ Hl F) as [A LO].
       unfold layer_ok in LO. rewrite A in LO. destruct LO as (_ & LO & _). rewrite Forall_forall in LO. auto. }
  unfold RS, L, layers. fold ss. rewrite build_ok.
  - cbn [bind]. unfold ss. destruct v; reflexivity.
  - eapply Forall_impl; [|exact F]. intros s (_ & A & _). exact A.
  - exact P.
Qed.

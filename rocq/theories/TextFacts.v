(** Facts about strings, numbers and parsers. *)
From Coq Require Import String Ascii.
From Verif Require Import Base BaseFacts TextModel.

Lemma seqb_refl : forall a, seqb a a = true.
Proof. induction a as [|x a IH]; [reflexivity|]. cbn. rewrite Z.eqb_refl, IH. reflexivity. Qed.
Lemma seqb_eq : forall a b, seqb a b = true <-> a = b.
Proof.
  induction a as [|x a IH]; destruct b as [|y b]; cbn; split; intro H; try congruence; try reflexivity.
  - apply andb_prop in H. destruct H as [H1 H2]. apply Z.eqb_eq in H1. apply IH in H2. congruence.
  - inversion H; subst. rewrite Z.eqb_refl. cbn. apply IH. reflexivity.
Qed.
Lemma seqb_neq : forall a b, a <> b -> seqb a b = false.
Proof. intros a b H. destruct (seqb a b) eqn:E; [|reflexivity]. apply seqb_eq in E. congruence. Qed.

(** ** span, take1, skip *)
Definition stop (f : Z -> bool) (r : str) : Prop := match r with [] => True | c :: _ => f c = false end.
Lemma span_app : forall f w r, Forall (fun c => f c = true) w -> stop f r -> span f (w ++ r) = (w, r).
Proof.
  intros f w r H S. induction H as [|c w Hc H IH]; cbn [app span].
  - destruct r as [|d r]; [reflexivity|]. cbn in S. cbn. rewrite S. reflexivity.
  - rewrite Hc, IH. reflexivity.
Qed.
Lemma take1_ok : forall f w r, w <> [] -> Forall (fun c => f c = true) w -> stop f r -> take1 f (w ++ r) = POk true w r.
Proof. intros f w r N H S. unfold take1. rewrite span_app by assumption. destruct w; [congruence|reflexivity]. Qed.
Lemma skip_none : forall f r, stop f r -> skip f r = POk false tt r.
Proof. intros f r S. unfold skip. pose proof (span_app f [] r (Forall_nil _) S) as E. cbn [app] in E. rewrite E. reflexivity. Qed.

(** ** literals *)
Lemma lit_go_ok : forall l b r, l <> [] -> lit_go l b (l ++ r) = POk true tt r.
Proof.
  assert (G : forall l r, lit_go l true (l ++ r) = POk true tt r).
  { induction l as [|c l IH]; intro r; [reflexivity|]. cbn. rewrite Z.eqb_refl. apply IH. }
  intros [|c l] b r N; [congruence|]. cbn. rewrite Z.eqb_refl. apply G.
Qed.
Lemma lit_ok : forall l r, l <> [] -> lit l (l ++ r) = POk true tt r.
Proof. intros. apply lit_go_ok. assumption. Qed.
Fixpoint prefixb (p s : str) : bool :=
  match p, s with
  | [], _ => true
  | x :: p, y :: s => (x =? y) && prefixb p s
  | _ :: _, [] => false
  end.
Lemma lit_go_fail : forall l b s, prefixb l s = false -> exists c, lit_go l b s = PErr c.
Proof.
  induction l as [|x l IH]; intros b s H; [discriminate|]. destruct s as [|y s]; [eexists; reflexivity|].
  cbn in *. destruct (x =? y); [apply IH; exact H|eexists; reflexivity].
Qed.
Lemma lit_go_pre : forall l b s, prefixb l s = true -> exists c, lit_go l b s = POk c tt (skipn (length l) s).
Proof.
  induction l as [|x l IH]; intros b s H; [eexists; reflexivity|]. destruct s as [|y s]; [discriminate|].
  cbn in *. destruct (x =? y); [|discriminate]. apply IH. exact H.
Qed.
Lemma prefixb_app : forall p q s, prefixb (p ++ q) s = prefixb p s && prefixb q (skipn (length p) s).
Proof.
  induction p as [|x p IH]; intros q s; [reflexivity|]. destruct s as [|y s]; [reflexivity|].
  cbn. rewrite IH. apply andb_assoc.
Qed.

(** ** sequences *)
Lemma pbind_ok : forall A B (p : parser A) (k : A -> parser B) s c v r c' w r',
  p s = POk c v r -> k v r = POk c' w r' -> pbind p k s = POk (c || c') w r'.
Proof. intros. unfold pbind. rewrite H, H0. reflexivity. Qed.
Lemma pbind_okt : forall A B (p : parser A) (k : A -> parser B) s v r c' w r',
  p s = POk true v r -> k v r = POk c' w r' -> pbind p k s = POk true w r'.
Proof. intros. unfold pbind. rewrite H, H0. reflexivity. Qed.
Definition fails {A} (p : parser A) (s : str) : Prop := exists c, p s = PErr c.
Lemma fails_bind1 : forall A B (p : parser A) (k : A -> parser B) s, fails p s -> fails (pbind p k) s.
Proof. intros A B p k s [c H]. exists c. unfold pbind. rewrite H. reflexivity. Qed.
Lemma fails_bind2 : forall A B (p : parser A) (k : A -> parser B) s c v r, p s = POk c v r -> fails (k v) r -> fails (pbind p k) s.
Proof. intros A B p k s c v r H [c' H']. exists (c || c'). unfold pbind. rewrite H, H'. reflexivity. Qed.
Lemma fails_map : forall A B (f : A -> B) p s, fails p s -> fails (pmap f p) s.
Proof. intros A B f p s [c H]. exists c. unfold pmap. rewrite H. reflexivity. Qed.
Lemma fails_attempt : forall A (p : parser A) s, fails p s -> attempt p s = PErr false.
Proof. intros A p s [c H]. unfold attempt. rewrite H. reflexivity. Qed.
Lemma attempt_ok : forall A (p : parser A) s c v r, p s = POk c v r -> attempt p s = POk c v r.
Proof. intros. unfold attempt. rewrite H. reflexivity. Qed.
Lemma pmap_ok : forall A B (f : A -> B) p s c v r, p s = POk c v r -> pmap f p s = POk c (f v) r.
Proof. intros. unfold pmap. rewrite H. reflexivity. Qed.
Lemma pand_ok : forall A B (f : A -> option B) p s c v r w, p s = POk c v r -> f v = Some w -> pand p f s = POk c w r.
Proof. intros. unfold pand. rewrite H, H0. reflexivity. Qed.
Lemma optional_some : forall A (p : parser A) s c v r, p s = POk c v r -> optional p s = POk c (Some v) r.
Proof. intros. unfold optional. rewrite H. reflexivity. Qed.
Lemma optional_none : forall A (p : parser A) s, p s = PErr false -> optional p s = POk false None s.
Proof. intros. unfold optional. rewrite H. reflexivity. Qed.
Lemma choice_hit : forall A (p : parser A) l s c v r, p s = POk c v r -> choice (p :: l) s = POk c v r.
Proof. intros. cbn. rewrite H. reflexivity. Qed.
Lemma choice_skip : forall A (p : parser A) l s, p s = PErr false -> choice (p :: l) s = choice l s.
Proof. intros. cbn. rewrite H. reflexivity. Qed.
Lemma bind_peek : forall A B (p : parser A) (k : A -> parser B) s, p s = PErr false -> pbind p k s = PErr false.
Proof. intros. unfold pbind. rewrite H. reflexivity. Qed.

(** ** repetition: [l] pairs each piece of text with what is read *)
Lemma many_go_ok : forall A (p : parser A) (l : list (str * A)) tail fuel b,
  (forall w v r, In (w, v) l -> p (w ++ r) = POk true v r) -> (forall w v, In (w, v) l -> w <> []) ->
  p tail = PErr false ->
  (length (List.concat (map fst l) ++ tail) <= fuel)%nat ->
  exists c, many_go fuel p b (List.concat (map fst l) ++ tail) = POk c (map snd l) tail.
Proof.
  intros A p l. induction l as [|[w v] l IH]; intros tail fuel b Hp Hn He Hf; cbn [map List.concat fst snd app] in *.
  - destruct fuel as [|f]; cbn [many_go]; [|rewrite He]; eexists; reflexivity.
  - rewrite <- app_assoc in *. destruct fuel as [|f].
    + rewrite app_length in Hf. specialize (Hn w v (or_introl eq_refl)). destruct w; [congruence|cbn in Hf; lia].
    + cbn [many_go]. rewrite (Hp w v) by (left; reflexivity).
      destruct (IH tail f true) as [c E].
      * intros; apply Hp; right; assumption.
      * intros; eapply Hn; right; eassumption.
      * assumption.
      * rewrite app_length in Hf. specialize (Hn w v (or_introl eq_refl)). destruct w; [congruence|cbn in Hf; lia].
      * rewrite E. exists c. reflexivity.
Qed.
Lemma many_ok : forall A (p : parser A) (l : list (str * A)) tail,
  (forall w v r, In (w, v) l -> p (w ++ r) = POk true v r) -> (forall w v, In (w, v) l -> w <> []) ->
  p tail = PErr false ->
  exists c, many p (List.concat (map fst l) ++ tail) = POk c (map snd l) tail.
Proof. intros. unfold many. apply many_go_ok; auto. Qed.

(** separated lists *)
Definition sepd (sep : Z) (l : list str) : str := List.concat (map (cons sep) l).
Lemma join_sepd : forall sep l x, join [sep] (x :: l) = x ++ sepd sep l.
Proof.
  intros sep l. induction l as [|y l IH]; intro x; [cbn; rewrite app_nil_r; reflexivity|].
  change (join [sep] (x :: y :: l)) with (x ++ [sep] ++ join [sep] (y :: l)). rewrite IH. reflexivity.
Qed.
Lemma many_sep : forall A (p : parser A) sep (l : list (str * A)) tail fuel b,
  (forall w v r, In (w, v) l -> (exists s, r = sep :: s) \/ r = tail -> p (w ++ r) = POk true v r) ->
  (match tail with [] => True | c :: _ => c <> sep end) ->
  (length (sepd sep (map fst l) ++ tail) <= fuel)%nat ->
  exists c, many_go fuel (pbind (token sep) (fun _ => p)) b (sepd sep (map fst l) ++ tail) = POk c (map snd l) tail.
Proof.
  intros A p sep l. induction l as [|[w v] l IH]; intros tail fuel b Hp He Hf; unfold sepd in *; cbn [map List.concat fst snd app] in *.
  - destruct fuel as [|f]; cbn [many_go]; [eexists; reflexivity|].
    assert (E : pbind (token sep) (fun _ => p) tail = PErr false).
    { apply bind_peek. destruct tail as [|c t]; cbn; [reflexivity|].
      destruct (Z.eqb_spec sep c); [congruence|reflexivity]. }
    rewrite E. eexists; reflexivity.
  - rewrite <- app_assoc in *. destruct fuel as [|f].
    + cbn in Hf. lia.
    + cbn [many_go]. cbn [length] in Hf.
      set (T0 := List.concat (map (cons sep) (map fst l)) ++ tail) in *.
      assert (E : pbind (token sep) (fun _ => p) (sep :: w ++ T0) = POk true v T0).
      { unfold pbind, token, satisfy. rewrite Z.eqb_refl. rewrite (Hp w v); [reflexivity|left; reflexivity|].
        subst T0. destruct l as [|[w' v'] l]; [right; reflexivity|left; cbn; eexists; reflexivity]. }
      rewrite E. destruct (IH tail f true) as [c E'].
      * intros. apply Hp; [right; assumption|assumption].
      * assumption.
      * rewrite app_length in Hf. subst T0. lia.
      * subst T0. rewrite E'. eexists; reflexivity.
Qed.
(** sep_by1 over at least one element; [P] is what may follow an element *)
Lemma sep_by1_ok : forall A (p : parser A) sep (l : list (str * A)) tail,
  l <> [] ->
  (forall w v r, In (w, v) l -> (exists s, r = sep :: s) \/ r = tail -> p (w ++ r) = POk true v r) ->
  (match tail with [] => True | c :: _ => c <> sep end) ->
  sep_by1 p (token sep) (join [sep] (map fst l) ++ tail) = POk true (map snd l) tail.
Proof.
  intros A p sep l tail N Hp He. destruct l as [|[w v] l]; [congruence|].
  cbn [map fst snd]. rewrite join_sepd, <- app_assoc. unfold sep_by1.
  destruct (many_sep A p sep l tail (length (sepd sep (map fst l) ++ tail)) false) as [c E].
  - intros. apply Hp; [right; assumption|assumption].
  - assumption.
  - lia.
  - eapply pbind_okt.
    + apply Hp; [left; reflexivity|]. destruct l as [|[w' v'] l]; [right; reflexivity|left; cbn; eexists; reflexivity].
    + unfold pmap, many. rewrite E. reflexivity.
Qed.

(** ** numbers *)
Definition dig_ok (base c : Z) : Prop := exists d, digit_val base c = Some d.
Lemma digit_back : forall up base d, 2 <= base <= 16 -> 0 <= d < base -> digit_val base (digit_chr up d) = Some d.
Proof.
  intros up base d Hb Hd. unfold digit_chr, digit_val, is_digit.
  destruct (Z.ltb_spec d 10).
  - replace ((48 <=? 48 + d) && (48 + d <=? 57)) with true by lia. replace (48 + d - 48) with d by lia.
    destruct (Z.ltb_spec d base); [reflexivity|lia].
  - destruct up.
    + replace ((48 <=? 55 + d) && (55 + d <=? 57)) with false by lia.
      replace ((65 <=? 55 + d) && (55 + d <=? 70)) with true by lia.
      replace (55 + d - 55) with d by lia. destruct (Z.ltb_spec d base); [reflexivity|lia].
    + replace ((48 <=? 87 + d) && (87 + d <=? 57)) with false by lia.
      replace ((65 <=? 87 + d) && (87 + d <=? 70)) with false by lia.
      replace ((97 <=? 87 + d) && (87 + d <=? 102)) with true by lia.
      replace (87 + d - 87) with d by lia. destruct (Z.ltb_spec d base); [reflexivity|lia].
Qed.
Lemma num_val_app : forall base s t acc v, num_val base s acc = Some v -> num_val base (s ++ t) acc = num_val base t v.
Proof.
  intros base s. induction s as [|c s IH]; intros t acc v H; cbn in *; [injection H as <-; reflexivity|].
  destruct (digit_val base c); [|discriminate]. eapply IH. exact H.
Qed.
Lemma num_go_val : forall fuel up base n acc, 2 <= base <= 16 -> 0 <= n -> Z.log2 n < Z.of_nat fuel ->
  exists w, num_go fuel up base n acc = w ++ acc /\ w <> [] /\ Forall (dig_ok base) w /\ num_val base w 0 = Some n.
Proof.
  induction fuel as [|f IH]; intros up base n acc Hb Hn Hf; [pose proof (Z.log2_nonneg n); lia|].
  cbn [num_go]. destruct (Z.ltb_spec n base) as [L|L].
  - exists [digit_chr up n]. repeat split.
    + discriminate.
    + constructor; [|constructor]. eexists. apply digit_back; lia.
    + cbn [num_val]. rewrite digit_back by lia. f_equal.
  - assert (Hdiv : 0 < n / base) by (apply Z.div_str_pos; lia).
    assert (Hmod : 0 <= n mod base < base) by (apply Z.mod_pos_bound; lia).
    destruct (IH up base (n / base) (digit_chr up (n mod base) :: acc) Hb) as (w & E & Nw & D & V).
    + lia.
    + assert (n / base <= n / 2) by (apply Z.div_le_compat_l; lia).
      assert (Z.log2 (n / base) <= Z.log2 (n / 2)) by (apply Z.log2_le_mono; assumption).
      assert (n / 2 = Z.shiftr n 1) by (rewrite Z.shiftr_div_pow2 by lia; reflexivity).
      rewrite H1 in H0. rewrite Z.log2_shiftr in H0 by lia. assert (0 < Z.log2 n) by (apply Z.log2_pos; lia). lia.
    + exists (w ++ [digit_chr up (n mod base)]). rewrite E, <- app_assoc. repeat split.
      * destruct w; discriminate.
      * apply Forall_app. split; [exact D|]. constructor; [|constructor]. eexists. apply digit_back; lia.
      * rewrite (num_val_app _ _ _ _ _ V). cbn [num_val]. rewrite digit_back by lia. f_equal.
        rewrite (Z.div_mod n base) at 3 by lia. lia.
Qed.
Lemma show_num_val : forall up base n, 2 <= base <= 16 -> 0 <= n ->
  show_num up base n <> [] /\ Forall (dig_ok base) (show_num up base n) /\ num_val base (show_num up base n) 0 = Some n.
Proof.
  intros up base n Hb Hn. unfold show_num.
  destruct (num_go_val (S (Z.to_nat (Z.log2 n))) up base n [] Hb Hn) as (w & E & N & D & V).
  - pose proof (Z.log2_nonneg n). lia.
  - rewrite E, app_nil_r. auto.
Qed.
Lemma dig_not_plus : forall base c, dig_ok base c -> c <> 43.
Proof. intros base c [d H] ->. cbn in H. discriminate. Qed.
Lemma read_num_val : forall base max s v, s <> [] -> Forall (dig_ok base) s -> num_val base s 0 = Some v -> v <= max ->
  read_num base max s = Some v.
Proof.
  intros base max s v N D V L. destruct s as [|c s]; [congruence|].
  inversion D as [|? ? Hc ?]; subst. apply dig_not_plus in Hc.
  assert (E : read_num base max (c :: s) =
    match num_val base (c :: s) 0 with Some v => if v <=? max then Some v else None | None => None end).
  { unfold read_num. destruct c as [|p|p]; try reflexivity. repeat (destruct p as [p|p|]; try reflexivity; try congruence). }
  rewrite E, V. destruct (Z.leb_spec v max); [reflexivity|lia].
Qed.
Lemma num_val_zeros : forall base k s acc, num_val base (repeat 48 k ++ s) acc = num_val base s (acc * base ^ Z.of_nat k) \/ base < 2.
Proof.
  intros base k. destruct (Z.ltb_spec base 2); [intros; right; assumption|].
  induction k as [|k IH]; intros s acc; left.
  - cbn [repeat app]. replace (acc * base ^ Z.of_nat 0) with acc; [reflexivity|]. cbn. lia.
  - cbn [repeat app num_val]. assert (E0 : digit_val base 48 = Some 0).
    { unfold digit_val. cbn. destruct (Z.ltb_spec 0 base); [reflexivity|lia]. }
    rewrite E0. destruct (IH s (acc * base + 0)) as [E|]; [|lia]. rewrite E. f_equal.
    rewrite Nat2Z.inj_succ, Z.pow_succ_r by lia. lia.
Qed.
Lemma pad_num : forall up base w n, 2 <= base <= 16 -> 0 <= n ->
  pad w (show_num up base n) <> [] /\ Forall (dig_ok base) (pad w (show_num up base n)) /\
  num_val base (pad w (show_num up base n)) 0 = Some n.
Proof.
  intros up base w n Hb Hn. destruct (show_num_val up base n Hb Hn) as (N & D & V). unfold pad. repeat split.
  - destruct (show_num up base n); [congruence|]. destruct (repeat 48 _); discriminate.
  - apply Forall_app. split; [|exact D]. apply Forall_forall. intros c Hc. apply repeat_spec in Hc. subst.
    exists 0. unfold digit_val. cbn. destruct (Z.ltb_spec 0 base); [reflexivity|lia].
  - destruct (num_val_zeros base (Z.to_nat (w - zlen (show_num up base n))) (show_num up base n) 0) as [E|]; [|lia].
    rewrite E. cbn. exact V.
Qed.
Lemma read_dec : forall max n, 0 <= n <= max -> read_num 10 max (dec n) = Some n.
Proof. intros max n H. destruct (show_num_val false 10 n) as (N & D & V); try lia. apply read_num_val; auto; lia. Qed.
Lemma read_hex_pad : forall w max up n, 0 <= n <= max -> read_num 16 max (pad w (show_num up 16 n)) = Some n.
Proof. intros w max up n H. destruct (pad_num up 16 w n) as (N & D & V); try lia. apply read_num_val; auto; lia. Qed.
(** what digits are *)
Lemma dig10 : forall c, dig_ok 10 c -> 48 <= c <= 57.
Proof.
  intros c [d H]. unfold digit_val, is_digit in H.
  destruct ((48 <=? c) && (c <=? 57)) eqn:A; [lia|].
  destruct ((65 <=? c) && (c <=? 70)) eqn:B; [destruct (Z.ltb_spec (c - 55) 10); [lia|discriminate]|].
  destruct ((97 <=? c) && (c <=? 102)) eqn:C; [destruct (Z.ltb_spec (c - 87) 10); [lia|discriminate]|discriminate].
Qed.
Lemma dig16 : forall c, dig_ok 16 c -> 48 <= c <= 57 \/ 65 <= c <= 70 \/ 97 <= c <= 102.
Proof.
  intros c [d H]. unfold digit_val, is_digit in H.
  destruct ((48 <=? c) && (c <=? 57)) eqn:A; [lia|].
  destruct ((65 <=? c) && (c <=? 70)) eqn:B; [lia|].
  destruct ((97 <=? c) && (c <=? 102)) eqn:C; [lia|discriminate].
Qed.
Lemma dec_digits : forall n, 0 <= n -> dec n <> [] /\ Forall (fun c => 48 <= c <= 57) (dec n).
Proof.
  intros n H. destruct (show_num_val false 10 n) as (N & D & V); try lia. split; [exact N|].
  eapply Forall_impl; [|exact D]. intros c. apply dig10.
Qed.

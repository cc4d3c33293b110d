(** C22: [ReportList] behaves as a list of at most 31 items. *)
From Verif Require Import Base BaseFacts RlistModel RlistSpec.

Section P.
Context {A : Type}.
Implicit Types l : list A.

Lemma lset_mid {B} (x : list B) y z v : lset (x ++ y :: z) (length x) v = x ++ v :: z.
Proof. induction x; cbn; congruence. Qed.
Lemma nth_mid {B} (x : list B) y z : nth_error (x ++ y :: z) (length x) = Some y.
Proof. induction x; cbn; auto. Qed.
Lemma aset_mid (x : list (option A)) y z v i : i = zlen x -> aset (x ++ y :: z) i v = Ok (x ++ v :: z).
Proof.
  intros ->. unfold aset. rewrite zlen_app, zlen_cons.
  pose proof (zlen_nonneg x); pose proof (zlen_nonneg z).
  destruct ((0 <=? zlen x) && (zlen x <? zlen x + (1 + zlen z))) eqn:E; [|lia].
  unfold zlen. rewrite Nat2Z.id, lset_mid. reflexivity.
Qed.
Lemma idx_mid {B} (x : list B) y z i : i = zlen x -> idx (x ++ y :: z) i = Ok y.
Proof.
  intros ->. unfold idx. pose proof (zlen_nonneg x). destruct (zlen x <? 0) eqn:E; [lia|].
  unfold zlen. rewrite Nat2Z.id, nth_mid. reflexivity.
Qed.

Lemma holds_length l : bounded l -> length (holds l) = 31%nat.
Proof. unfold bounded, holds. intro H. rewrite app_length, map_length, repeat_length. lia. Qed.

Lemma holds_position l n : rl_position (map Some l ++ repeat None n) =
  match n with O => None | S _ => Some (length l) end.
Proof.
  induction l as [|x l IH]; cbn.
  - destruct n; reflexivity.
  - rewrite IH. destruct n; reflexivity.
Qed.

(** list.rs default *)
Theorem C22_new : rl_new = holds (@nil A).
Proof. reflexivity. Qed.

Theorem C22_len l : bounded l -> rl_len (holds l) = zlen l.
Proof.
  unfold bounded, rl_len, holds. intro H. rewrite holds_position.
  destruct (31 - length l)%nat eqn:E; unfold zlen; lia.
Qed.

Theorem C22_empty_full l : bounded l ->
  rl_is_empty (holds l) = (match l with [] => true | _ => false end) /\
  rl_is_full (holds l) = (zlen l =? 31).
Proof.
  intro H. unfold rl_is_empty, rl_is_full. rewrite C22_len by assumption. split; [|reflexivity].
  destruct l; [reflexivity|]. rewrite zlen_cons. pose proof (zlen_nonneg l). lia.
Qed.

Lemma holds_snoc l v : (length l < 31)%nat ->
  holds l = map Some l ++ None :: repeat None (30 - length l) /\
  holds (l ++ [v]) = map Some l ++ Some v :: repeat None (30 - length l).
Proof.
  intro H. unfold holds. split.
  - replace (31 - length l)%nat with (S (30 - length l)) by lia. reflexivity.
  - rewrite map_app, <- app_assoc, app_length. cbn [map app length].
    replace (31 - (length l + 1))%nat with (30 - length l)%nat by lia. reflexivity.
Qed.

(** A push appends one item; the 32nd push panics. *)
Theorem C22_push l v : bounded l ->
  rl_push (holds l) v = if zlen l <? 31 then Ok (holds (l ++ [v])) else Panic.
Proof.
  intros H. unfold rl_push. rewrite C22_len by assumption. destruct (zlen l <? 31) eqn:E.
  - destruct (holds_snoc l v) as [-> ->]; [unfold zlen in E; lia|].
    apply aset_mid. unfold zlen. rewrite map_length. reflexivity.
  - unfold aset. assert (zlen (holds l) = 31) as -> by (unfold zlen; rewrite holds_length by assumption; reflexivity).
    unfold bounded in H.
    destruct ((0 <=? zlen l) && (zlen l <? 31)) eqn:F; [unfold zlen in *; lia|reflexivity].
Qed.

(** Indexing: the item, [None] past the end, a panic outside the array. *)
Theorem C22_get l i : bounded l -> 0 <= i ->
  rl_get (holds l) i = if i <? 31 then Ok (nth_error l (Z.to_nat i)) else Panic.
Proof.
  intros H Hi. unfold rl_get, idx. destruct (i <? 0) eqn:E; [lia|].
  destruct (i <? 31) eqn:F.
  - unfold holds. destruct (Nat.lt_ge_cases (Z.to_nat i) (length l)) as [L|L].
    + rewrite nth_error_app1 by (rewrite map_length; lia). rewrite nth_error_map.
      destruct (nth_error l (Z.to_nat i)) eqn:N; cbn; [reflexivity|].
      apply nth_error_None in N. lia.
    + rewrite nth_error_app2 by (rewrite map_length; lia). rewrite map_length.
      rewrite nth_error_repeat by lia.
      destruct (nth_error l (Z.to_nat i)) eqn:N; cbn; [|reflexivity].
      assert (nth_error l (Z.to_nat i) <> None) as Q by congruence.
      apply nth_error_Some in Q. lia.
  - pose proof (holds_length l H) as L.
    destruct (nth_error (holds l) (Z.to_nat i)) eqn:N; [|reflexivity].
    assert (nth_error (holds l) (Z.to_nat i) <> None) as Q by congruence.
    apply nth_error_Some in Q. lia.
Qed.

Theorem C22_index l i : bounded l -> 0 <= i ->
  rl_index (holds l) i = match nth_error l (Z.to_nat i) with Some v => Ok v | None => Panic end.
Proof.
  intros H Hi. unfold rl_index. pose proof (C22_get l i H Hi) as G. unfold rl_get in G. rewrite G.
  destruct (i <? 31) eqn:F; cbn [bind].
  - reflexivity.
  - destruct (nth_error l (Z.to_nat i)) eqn:N; [|reflexivity].
    assert (nth_error l (Z.to_nat i) <> None) as Q by congruence.
    apply nth_error_Some in Q. unfold bounded in H. lia.
Qed.

Lemma skipn_nth {B} (l : list B) : forall k v, nth_error l k = Some v -> skipn k l = v :: skipn (S k) l.
Proof.
  induction l as [|x l IH]; intros [|k] v H; try discriminate.
  - cbn in H. injection H as ->. reflexivity.
  - cbn in H. cbn [skipn]. rewrite (IH k v H). reflexivity.
Qed.
Lemma iter_from l : bounded l -> forall f k, (k <= length l)%nat -> (32 <= f + k)%nat ->
  rl_iter_from (holds l) f (Z.of_nat k) = Ok (skipn k l).
Proof.
  intros H. induction f as [|f IH]; intros k Hk Hf.
  - unfold bounded in H. lia.
  - cbn [rl_iter_from]. destruct (30 <? Z.of_nat k) eqn:E.
    + rewrite skipn_all2; [reflexivity|]. unfold bounded in H. lia.
    + pose proof (C22_get l (Z.of_nat k) H ltac:(lia)) as G. unfold rl_get in G. rewrite G.
      destruct (Z.of_nat k <? 31) eqn:F; [|lia]. cbn [bind]. rewrite Nat2Z.id.
      destruct (nth_error l k) eqn:N.
      * assert (nth_error l k <> None) as Q by congruence. apply nth_error_Some in Q.
        replace (Z.of_nat k + 1) with (Z.of_nat (S k)) by lia.
        rewrite IH by lia. cbn [bind]. f_equal.
        symmetry. apply skipn_nth. exact N.
      * apply nth_error_None in N. rewrite skipn_all2 by lia. reflexivity.
Qed.

(** Iterating gives exactly the items, in order. *)
Theorem C22_iter l : bounded l -> rl_iter (holds l) = Ok l.
Proof.
  intro H. unfold rl_iter. change 0 with (Z.of_nat 0). rewrite (iter_from l H); try lia.
  reflexivity.
Qed.

(** ** lists_from_iter *)
Lemma chunk_spec items : forall i (cur : list A) (out : list (arr A)), bounded cur ->
  (i = 0 /\ cur = [] \/ 0 < i /\ 1 <= zlen cur /\ (i - zlen cur) mod 31 = 0) ->
  exists cs : list (list A), rl_chunk items i (holds cur) out = Ok (out ++ map holds cs) /\
    concat cs = cur ++ items /\
    Forall (fun c => c <> [] /\ bounded c) cs /\
    Forall (fun c => length c = 31%nat) (removelast cs).
Proof.
  induction items as [|x xs IH]; intros i cur out Hb Hi; cbn [rl_chunk].
  - destruct (C22_empty_full cur Hb) as [-> _]. destruct cur as [|c cur].
    + exists []. cbn. rewrite app_nil_r. repeat split; constructor.
    + exists [c :: cur]. cbn [map concat removelast]. repeat split; auto.
      constructor; [|constructor]. split; [discriminate|assumption].
  - set (brk := (i mod 31 =? 0) && negb (i =? 0)).
    destruct brk eqn:B; subst brk.
    + (* the current list is full: start a new one *)
      assert (zlen cur = 31) as L.
      { destruct Hi as [[-> ->]|(H1 & H2 & H3)]; [cbn in B; discriminate|].
        unfold bounded in Hb. unfold zlen in *. clear IH. dlia. }
      change rl_new with (holds (@nil A)). rewrite C22_push by (unfold bounded; cbn; lia).
      rewrite zlen_nil. cbn [bind Z.ltb Z.compare app].
      destruct (IH (i + 1) [x] (out ++ [holds cur])) as (cs & E & C & F1 & F2).
      * unfold bounded; cbn; lia.
      * right. change (zlen [x]) with 1. clear -B Hi. destruct Hi as [[-> ->]|Hi]; [discriminate|].
        split; [lia|]. split; [lia|]. replace (i + 1 - 1) with i by lia. lia.
      * exists (cur :: cs). cbn [map concat]. rewrite C. repeat split.
        -- etransitivity; [exact E|]. rewrite <- app_assoc. reflexivity.
        -- constructor; [|assumption]. split; [|assumption]. intros ->. discriminate.
        -- cbn [removelast]. destruct cs; [constructor|]. constructor; [|assumption].
           unfold zlen in L. lia.
    + assert (zlen cur < 31) as L.
      { destruct Hi as [[-> ->]|(H1 & H2 & H3)]; [cbn; lia|].
        assert (zlen cur <= 31) by (unfold bounded in Hb; unfold zlen; lia).
        assert (i mod 31 <> 0) by lia.
        destruct (Z.eq_dec (zlen cur) 31) as [E|]; [|lia]. rewrite E in H3. exfalso. clear -H3 H0.
        apply H0. replace i with (i - 31 + 1 * 31) by lia. rewrite Z.mod_add by lia. assumption. }
      rewrite C22_push by assumption. destruct (zlen cur <? 31) eqn:E2; [|lia]. cbn [bind].
      destruct (IH (i + 1) (cur ++ [x]) out) as (cs & E & C & F1 & F2).
      * unfold bounded. rewrite app_length. cbn. unfold zlen in L. lia.
      * right. assert (zlen (cur ++ [x]) = zlen cur + 1) as -> by (rewrite zlen_app; reflexivity). pose proof (zlen_nonneg cur).
        destruct Hi as [[-> ->]|(H1 & H2 & H3)].
        -- change (zlen (@nil A)) with 0. repeat split; lia || reflexivity.
        -- split; [lia|]. split; [lia|]. replace (i + 1 - (zlen cur + 1)) with (i - zlen cur) by lia. assumption.
      * exists cs. rewrite C, <- app_assoc in *. auto.
Qed.

(** Splitting a sequence into report lists loses, adds and reorders nothing, and
    every list but the last is full. *)
Theorem C22_split (items : list A) : exists cs : list (list A),
  rl_lists_from_iter items = Ok (map holds cs) /\ concat cs = items /\
  Forall (fun c => c <> [] /\ bounded c) cs /\
  Forall (fun c => length c = 31%nat) (removelast cs).
Proof.
  unfold rl_lists_from_iter. change rl_new with (holds (@nil A)).
  destruct (chunk_spec items 0 [] []) as (cs & E & R); [unfold bounded; cbn; lia|left; auto|].
  exists cs. split; [exact E|]. exact R.
Qed.

(** ** append_all_possible *)
Variable wsz : A -> Z.
Hypothesis wsz_nonneg : forall a, 0 <= wsz a.

Lemma total_nonneg l : 0 <= total wsz l.
Proof. clear -wsz_nonneg. induction l as [|x l IH]; cbn; [lia|]. unfold total in *; specialize (wsz_nonneg x). lia. Qed.

(** number of items of [r] moved, with [room] slots and [w] words *)
Fixpoint ntake (room : nat) (r : list A) (w : Z) : nat :=
  match room, r with
  | S room', x :: r' => if w <? wsz x then O else S (ntake room' r' (w - wsz x))
  | _, _ => O
  end.

Lemma move_spec : forall r f a i room w k,
  (i + length r + k = 31)%nat -> (length a + room = 31)%nat ->
  (min room (length r) < f)%nat ->
  rl_move wsz f (holds a) (repeat None i ++ map Some r ++ repeat None k)
     (zlen a - Z.of_nat i) (Z.of_nat i + Z.min (Z.of_nat room) (zlen r)) (Z.of_nat i) w
  = let n := ntake room r w in
    Ok (holds (a ++ firstn n r), repeat None (i + n) ++ map Some (skipn n r) ++ repeat None k,
        Z.of_nat (i + n)).
Proof.
  clear wsz_nonneg.
  induction r as [|x r IH]; intros f a i room w k Hl Hr Hf; destruct f as [|f];
    try (cbn in Hf; lia); cbn [rl_move].
  - rewrite zlen_nil. replace (Z.min (Z.of_nat room) 0) with 0 by lia.
    rewrite Z.add_0_r, Z.eqb_refl. destruct room; cbn [ntake firstn skipn map app];
    rewrite app_nil_r, Nat.add_0_r; reflexivity.
  - destruct room as [|room].
    + replace (Z.min (Z.of_nat 0) (zlen (x :: r))) with 0 by (rewrite zlen_cons; pose proof (zlen_nonneg r); lia).
      rewrite Z.add_0_r, Z.eqb_refl. cbn [ntake firstn skipn]. rewrite app_nil_r, Nat.add_0_r. reflexivity.
    + rewrite zlen_cons. pose proof (zlen_nonneg r).
      destruct (Z.of_nat i =? Z.of_nat i + Z.min (Z.of_nat (S room)) (1 + zlen r)) eqn:E; [lia|].
      cbn [map app]. rewrite idx_mid by (rewrite zlen_repeat; reflexivity). cbn [bind ntake].
      destruct (w <? wsz x) eqn:W.
      * cbn [firstn skipn]. rewrite app_nil_r, Nat.add_0_r. reflexivity.
      * destruct (holds_snoc a x) as [Ha Ha']; [lia|]. rewrite Ha.
        rewrite aset_mid by (unfold zlen; rewrite map_length; lia). cbn [bind].
        rewrite <- Ha'. cbn [map app].
        rewrite aset_mid by (rewrite zlen_repeat; reflexivity). cbn [bind].
        replace (repeat None i ++ None :: map Some r ++ repeat None k)
          with (repeat (@None A) (S i) ++ map Some r ++ repeat None k).
        2:{ change (repeat None (S i)) with (None :: repeat (@None A) i).
            rewrite repeat_cons, <- app_assoc. reflexivity. }
        specialize (IH f (a ++ [x]) (S i) room (w - wsz x) k).
        rewrite zlen_app, zlen_cons, zlen_nil in IH.
        replace (zlen a - Z.of_nat i) with (zlen a + (1 + 0) - Z.of_nat (S i)) by lia.
        replace (Z.of_nat i + Z.min (Z.of_nat (S room)) (1 + zlen r))
          with (Z.of_nat (S i) + Z.min (Z.of_nat room) (zlen r)) by lia.
        replace (Z.of_nat i + 1) with (Z.of_nat (S i)) by lia.
        rewrite IH; clear IH.
        -- cbn [firstn skipn]. replace (i + S (ntake room r (w - wsz x)))%nat with (S i + ntake room r (w - wsz x))%nat by lia.
           rewrite <- app_assoc. reflexivity.
        -- cbn [length] in Hl. lia.
        -- rewrite app_length. cbn. lia.
        -- cbn [length] in Hf. lia.
Qed.

Lemma shift_spec (y : list (option A)) : forall x i,
  rl_shift (length y) (zlen x + Z.of_nat i) (Z.of_nat i) (x ++ repeat None i ++ y) = Ok (x ++ y ++ repeat None i).
Proof.
  clear. induction y as [|v y IH]; intros x i; cbn [length rl_shift]; [rewrite app_nil_r; reflexivity|].
  rewrite app_assoc. rewrite idx_mid by (rewrite zlen_app, zlen_repeat; reflexivity). cbn [bind].
  rewrite aset_mid by (rewrite zlen_app, zlen_repeat; reflexivity). cbn [bind].
  replace ((x ++ repeat None i) ++ None :: y) with (x ++ None :: repeat (@None A) i ++ y).
  2:{ rewrite <- app_assoc. f_equal. change (None :: repeat None i ++ y) with ((None :: repeat (@None A) i) ++ y).
      rewrite repeat_cons, <- app_assoc. reflexivity. }
  rewrite aset_mid by lia. cbn [bind].
  replace (zlen x + Z.of_nat i + 1) with (zlen (x ++ [v]) + Z.of_nat i) by (rewrite zlen_app, zlen_cons, zlen_nil; lia).
  replace (x ++ v :: repeat None i ++ y) with ((x ++ [v]) ++ repeat None i ++ y) by (rewrite <- app_assoc; reflexivity).
  rewrite IH. rewrite <- app_assoc. reflexivity.
Qed.

Lemma append_ntake a b w : bounded a -> bounded b ->
  let n := ntake (31 - length a) b w in
  rl_append wsz (holds a) (holds b) w =
    Ok (holds (a ++ firstn n b), holds (skipn n b), Z.of_nat n).
Proof.
  clear wsz_nonneg. intros Ha Hb n. unfold bounded in *.
  assert (n <= length b)%nat as Hn.
  { subst n. generalize (31 - length a)%nat as r. clear. intro r. revert b w.
    induction r as [|r IH]; intros b w; cbn; [lia|]. destruct b; cbn; [lia|].
    destruct (w <? wsz a); [lia|]. specialize (IH b (w - wsz a)). lia. }
  unfold rl_append. rewrite !C22_len by assumption.
  pose proof (move_spec b 32 a 0 (31 - length a) w (31 - length b)) as M.
  rewrite Z.sub_0_r, Z.add_0_l in M. change (Z.of_nat 0) with 0 in M. rewrite ?Z.sub_0_r, ?Z.add_0_l in M.
  change (repeat None 0 ++ map Some b ++ repeat None (31 - length b)) with (holds b) in M.
  replace (Z.of_nat (31 - length a)) with (31 - zlen a) in M by (unfold zlen; lia).
  rewrite M; clear M; [| lia | lia | lia ].
  cbv zeta. fold n. cbn [bind]. rewrite Nat.add_0_l.
  replace (Z.to_nat (31 - Z.of_nat n)) with (length (map Some (skipn n b) ++ repeat (@None A) (31 - length b)))
    by (rewrite app_length, map_length, skipn_length, repeat_length; lia).
  pose proof (shift_spec (map Some (skipn n b) ++ repeat (@None A) (31 - length b)) [] n) as S.
  cbn [app] in S. rewrite zlen_nil, Z.add_0_l in S. rewrite S. cbn [bind].
  unfold holds at 3. rewrite <- app_assoc, <- repeat_app. rewrite skipn_length.
  replace (31 - length b + n)%nat with (31 - (length b - n))%nat by lia. reflexivity.
Qed.

Lemma ntake_can : forall room a b w, (length a + room = 31)%nat ->
  can_take wsz a b w (ntake room b w) /\
  (forall m, can_take wsz a b w m -> (m <= ntake room b w)%nat).
Proof.
  intros room a b w H. unfold can_take.
  assert (forall m, (m <= length b)%nat -> (m <= room)%nat -> (m = O \/ total wsz (firstn m b) <= w) ->
          (m <= ntake room b w)%nat) as MX.
  { clear a H. revert b w. induction room as [|room IH]; intros b w m H1 H2 H3; [cbn; lia|].
    destruct b as [|x b]; [cbn in H1; cbn; lia|]. cbn [ntake].
    destruct m as [|m]; [lia|]. destruct H3 as [?|H3]; [lia|]. cbn [firstn total fold_right] in H3.
    pose proof (total_nonneg (firstn m b)) as N. unfold total in N.
    destruct (w <? wsz x) eqn:W; [lia|]. cbn [length] in H1.
    specialize (IH b (w - wsz x) m ltac:(lia) ltac:(lia)).
    enough (m <= ntake room b (w - wsz x))%nat by lia. apply IH. right. unfold total. lia. }
  split.
  2:{ intros m (H1 & H2 & H3). apply MX; auto. lia. }
  clear MX. revert a b w H. induction room as [|room IH]; intros a b w H; cbn [ntake].
  - repeat split; [lia|lia|left; reflexivity].
  - destruct b as [|x b]; [repeat split; [lia|lia|left; reflexivity]|].
    destruct (w <? wsz x) eqn:W; [repeat split; [lia|lia|left; reflexivity]|].
    destruct (IH (a ++ [x]) b (w - wsz x)) as (I1 & I2 & I3).
    { rewrite app_length. cbn. lia. }
    rewrite app_length in I2. cbn [length] in *. repeat split; [lia|lia|]. right.
    cbn [firstn total fold_right]. destruct I3 as [E|E].
    + rewrite E. cbn. lia.
    + unfold total in E. lia.
Qed.

(** Moving items over: the longest prefix of the other list that fits is
    appended, the rest stays, nothing is lost or reordered, and it never panics. *)
Theorem C22_append a b w : bounded a -> bounded b ->
  exists n, rl_append wsz (holds a) (holds b) w
              = Ok (holds (a ++ firstn n b), holds (skipn n b), Z.of_nat n)
    /\ can_take wsz a b w n /\ (forall m, can_take wsz a b w m -> (m <= n)%nat)
    /\ bounded (a ++ firstn n b) /\ bounded (skipn n b).
Proof.
  intros Ha Hb. exists (ntake (31 - length a) b w).
  split; [apply append_ntake; assumption|].
  destruct (ntake_can (31 - length a) a b w) as [C M]; [unfold bounded in Ha; lia|].
  split; [exact C|]. split; [exact M|].
  destruct C as (C1 & C2 & _). unfold bounded in *. rewrite app_length, firstn_length, skipn_length. lia.
Qed.
End P.

(** A concrete case: 30 + 5 items of size 6 with 40 words left moves one. *)
Example C22_append_case :
  rl_append (fun _ => 6) (holds (zseq 0 30)) (holds (zseq 100 5)) 40
  = Ok (holds (zseq 0 30 ++ [100]), holds (zseq 101 4), 1).
Proof. vm_compute. reflexivity. Qed.
Example C22_append_case_words :
  rl_append (fun _ => 6) (holds (zseq 0 3)) (holds (zseq 100 5)) 17
  = Ok (holds (zseq 0 3 ++ [100; 101]), holds (zseq 102 3), 2).
Proof. vm_compute. reflexivity. Qed.
Example C22_split_case :
  rl_lists_from_iter (zseq 0 63) = Ok [holds (zseq 0 31); holds (zseq 31 31); holds [62]].
Proof. vm_compute. reflexivity. Qed.

Print Assumptions C22_append.
Print Assumptions C22_split.
Print Assumptions C22_push.
Print Assumptions C22_get.
Print Assumptions C22_iter.

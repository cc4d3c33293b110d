(** Contiguity from sequence numbers alone (codecs without picture numbers, contiguity.rs:21). *)
From Verif Require Import Base BaseFacts BufRxModel BufRxSpec BufRxProofs.

Section P.
Context {DS X CS : Type}.
Variable xnone : X.
Variable dep : DS -> list Z -> list Z -> X -> DS * option (list Z * X).
Variable is_head : DS -> list Z -> bool.
Variable is_tail : DS -> bool -> list Z -> bool.
Definition seq_check (c : CS) (_ : X) (v : bool) : CS * (bool * bool) := (c, (true, v)).
Notation buf := (@buf DS X CS).
Notation frame := (@frame X).
(** the codec accepts every payload *)
Hypothesis total : forall d p o x, exists d' r, dep d p o x = (d', Some r).

Lemma unpack_total : forall es d o x, exists d' r, unpack dep d es o x = (d', Some r).
Proof.
  induction es as [|e es IH]; intros; [eexists _, _; reflexivity|]. cbn [unpack].
  destruct (total d (edata e) o x) as (d' & [o' x'] & ->). apply IH.
Qed.

Definition linked (P : list (meta * list Z)) (b : buf) (prev : option frame) : Prop :=
  match last_emitted b, prev with
  | None, None => True
  | Some (l, _), Some f => exists m, ends f m /\ m <= l /\ forall n, m < n <= l -> padded P n
  | _, _ => False
  end.

Lemma pad_in P (b : buf) e : inv xnone dep P b -> In e (queue b) -> is_padding e = true -> padded P (seq (emeta e)).
Proof.
  intros I He Q. exists (emeta e). split; [|reflexivity]. pose proof (i_in _ _ _ _ I e He) as H.
  unfold is_padding in Q. pose proof (zlen_nonneg (edata e)). assert (zlen (edata e) = 0) as Z by lia.
  destruct (edata e); [exact H|]. rewrite zlen_cons in Z. pose proof (zlen_nonneg l). lia.
Qed.

Lemma drop_front_link hb : forall q last, let '(q', last') := drop_front hb q last in
  forall n, last < n <= last' -> exists e, In e q /\ is_padding e = true /\ seq (emeta e) = n.
Proof.
  induction q as [|e q IH]; intro last; cbn [drop_front]; [intros n H; lia|].
  destruct (zlen (e :: q) <=? hb); [intros n H; lia|]. destruct (is_padding e) eqn:PE; cbn [negb]; [|intros n H; lia].
  unfold is_next. specialize (IH (if last + 1 =? seq (emeta e) then seq (emeta e) else last)).
  destruct (drop_front hb q _) as [q' last'] eqn:D. intros n H.
  destruct (last + 1 =? seq (emeta e)) eqn:Q.
  - assert (n = seq (emeta e) \/ seq (emeta e) < n) as [->|L] by lia; [exists e; repeat split; auto; left; reflexivity|].
    destruct (IH n ltac:(lia)) as (x & Hx & R). exists x. split; [right; exact Hx|exact R].
  - destruct (IH n H) as (x & Hx & R). exists x. split; [right; exact Hx|exact R].
Qed.
Lemma drop_front_ge hb : forall q last, last <= snd (drop_front hb q last).
Proof.
  intros q last. destruct (drop_front_spec xnone seq_check hb q last) as (k & l' & E & L & _). rewrite E. exact L.
Qed.

Lemma discard_link P (b : buf) prev : inv xnone dep P b -> linked P b prev -> linked P (discard_old_padding b) prev.
Proof.
  intros I L. unfold linked in *. unfold discard_old_padding. destruct (last_emitted b) as [[l x]|] eqn:LE.
  - pose proof (drop_front_link (hold_back b) (queue b) l) as D. pose proof (drop_front_ge (hold_back b) (queue b) l) as G.
    destruct (drop_front (hold_back b) (queue b) l) as [q' l'] eqn:DF. cbn [last_emitted snd] in *.
    destruct prev as [f|]; [|contradiction]. destruct L as (m & E & M & N). exists m. split; [exact E|]. split; [lia|].
    intros n Hn. assert (n <= l \/ l < n) as [A|A] by lia; [apply N; lia|].
    destruct (D n ltac:(lia)) as (e & He & Pe & <-). eapply pad_in; eauto.
  - cbn [last_emitted]. exact L.
Qed.

Lemma all_padding_link : forall q last s, all_padding_from last q = Some s -> last <= s /\
  forall n, last < n <= s -> exists e, In e q /\ is_padding e = true /\ seq (emeta e) = n.
Proof.
  induction q as [|e q IH]; intros last s E; cbn [all_padding_from] in E.
  - injection E as <-. split; [lia|]. intros n H. lia.
  - destruct (is_next last (seq (emeta e)) && is_padding e) eqn:Q; [|discriminate]. apply andb_true_iff in Q as [Q1 Q2]. unfold is_next in Q1.
    destruct (IH _ _ E) as [H1 H2]. split; [lia|]. intros n H.
    assert (n = seq (emeta e) \/ seq (emeta e) < n) as [->|L] by lia; [exists e; repeat split; auto; left; reflexivity|].
    destruct (H2 n ltac:(lia)) as (x & Hx & R). exists x. split; [right; exact Hx|exact R].
Qed.

(** one pop *)
Lemma pop_link P (b : buf) prev b' o : inv xnone dep P b -> cache_ok b -> linked P b prev -> pop xnone dep seq_check b = Ok (b', o) ->
  match o with
  | Failed => False
  | Nothing => linked P b' prev
  | Popped g => linked P b' (Some g) /\
      match prev with
      | None => True
      | Some f => contiguous g = true -> forall l s n, ends f l -> begins g s -> l < n < s -> padded P n
      end
  end.
Proof.
  intros I C L E. unfold pop in E.
  pose proof (segments_ok xnone is_tail seq_check (queue b) [] None Logic.I) as SO. cbn [app] in SO. rewrite zlen_nil in SO.
  destruct (segments (queue b) 0 None) as [|[a c] rest] eqn:SG.
  { injection E as <- <-. apply discard_link; assumption. }
  inversion SO as [|? ? S _]; subst.
  destruct (seg_entries xnone seq_check _ _ _ S) as (es & E1 & E2 & E3 & _ & (e0 & r0 & E5 & _) & (e & IE & LE & _)).
  assert (0 <= a <= c /\ c < zlen (queue b)) as [R1 R2] by (destruct S as (? & ? & _); cbn in *; lia).
  rewrite IE in E. cbn [bind] in E.
  assert (idx (queue b) a = Ok e0) as IA.
  { rewrite slice_ok in E1 by lia. injection E1 as E1. rewrite E5 in E1. unfold idx. destruct (a <? 0) eqn:Q; [lia|].
    assert (nth_error (skipn (Z.to_nat a) (queue b)) 0 = Some e0) as N.
    { assert (nth_error (firstn (Z.to_nat (c + 1 - a)) (skipn (Z.to_nat a) (queue b))) 0 = Some e0) as N by (rewrite E1; reflexivity).
      rewrite (nth_firstn_lt xnone seq_check) in N by lia. exact N. }
    rewrite nth_skipn in N. rewrite Nat.add_0_r in N. rewrite N. reflexivity. }
  assert (exists ds f, depacketize xnone dep b a c = (ds, Ok f) /\ fmeta f = map emeta es) as (ds & f & D & FM).
  { unfold depacketize. rewrite E1, E5. cbv beta iota. rewrite <- E5.
    destruct (unpack_total es (depack b) [] xnone) as (d' & [o' x'] & U). rewrite U.
    destruct (cache b) as [[[ra rc] f]|] eqn:CE.
    - unfold range_eq. cbn [fst snd]. destruct ((ra =? a) && (rc =? c)) eqn:Q.
      + exists (depack b), f. split; [reflexivity|]. unfold cache_ok in C. rewrite CE in C. destruct C as (es' & C1 & C2).
        assert (ra = a /\ rc = c) as [-> ->] by lia. congruence.
      + eexists _, _. split; [reflexivity|reflexivity].
    - eexists _, _. split; [reflexivity|reflexivity]. }
  rewrite D in E. destruct (following_ok seq_check b a ltac:(lia)) as (v & FV). rewrite FV in E. cbn [bind] in E.
  assert (exists ms, fmeta f = ms ++ [emeta e]) as (ms & EM).
  { exists (map emeta (removelast es)). rewrite FM. rewrite (app_removelast_last e E2), LE, map_app at 1. reflexivity. }
  destruct (negb v && negb (hold_back b <=? zlen ((a, c) :: rest))) eqn:Q.
  { injection E as <- <-. apply discard_link; [|exact L]. pose proof I as I0. destruct I as [A B Cc]. constructor; cbn [queue cache]; auto.
    intros r g Eg. injection Eg as <- <-.
    destruct (depacketize_spec xnone dep seq_check P b a c (a, c) I0 S eq_refl) as (ds2 & r2 & D2 & _ & D3).
    rewrite D in D2. injection D2 as <- <-. apply (D3 f eq_refl). }
  cbn [seq_check] in E. rewrite from_ok in E by lia. cbn [bind negb] in E. injection E as <- <-.
  split.
  - unfold linked. cbn [last_emitted]. exists (seq (emeta e)). split; [|split; [lia|intros; lia]].
    exists ms, (emeta e). split; [exact EM|reflexivity].
  - destruct prev as [pf|]; [|exact Logic.I]. cbn [contiguous]. intros -> l s n He Hb Hn.
    unfold linked in L. unfold is_following_last in FV. destruct (last_emitted b) as [[le x]|]; [|contradiction].
    destruct L as (m & Em & Lm & Np).
    assert (m = l) as ->. { destruct Em as (m1 & x1 & A1 & <-), He as (m2 & x2 & A2 & <-). rewrite A1 in A2. apply app_inj_tail in A2 as [_ ->]. reflexivity. }
    rewrite upto_ok in FV by lia. cbn [bind] in FV.
    destruct (all_padding_from le (firstn (Z.to_nat a) (queue b))) as [sp|] eqn:AP; [|discriminate].
    rewrite IA in FV. cbn [bind] in FV. injection FV as FV. unfold is_next in FV.
    destruct (all_padding_link _ _ _ AP) as [AL1 AL2].
    assert (s = seq (emeta e0)) as ->. { destruct Hb as (m1 & ms1 & A1 & <-). cbn [fmeta] in A1. rewrite FM, E5 in A1. cbn in A1. injection A1 as <- _. reflexivity. }
    assert (n <= le \/ le < n) as [A|A] by lia; [apply Np; lia|].
    destruct (AL2 n ltac:(lia)) as (y & Hy & Py & <-). eapply pad_in; eauto.
    rewrite <- (firstn_skipn (Z.to_nat a)). apply in_or_app. left. exact Hy.
Qed.

Lemma linked_mono P P' (b : buf) prev : incl P P' -> linked P b prev -> linked P' b prev.
Proof.
  intros H L. unfold linked in *. destruct (last_emitted b) as [[l x]|]; destruct prev as [f|]; auto.
  destruct L as (m & A & B & C). exists m. split; [exact A|]. split; [exact B|]. intros n Hn. destruct (C n Hn) as (y & Hy & E). exists y. split; [apply H; exact Hy|exact E].
Qed.

Section Run.
Variable J : list (meta * list Z) -> buf -> list op -> Prop.
Hypothesis J_lands : forall P b o m d ops, inv xnone dep P b -> offered [o] = [(m, d)] -> J P b (o :: ops) -> lands_after b m.
Hypothesis J_push : forall P b o m d p ops, inv xnone dep P b -> offered [o] = [(m, d)] -> J P b (o :: ops) -> J (P ++ [(m, d)]) (push_entry is_head is_tail b m d p) ops.
Hypothesis J_pop : forall P b b' ops, inv xnone dep P b -> hold_back b' = hold_back b -> (hold_back b = 1 -> cache b = None -> cache b' = None) -> J P b (Pop :: ops) -> J P b' ops.

Lemma run_link : forall ops P b prev fs, inv xnone dep P b -> 0 < hold_back b -> cache_ok b -> above b fs -> linked P b prev -> J P b ops ->
  forall b' gs, run xnone dep is_head is_tail seq_check b ops = Ok (b', gs) ->
  gap_ok (P ++ offered ops) (match prev with Some f => [f] | None => [] end ++ gs).
Proof.
  induction ops as [|o ops IH]; intros P b prev fs I HB C A L HJ b' gs R.
  { injection R as <- <-. intros a f g c E. rewrite app_nil_r in E. destruct prev; destruct a as [|? [|? ?]]; discriminate. }
  cbn [run] in R.
  assert (forall m d p, offered [o] = [(m, d)] ->
    (do r2 <- run xnone dep is_head is_tail seq_check (push_entry is_head is_tail b m d p) ops; Ok (fst r2, snd r2)) = Ok (b', gs) ->
    gap_ok (P ++ offered (o :: ops)) (match prev with Some f => [f] | None => [] end ++ gs)) as PUSH.
  { intros m d p EO R1. destruct (run _ _ _ _ _ _ ops) as [[b2 g2]| |] eqn:R2; try discriminate. cbn in R1. injection R1 as <- <-.
    destruct (push_order xnone dep is_head is_tail seq_check b m d p fs (i_sorted _ _ _ _ I) HB C A (J_lands _ _ _ _ _ _ I EO HJ)) as [C2 A2].
    change (o :: ops) with ([o] ++ ops). unfold offered in EO |- *. rewrite flat_map_app, EO, app_assoc.
    eapply (IH (P ++ [(m, d)]) (push_entry is_head is_tail b m d p) prev fs); [apply (push_inv xnone dep is_head is_tail seq_check); exact I| |exact C2|exact A2| | |exact R2].
    - destruct (push_entry_shape is_head is_tail b m d p) as [->|(h & t & _ & _ & ->)]; exact HB.
    - assert (linked (P ++ [(m, d)]) b prev) as L2 by (eapply linked_mono; [|exact L]; intros y Hy; apply in_or_app; auto).
      destruct (push_entry_shape is_head is_tail b m d p) as [->|(h & t & _ & _ & ->)]; exact L2.
    - eapply J_push; eauto. }
  destruct o as [m d|m|]; cbn [bind fst snd] in R.
  - eapply PUSH; [reflexivity|exact R].
  - eapply PUSH; [reflexivity|exact R].
  - destruct (pop_order xnone dep is_head is_tail seq_check P b fs I C A) as (b1 & o1 & E1 & I1 & H1 & C1 & A1 & N1 & _).
    pose proof (pop_link P b prev b1 o1 I C L E1) as PL. rewrite E1 in R. cbn [bind fst snd] in R.
    destruct (run _ _ _ _ _ b1 ops) as [[b2 g2]| |] eqn:R2; try discriminate. cbn [bind fst snd] in R. injection R as <- <-.
    change (offered (Pop :: ops)) with (offered ops).
    destruct o1 as [| |g]; [|contradiction|].
    + eapply (IH P b1 prev); eauto. lia.
    + destruct PL as [L1 G]. pose proof (IH P b1 (Some g) (fs ++ out (Popped g)) I1 ltac:(lia) C1 A1 L1 (J_pop _ _ _ _ I H1 N1 HJ) _ _ R2) as K.
      cbn [app] in K. destruct prev as [f|]; cbn [app]; [|exact K].
      intros a x y z E. destruct a as [|w a]; cbn [app] in E.
      * injection E as <- <- _. intros Cg l s n El Bs Hn. destruct (G Cg l s n El Bs Hn) as (q & Hq & Eq). exists q. split; [apply in_or_app; left; exact Hq|exact Eq].
      * injection E as <- E. eapply K; exact E.
Qed.
End Run.

Theorem gaps_increasing hb d c ops b' fs : 0 < hb -> increasing ops ->
  run xnone dep is_head is_tail seq_check (new hb d c : buf) ops = Ok (b', fs) -> gap_ok (offered ops) fs.
Proof.
  intros HB INC R.
  set (J := fun (P : list (meta * list Z)) (_ : buf) ops =>
     forall a m d b m' d' c, P ++ offered ops = a ++ (m, d) :: b ++ (m', d') :: c -> seq m < seq m').
  eapply (run_link J) with (P := []) (fs := []) (prev := None); [| | |apply inv_new|exact HB|exact Logic.I| |exact Logic.I|exact INC|exact R].
  - intros P b o m d0 ops0 I EO HJ. unfold lands_after. destruct (cache b) as [[[a0 c0] f]|]; [|exact Logic.I].
    intros k e _ IE. assert (In e (queue b)) as EI. { unfold idx in IE. destruct (k <? 0); [discriminate|]. destruct (nth_error (queue b) (Z.to_nat k)) eqn:N; [|discriminate]. injection IE as <-. eapply nth_error_In; exact N. }
    apply (i_in _ _ _ _ I) in EI. apply in_split in EI as (l1 & l2 & EP).
    change (o :: ops0) with ([o] ++ ops0) in HJ. unfold J in HJ. unfold offered in HJ, EO. rewrite flat_map_app, EO in HJ.
    eapply HJ. rewrite EP, <- app_assoc. cbn [app]. reflexivity.
  - intros P b o m d0 p ops0 I EO HJ. unfold J in *. change (o :: ops0) with ([o] ++ ops0) in HJ. unfold offered in *. rewrite flat_map_app, EO in HJ.
    rewrite <- app_assoc. exact HJ.
  - intros P b b1 ops0 _ _ _ HJ. exact HJ.
  - split; [discriminate|]. intros f m [].
Qed.

Theorem gaps_one d c ops b' fs :
  run xnone dep is_head is_tail seq_check (new 1 d c : buf) ops = Ok (b', fs) -> gap_ok (offered ops) fs.
Proof.
  intros R. set (J := fun (P : list (meta * list Z)) (b : buf) (ops : list op) => hold_back b = 1 /\ cache b = None).
  eapply (run_link J) with (P := []) (fs := []) (prev := None); [| | |apply inv_new| |exact Logic.I| |exact Logic.I| |exact R].
  - intros P b o m d0 ops0 I EO [_ N]. unfold lands_after. rewrite N. exact Logic.I.
  - intros P b o m d0 p ops0 I EO [H N]. destruct (push_entry_shape is_head is_tail b m d0 p) as [->|(h & t & _ & _ & ->)]; split; assumption.
  - intros P b b1 ops0 _ H N [H1 H2]. split; [lia|auto].
  - cbn. lia.
  - split; [discriminate|]. intros f m [].
  - split; reflexivity.
Qed.
End P.

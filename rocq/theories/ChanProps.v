(** C30: data channel ids and SCTP stream ids. *)
From Verif Require Import Base BaseFacts ChanModel.

(** ** Specification *)
(** What an observer sees: channel [id] exists; its stream (if assigned). *)
Definition has (h : handler) (id : Z) (s : option Z) (neg : option Z) : Prop :=
  exists a, In a (allocs h) /\ a_id a = id /\ a_stream a = s /\ a_neg a = neg.
Definition in_use (h : handler) (s : Z) : Prop := exists id neg, has h id (Some s) neg.
(** RFC 8832 section 6: the DTLS client uses even, the server odd stream ids. *)
Definition own_parity (client : bool) (s : Z) : Prop := s mod 2 = (if client then 0 else 1).
Definition u16 (s : Z) : Prop := 0 <= s < 65536.

Record good (h : handler) : Prop := {
  g_ids : NoDup (map a_id (allocs h));
  g_lt : forall a, In a (allocs h) -> 0 <= a_id a < next_id h;
  g_streams : NoDup (streams (allocs h));
  g_next : 0 <= next_id h
}.

(** ** Lemmas *)
Lemma mem_in l x : mem l x = true <-> In x l.
Proof.
  unfold mem. rewrite existsb_exists. split; [intros [y [H E]]; apply Z.eqb_eq in E; subst; exact H|].
  intro H. exists x. rewrite Z.eqb_refl. auto.
Qed.
Lemma mem_not l x : mem l x = false <-> ~ In x l.
Proof. rewrite <- mem_in. destruct (mem l x); split; congruence. Qed.

Lemma walk_spec taken fuel : forall p, 0 <= p -> p + 2 * Z.of_nat fuel <= 65537 -> 65536 <= p + 2 * Z.of_nat fuel ->
  let q := walk fuel taken p in
  p <= q /\ q mod 2 = p mod 2 /\ (p < 65536 -> q < 65536) /\
  (In q taken -> p < 65536 -> forall r, p <= r < 65536 -> r mod 2 = p mod 2 -> In r taken).
Proof.
  induction fuel as [|f IH]; intros p H0 H1 H2; cbn [walk].
  - repeat split; try lia.
  - destruct (mem taken p) eqn:M.
    + destruct (Z.ltb_spec 65535 (p + 2)).
      * repeat split; try lia. intros HI HP r Hr Hm. assert (r = p \/ r = p + 1) as [->|E] by lia; [exact HI|].
        subst r. exfalso. dlia.
      * specialize (IH (p + 2) ltac:(lia) ltac:(lia) ltac:(lia)). cbv zeta in IH. destruct IH as [A [B [C D]]].
        split; [lia|]. split; [rewrite B; dlia|]. split; [intros; apply C; lia|]. intros HI HP r Hr Hm.
        destruct (Z.eq_dec r p) as [->|N]; [apply mem_in; exact M|].
        assert (r <> p + 1) by (intro; subst; dlia).
        apply (D HI ltac:(lia)); [lia|]. rewrite Hm. dlia.
    + apply mem_not in M. repeat split; try lia. intros HI. contradiction.
Qed.

Lemma walk_base taken (client : bool) :
  let q := walk (Z.to_nat 32768) taken (if client then 0 else 1) in
  u16 q /\ own_parity client q /\ (In q taken -> forall r, u16 r -> own_parity client r -> In r taken).
Proof.
  pose proof (walk_spec taken (Z.to_nat 32768) (if client then 0 else 1)) as W. cbv zeta in W.
  rewrite Z2Nat.id in W by lia.
  assert (forall b : bool, 0 <= (if b then 0 else 1) <= 1) as HB by (intros []; lia). specialize (HB client).
  specialize (W ltac:(lia) ltac:(lia) ltac:(lia)). destruct W as [A [B [C D]]]. cbv zeta.
  assert ((if client then 0 else 1) mod 2 = (if client then 0 else 1)) as E by (destruct client; reflexivity).
  rewrite E in *. unfold u16, own_parity.
  split; [lia|]. split; [exact B|]. intros HI r Hr Hm. apply D; auto; try lia.
Qed.

(** what one allocation pass does to each channel *)
Inductive pass (client : bool) (taken : list Z) : list alloc -> list alloc -> list Z -> Prop :=
| PNil : pass client taken [] [] taken
| PKeep a l l' t' : (a_stream a = None -> match a_neg a with Some w => In w taken | None => forall r, u16 r -> own_parity client r -> In r taken end) ->
    pass client taken l l' t' -> pass client taken (a :: l) (a :: l') t'
| PSet a s l l' t' : a_stream a = None -> ~ In s taken ->
    match a_neg a with Some w => s = w | None => u16 s /\ own_parity client s end ->
    pass client (taken ++ [s]) l l' t' -> pass client taken (a :: l) (set_stream a s :: l') t'.

Lemma alloc_loop_pass (client : bool) l : forall taken, exists t', pass client taken l (alloc_loop (if client then 0 else 1) taken l) t'.
Proof.
  induction l as [|a l IH]; intros taken; [exists taken; constructor|]. cbn [alloc_loop].
  destruct (a_stream a) eqn:S.
  - destruct (IH taken) as [t' H]. exists t'. apply PKeep; [congruence|exact H].
  - destruct (a_neg a) as [w|] eqn:N.
    + destruct (mem taken w) eqn:M.
      * destruct (IH taken) as [t' H]. exists t'. apply PKeep; [intros _; rewrite N; apply mem_in; exact M|exact H].
      * destruct (IH (taken ++ [w])) as [t' H]. exists t'. apply PSet; auto; [apply mem_not; exact M|rewrite N; reflexivity].
    + pose proof (walk_base taken client) as W. cbv zeta in W. destruct W as [W1 [W2 W3]].
      set (q := walk (Z.to_nat 32768) taken (if client then 0 else 1)) in *. cbv zeta.
      destruct (mem taken q) eqn:M.
      * destruct (IH taken) as [t' H]. exists t'. apply PKeep; [|exact H]. intros _. rewrite N. apply W3. apply mem_in; exact M.
      * destruct (IH (taken ++ [q])) as [t' H]. exists t'. apply PSet; auto; [apply mem_not; exact M|rewrite N; auto].
Qed.

(* kept: ids, negotiated ids, assigned streams *)
Lemma pass_ids client taken l l' t' : pass client taken l l' t' -> map a_id l' = map a_id l.
Proof. induction 1; cbn; congruence. Qed.
Lemma pass_incl client taken l l' t' : pass client taken l l' t' -> incl taken t'.
Proof.
  induction 1; [apply incl_refl|assumption|]. intros x Hx. apply IHpass, in_or_app. left. exact Hx.
Qed.
Lemma pass_taken client taken l l' t' : pass client taken l l' t' -> forall x, In x t' -> In x taken \/ In x (streams l').
Proof.
  induction 1; intros x Hx; [left; exact Hx| |].
  - destruct (IHpass x Hx) as [A|A]; [left; exact A|right]. cbn. apply in_or_app. right. exact A.
  - destruct (IHpass x Hx) as [A|A].
    + apply in_app_or in A as [A|[A|[]]]; [left; exact A|right]. subst x. cbn. left. reflexivity.
    + right. cbn. right. exact A.
Qed.

Lemma pass_streams client taken l l' t' : pass client taken l l' t' ->
  incl (streams l) taken -> NoDup (streams l) ->
  NoDup (streams l') /\ (forall s, In s (streams l') -> In s (streams l) \/ ~ In s taken).
Proof.
  induction 1; intros HI HN.
  - split; [constructor|tauto].
  - unfold streams in *. cbn [flat_map] in *. destruct (a_stream a) as [s|]; cbn [app] in *.
    + inversion HN; subst. destruct IHpass as [A B]; [intros x Hx; apply HI; right; exact Hx|assumption|].
      split.
      * constructor; [|exact A]. intro J. destruct (B _ J) as [K|K]; [contradiction|]. apply K, HI. left. reflexivity.
      * intros x [<-|Hx]; [left; left; reflexivity|]. destruct (B _ Hx); [left; right; assumption|right; assumption].
    + apply IHpass; assumption.
  - unfold streams in *. cbn [flat_map set_stream a_stream] in *. rewrite H in *. cbn [app] in *.
    destruct IHpass as [A B]; [intros x Hx; apply in_or_app; left; apply HI; exact Hx|assumption|]. split.
    + constructor; [|exact A]. intro J. destruct (B _ J) as [K|K]; [apply H0, HI; exact K|]. apply K, in_or_app. right. left. reflexivity.
    + intros x [<-|Hx]; [right; assumption|]. destruct (B _ Hx) as [K|K]; [left; assumption|right].
      intro J. apply K, in_or_app. left. exact J.
Qed.

(* each channel: unchanged, or given a stream under the rules *)
Lemma pass_each client taken l l' t' : pass client taken l l' t' -> forall a', In a' l' ->
  exists a, In a l /\ a_id a' = a_id a /\ a_neg a' = a_neg a /\ a_conf a' = a_conf a /\
    ((a_stream a' = a_stream a /\
      (a_stream a = None -> match a_neg a with Some w => In w t' | None => forall r, u16 r -> own_parity client r -> In r t' end)) \/
     (a_stream a = None /\ exists s, a_stream a' = Some s /\ ~ In s taken /\
        match a_neg a with Some w => s = w | None => u16 s /\ own_parity client s end)).
Proof.
  induction 1; intros a' Ha; [destruct Ha| |].
  - destruct Ha as [<-|Ha].
    + exists a. split; [left; reflexivity|]. repeat (split; [reflexivity|]). left. split; [reflexivity|]. intro N. specialize (H N).
      apply pass_incl in H0. destruct (a_neg a); [apply H0, H|]. intros r R1 R2. apply H0, H; assumption.
    + destruct (IHpass _ Ha) as [b [B1 B2]]. exists b. split; [right; exact B1|exact B2].
  - destruct Ha as [<-|Ha].
    + exists a. split; [left; reflexivity|]. cbn. repeat (split; [reflexivity|]). right. split; [exact H|]. exists s. auto.
    + destruct (IHpass _ Ha) as [b [B1 [B2 [B3 [B4 B5]]]]]. exists b. split; [right; exact B1|]. repeat (split; [assumption|]).
      destruct B5 as [B5|[B5 [s' [B6 [B7 B8]]]]]; [left; exact B5|right]. split; [exact B5|]. exists s'.
      split; [exact B6|]. split; [|exact B8]. intro J. apply B7, in_or_app. left. exact J.
Qed.

Lemma pass_fwd client taken l l' t' : pass client taken l l' t' -> forall a s, In a l -> a_stream a = Some s -> In a l'.
Proof.
  induction 1; intros b s' Hb Hs; [destruct Hb| |].
  - destruct Hb as [<-|Hb]; [left; reflexivity|right; eapply IHpass; eauto].
  - destruct Hb as [<-|Hb]; [congruence|right; eapply IHpass; eauto].
Qed.

Lemma streams_in l s : In s (streams l) <-> exists a, In a l /\ a_stream a = Some s.
Proof.
  unfold streams. rewrite in_flat_map. split.
  - intros [a [H1 H2]]. exists a. split; [exact H1|]. destruct (a_stream a); [destruct H2 as [<-|[]]; reflexivity|destruct H2].
  - intros [a [H1 H2]]. exists a. split; [exact H1|]. rewrite H2. left. reflexivity.
Qed.

Lemma do_alloc_pass h client : exists l' t', do_allocations h client = mkHandler l' (next_id h) (held h) /\
  pass client (streams (allocs h) ++ held h) (allocs h) l' t'.
Proof.
  unfold do_allocations. destruct (need_allocation h) eqn:N; cbn [negb].
  - destruct (alloc_loop_pass client (allocs h) (streams (allocs h) ++ held h)) as [t' H]. eexists. exists t'. split; [reflexivity|exact H].
  - exists (allocs h), (streams (allocs h) ++ held h). split; [destruct h; reflexivity|].
    assert (forall a, In a (allocs h) -> a_stream a = None -> match a_neg a with Some w => In w (streams (allocs h) ++ held h) | None => forall r, u16 r -> own_parity client r -> In r (streams (allocs h) ++ held h) end) as G.
    { intros a Ha Hs. unfold need_allocation in N.
      assert (forall (P : alloc -> bool) l x, existsb P l = false -> In x l -> P x = false) as EX.
      { intros P l x HE HI. destruct (P x) eqn:E; [|reflexivity]. assert (existsb P l = true) by (apply existsb_exists; eauto). congruence. }
      pose proof (EX _ _ _ N Ha) as E. cbv beta in E. rewrite Hs in E. cbn [is_none andb] in E.
      destruct (a_neg a) as [w|]; [|discriminate]. apply in_or_app. right. unfold is_held in E. apply negb_false_iff in E. apply mem_in. exact E. }
    revert G. generalize (streams (allocs h) ++ held h). intros taken. induction (allocs h) as [|a l IH]; intros G; constructor.
    + apply G. left. reflexivity.
    + apply IH. intros b Hb. apply G. right. exact Hb.
Qed.

Lemma open_ids l : map a_id (map open_one l) = map a_id l.
Proof. rewrite map_map. apply map_ext. intro a. unfold open_one. destruct (a_stream a); reflexivity. Qed.
Lemma open_streams l : streams (map open_one l) = streams l.
Proof.
  unfold streams. induction l as [|a l IH]; [reflexivity|]. cbn [map flat_map]. rewrite IH. unfold open_one.
  destruct (a_stream a) eqn:E; cbn [a_stream]; rewrite ?E; reflexivity.
Qed.

Lemma good_timeout h inited client : good h -> good (fst (handle_timeout h inited client)).
Proof.
  intros [G1 G2 G3 G4]. unfold handle_timeout. destruct inited; cbn [negb fst]; [|constructor; assumption].
  destruct (do_alloc_pass h client) as [l' [t' [-> P]]]. cbn [allocs next_id held].
  constructor; cbn [allocs next_id]; auto.
  - rewrite open_ids, (pass_ids _ _ _ _ _ P). exact G1.
  - intros a Ha. assert (In (a_id a) (map a_id (map open_one l'))) as J by (apply in_map; exact Ha).
    rewrite open_ids, (pass_ids _ _ _ _ _ P) in J. apply in_map_iff in J as [b [<- Hb]]. apply G2. exact Hb.
  - rewrite open_streams. eapply pass_streams; [exact P|apply incl_appl, incl_refl|exact G3].
Qed.

Lemma NoDup_snoc {A} (l : list A) x : NoDup l -> ~ In x l -> NoDup (l ++ [x]).
Proof.
  induction 1; cbn; intros N; [repeat constructor; tauto|]. constructor; [|apply IHNoDup; tauto].
  rewrite in_app_iff. cbn. intuition.
Qed.

Lemma streams_app l1 l2 : streams (l1 ++ l2) = streams l1 ++ streams l2.
Proof. apply flat_map_app. Qed.

Lemma streams_filter_nodup (f : alloc -> bool) l : NoDup (streams l) -> NoDup (streams (filter f l)).
Proof.
  induction l as [|a l IH]; [intros; constructor|]. cbn [filter]. unfold streams in *. cbn [flat_map].
  intro N. destruct (f a); cbn [flat_map].
  - destruct (a_stream a); cbn [app] in *; [|auto]. inversion N; subst. constructor; [|auto].
    intro J. apply H1. apply in_flat_map in J as [b [B1 B2]]. apply in_flat_map. exists b. apply filter_In in B1. tauto.
  - apply IH. destruct (a_stream a); cbn [app] in N; [inversion N; assumption|exact N].
Qed.

Lemma upd_ids l id f : (forall a, a_id (f a) = a_id a) -> map a_id (upd_id l id f) = map a_id l.
Proof. intro H. induction l as [|a l IH]; [reflexivity|]. cbn. destruct (a_id a =? id); cbn; rewrite ?H, ?IH; reflexivity. Qed.
Lemma upd_streams l id f : (forall a, a_stream (f a) = a_stream a) -> streams (upd_id l id f) = streams l.
Proof.
  intro H. unfold streams. induction l as [|a l IH]; [reflexivity|]. cbn [upd_id]. destruct (a_id a =? id); cbn [flat_map].
  - rewrite H. reflexivity. - rewrite IH. reflexivity.
Qed.

Lemma good_step client h e h' : good h -> step client h e = Ok h' -> good h'.
Proof.
  intros G H. destruct e as [neg|id|inited|s|s rp|s|]; cbn [step] in H.
  - unfold new_channel in H. destruct (match neg with Some _ => _ | None => _ end); [discriminate|]. injection H as <-.
    destruct G as [G1 G2 G3 G4]. constructor; cbn [allocs next_id]; [| | |lia].
    + rewrite map_app. apply NoDup_snoc; [exact G1|]. intro J. apply in_map_iff in J as [a [E Ha]]. apply G2 in Ha. cbn in E. lia.
    + intros a Ha. apply in_app_or in Ha as [Ha|[<-|[]]]; [apply G2 in Ha; lia|cbn; lia].
    + rewrite streams_app. cbn. rewrite app_nil_r. exact G3.
  - unfold confirm in H. destruct (existsb _ _); [|discriminate]. injection H as <-. destruct G as [G1 G2 G3 G4].
    constructor; cbn [allocs next_id]; auto.
    + rewrite upd_ids; [exact G1|reflexivity].
    + intros a Ha. apply (in_map a_id) in Ha. rewrite upd_ids in Ha by reflexivity.
      apply in_map_iff in Ha as [b [<- Hb]]. apply G2. exact Hb.
    + rewrite upd_streams; [exact G3|reflexivity].
  - injection H as <-. apply good_timeout. exact G.
  - injection H as <-. unfold ensure_channel_id_for. destruct (existsb _ _) eqn:E; [exact G|]. destruct G as [G1 G2 G3 G4].
    constructor; cbn [allocs next_id]; [| | |lia].
    + rewrite map_app. apply NoDup_snoc; [exact G1|]. intro J. apply in_map_iff in J as [a [E' Ha]]. apply G2 in Ha. cbn in E'. lia.
    + intros a Ha. apply in_app_or in Ha as [Ha|[<-|[]]]; [apply G2 in Ha; lia|cbn; lia].
    + rewrite streams_app. cbn. apply NoDup_snoc; [exact G3|]. intro J. apply streams_in in J as [a [A1 A2]].
      assert (existsb (fun a => opt_is (a_stream a) s) (allocs h) = true) as X; [|congruence].
      apply existsb_exists. exists a. split; [exact A1|]. rewrite A2. cbn. apply Z.eqb_refl.
  - destruct (channel_by_stream h s) as [id|]; injection H as <-; [|exact G]. destruct G as [G1 G2 G3 G4].
    unfold remove_channel. constructor; cbn [allocs next_id]; auto.
    + clear - G1. induction (allocs h) as [|a l IH]; [constructor|]. cbn [map filter] in *. inversion G1; subst.
      destruct (negb (a_id a =? id)); cbn [map]; [constructor|]; auto. intro J. apply H1.
      apply in_map_iff in J as [b [E Hb]]. apply filter_In in Hb. rewrite <- E. apply in_map. tauto.
    + intros a Ha. apply filter_In in Ha. apply G2. tauto.
    + apply streams_filter_nodup. exact G3.
  - injection H as <-. destruct G as [G1 G2 G3 G4]. constructor; auto.
  - injection H as <-. destruct G as [G1 G2 G3 G4]. constructor; auto.
Qed.

Lemma good_init : good init.
Proof. constructor; cbn; [constructor|tauto|constructor|lia]. Qed.

Lemma good_run client es : forall h h', good h -> run client h es = Ok h' -> good h'.
Proof.
  induction es as [|e es IH]; intros h h' G H; cbn [run] in H; [injection H as <-; exact G|].
  destruct (step client h e) as [h1| |] eqn:S; try discriminate. cbn [bind] in H.
  eapply IH; [|exact H]. eapply good_step; eauto.
Qed.

(** ** C30 *)
Lemma good_unique h : good h ->
  (forall id s n s' n', has h id s n -> has h id s' n' -> s = s' /\ n = n') /\
  (forall s id n id' n', has h id (Some s) n -> has h id' (Some s) n' -> id = id') /\
  (forall id s, channel_by_stream h s = Some id <-> stream_by_channel h id = Some s).
Proof.
  intros G. destruct G as [G1 G2 G3 G4].
  assert (forall a b, In a (allocs h) -> In b (allocs h) -> a_id a = a_id b -> a = b) as U1.
  { clear - G1. induction (allocs h) as [|x l IH]; intros a b Ha Hb E; [destruct Ha|]. cbn in G1. inversion G1; subst.
    destruct Ha as [<-|Ha], Hb as [<-|Hb]; auto.
    - exfalso. apply H1. rewrite E. apply in_map. exact Hb.
    - exfalso. apply H1. rewrite <- E. apply in_map. exact Ha. }
  assert (forall a b s, In a (allocs h) -> In b (allocs h) -> a_stream a = Some s -> a_stream b = Some s -> a = b) as U2.
  { clear - G3. induction (allocs h) as [|x l IH]; intros a b s Ha Hb E F; [destruct Ha|].
    assert (forall y, In y l -> a_stream y = Some s -> a_stream x = Some s -> False) as K.
    { intros y Hy Ey Ex. unfold streams in G3. cbn [flat_map] in G3. rewrite Ex in G3. cbn in G3. inversion G3; subst.
      apply H1. apply (streams_in l s). eauto. }
    assert (NoDup (streams l)) as N.
    { unfold streams in *. cbn [flat_map] in G3. destruct (a_stream x); cbn in G3; [inversion G3; assumption|exact G3]. }
    destruct Ha as [<-|Ha], Hb as [<-|Hb]; auto; [exfalso; eauto|exfalso; eauto|eapply IH; eauto]. }
  split; [|split].
  - intros id s n s' n' [a [A1 [A2 [A3 A4]]]] [b [B1 [B2 [B3 B4]]]]. assert (a = b) as <- by (apply U1; congruence). split; congruence.
  - intros s id n id' n' [a [A1 [A2 [A3 A4]]]] [b [B1 [B2 [B3 B4]]]]. assert (a = b) as <- by (eapply U2; eauto). congruence.
  - intros id s. unfold channel_by_stream, stream_by_channel. split; intro H.
    + destruct (find (fun a => opt_is (a_stream a) s) (allocs h)) as [a|] eqn:F; [|discriminate]. injection H as <-.
      apply find_some in F as [F1 F2]. destruct (a_stream a) as [t|] eqn:S; [|discriminate]. cbn in F2. apply Z.eqb_eq in F2. subst t.
      destruct (find (fun b => a_id b =? a_id a) (allocs h)) as [b|] eqn:F'.
      * apply find_some in F' as [F1' F2']. apply Z.eqb_eq in F2'. rewrite (U1 b a F1' F1 F2'). exact S.
      * apply find_none with (x := a) in F'; [|exact F1]. rewrite Z.eqb_refl in F'. discriminate.
    + destruct (find (fun b => a_id b =? id) (allocs h)) as [b|] eqn:F; [|discriminate].
      apply find_some in F as [F1 F2]. apply Z.eqb_eq in F2.
      destruct (find (fun a => opt_is (a_stream a) s) (allocs h)) as [a|] eqn:F'.
      * apply find_some in F' as [F1' F2']. destruct (a_stream a) as [t|] eqn:S; [|discriminate]. cbn in F2'. apply Z.eqb_eq in F2'. subst t.
        f_equal. rewrite <- F2. f_equal. eapply U2; eauto.
      * apply find_none with (x := b) in F'; [|exact F1]. rewrite H in F'. cbn in F'. rewrite Z.eqb_refl in F'. discriminate.
Qed.

(** After any history: no two channels share a channel id or a stream id, and the two lookups are
    inverse to each other. *)
Theorem C30_unique : forall client es h, run client init es = Ok h ->
  (forall id s n s' n', has h id s n -> has h id s' n' -> s = s' /\ n = n') /\
  (forall s id n id' n', has h id (Some s) n -> has h id' (Some s) n' -> id = id') /\
  (forall id s, channel_by_stream h s = Some id <-> stream_by_channel h id = Some s).
Proof. intros client es h H. apply good_unique. eapply good_run; [apply good_init|exact H]. Qed.
Print Assumptions C30_unique.

(** A channel id is never issued twice. *)
Lemma next_mono client es : forall h h', run client h es = Ok h' -> next_id h <= next_id h'.
Proof.
  induction es as [|e es IH]; intros h h' H; cbn [run] in H; [injection H as <-; lia|].
  destruct (step client h e) as [h1| |] eqn:S; try discriminate. cbn [bind] in H. apply IH in H.
  enough (next_id h <= next_id h1) by lia.
  destruct e as [neg|id|inited|s|s rp|s|]; cbn [step] in S.
  - unfold new_channel in S. destruct (match neg with Some _ => _ | None => _ end); [discriminate|]. injection S as <-. cbn. lia.
  - unfold confirm in S. destruct (existsb _ _); [|discriminate]. injection S as <-. cbn. lia.
  - injection S as <-. unfold handle_timeout. destruct inited; cbn; [|lia].
    destruct (do_alloc_pass h client) as [l' [t' [-> P]]]. cbn. lia.
  - injection S as <-. unfold ensure_channel_id_for. destruct (existsb _ _); cbn; lia.
  - destruct (channel_by_stream h s); injection S as <-; cbn; lia.
  - injection S as <-. cbn. lia.
  - injection S as <-. cbn. lia.
Qed.

Theorem C30_channel_ids_fresh : forall client es1 h1 es2 h2 neg h3 id,
  run client init es1 = Ok h1 -> run client h1 es2 = Ok h2 -> new_channel h2 neg = Ok (h3, id) ->
  forall s n, ~ has h1 id s n.
Proof.
  intros client es1 h1 es2 h2 neg h3 id R1 R2 N s n [a [A1 [A2 _]]].
  apply good_run in R1; [|apply good_init]. apply next_mono in R2.
  unfold new_channel in N. destruct (match neg with Some _ => _ | None => _ end); [discriminate|]. injection N as _ <-.
  apply (g_lt _ R1) in A1. lia.
Qed.
Print Assumptions C30_channel_ids_fresh.

(** The allocation pass (run on every timeout): a channel keeps its stream once it has one; a stream
    newly given to a channel was not in use, is not waiting for a reset, and is the negotiated id, or
    else has the parity of our DTLS role. *)
Theorem C30_allocation : forall client es h, run client init es = Ok h ->
  forall h' op, handle_timeout h true client = (h', op) ->
  (forall id s n, has h id (Some s) n -> has h' id (Some s) n) /\
  (forall id s n, has h' id (Some s) n ->
     has h id (Some s) n \/
     (has h id None n /\ ~ in_use h s /\ ~ In s (held h) /\
      match n with Some w => s = w | None => u16 s /\ own_parity client s end)).
Proof.
  intros client es h R h' op H. apply good_run in R; [|apply good_init]. destruct R as [G1 G2 G3 G4].
  unfold handle_timeout in H. cbn [negb] in H. destruct (do_alloc_pass h client) as [l' [t' [E P]]]. rewrite E in H.
  cbn [allocs next_id held] in H. injection H as <- <-. unfold has. cbn [allocs]. split.
  - intros id s n [a [A1 [A2 [A3 A4]]]]. exists (open_one a). split; [apply in_map; eapply pass_fwd; eauto|].
    unfold open_one. rewrite A3. cbn. auto.
  - intros id s n [b' [B1 [B2 [B3 B4]]]]. apply in_map_iff in B1 as [b [<- B1]].
    assert (a_id b = id /\ a_stream b = Some s /\ a_neg b = n) as [C1 [C2 C3]].
    { unfold open_one in *. destruct (a_stream b) eqn:S; cbn in *; [auto|congruence]. }
    destruct (pass_each _ _ _ _ _ P _ B1) as [a [D1 [D2 [D3 [_ D4]]]]].
    destruct D4 as [[D4 _]|[D4 [s' [D5 [D6 D7]]]]].
    + left. exists a. split; [exact D1|]. split; [congruence|]. split; congruence.
    + right. assert (s' = s) as -> by congruence. split; [exists a; split; [exact D1|]; split; [congruence|]; split; congruence|].
      split; [|split].
      * intros [id' [n' [x [X1 [X2 [X3 X4]]]]]]. apply D6, in_or_app. left. apply streams_in. eauto.
      * intro J. apply D6, in_or_app. right. exact J.
      * rewrite <- C3, D3. exact D7.
Qed.
Print Assumptions C30_allocation.

(** After a pass no channel is left without a stream for no reason: it waits for its negotiated id,
    which someone else uses or which awaits a reset, or all 32768 ids of our parity are taken. *)
Theorem C30_no_needless_wait : forall client es h, run client init es = Ok h ->
  forall h' op, handle_timeout h true client = (h', op) ->
  forall id n, has h' id None n ->
    match n with
    | Some w => in_use h' w \/ In w (held h')
    | None => forall r, u16 r -> own_parity client r -> in_use h' r \/ In r (held h')
    end.
Proof.
  intros client es h R h' op H id n [b' [B1 [B2 [B3 B4]]]]. apply good_run in R; [|apply good_init]. destruct R as [G1 G2 G3 G4].
  unfold handle_timeout in H. cbn [negb] in H. destruct (do_alloc_pass h client) as [l' [t' [E P]]]. rewrite E in H.
  cbn [allocs next_id held] in H. injection H as <- <-. cbn [allocs held] in *.
  apply in_map_iff in B1 as [b [E1 B1]].
  assert (a_stream b = None /\ a_neg b = n) as [C2 C3].
  { subst b'. unfold open_one in *. destruct (a_stream b) eqn:S; cbn in *; auto; congruence. }
  destruct (pass_each _ _ _ _ _ P _ B1) as [a [D1 [D2 [D3 [_ D4]]]]].
  assert (forall w, In w t' -> in_use (mkHandler (map open_one l') (next_id h) (held h)) w \/ In w (held h)) as U.
  { intros w Hw. destruct (pass_taken _ _ _ _ _ P _ Hw) as [K|K].
    - apply in_app_or in K as [K|K]; [|right; exact K]. left. apply streams_in in K as [x [X1 X2]].
      pose proof (pass_fwd _ _ _ _ _ P _ _ X1 X2) as X3. exists (a_id x), (a_neg x), (open_one x). cbn [allocs].
      split; [apply in_map; exact X3|]. unfold open_one. rewrite X2. cbn. auto.
    - left. apply streams_in in K as [x [X1 X2]]. exists (a_id x), (a_neg x), (open_one x). cbn [allocs].
      split; [apply in_map; exact X1|]. unfold open_one. rewrite X2. cbn. auto. }
  destruct D4 as [[D4 D5]|[_ [s' [D5 _]]]]; [|congruence].
  assert (a_stream a = None) as SN by congruence. specialize (D5 SN). rewrite <- C3, D3. destruct (a_neg a); auto.
Qed.
Print Assumptions C30_no_needless_wait.

(** A confirmed channel is opened in the pass that finds it a stream, with that stream, and once. *)
Theorem C30_opened_exactly : forall client h h' op, handle_timeout h true client = (h', op) ->
  (forall id s, In (id, s) op -> exists n, has h' id (Some s) n) /\ need_open h' = false.
Proof.
  intros client h h' op H. unfold handle_timeout in H. cbn [negb] in H. injection H as <- <-.
  set (l := allocs (do_allocations h client)). split.
  - intros id s J. unfold opened in J. apply in_flat_map in J as [a [A1 A2]].
    destruct (a_stream a) as [t|] eqn:S; [|destruct A2]. destruct (a_conf a); [|destruct A2]. destruct A2 as [A2|[]]. injection A2 as <- <-.
    exists (a_neg a), (open_one a). cbn [allocs]. split; [apply in_map; exact A1|]. unfold open_one. rewrite S. cbn. auto.
  - unfold need_open. cbn [allocs]. clearbody l. induction l as [|a l IH]; [reflexivity|]. cbn [map existsb]. rewrite IH, orb_false_r.
    unfold open_one. destruct (a_stream a) eqn:S; cbn; rewrite ?S; cbn; [reflexivity|apply andb_false_r].
Qed.
Print Assumptions C30_opened_exactly.

(** A closed stream whose reset is outstanding is given to nobody until the reset completes. *)
Theorem C30_held_until_reset : forall client es h s id, run client init es = Ok h ->
  channel_by_stream h s = Some id ->
  In s (held (remove_channel h id true)) /\ ~ in_use (remove_channel h id true) s.
Proof.
  intros client es h s id R H.
  pose proof (C30_unique client es h R) as [U1 [U2 U3]]. pose proof (proj1 (U3 id s) H) as H'.
  unfold remove_channel. rewrite H'. cbn [held]. split; [apply in_or_app; right; left; reflexivity|].
  intros [id' [n [a [A1 [A2 [A3 A4]]]]]]. cbn [allocs] in A1. apply filter_In in A1 as [A1 A5].
  unfold channel_by_stream in H. destruct (find _ (allocs h)) as [b|] eqn:F; [|discriminate]. injection H as <-.
  apply find_some in F as [F1 F2]. destruct (a_stream b) as [t|] eqn:S; [|discriminate]. cbn in F2. apply Z.eqb_eq in F2. subst t.
  assert (a_id a = a_id b) as E.
  { eapply U2; [exists a; repeat split; eauto|exists b; repeat split; eauto]. }
  rewrite E, Z.eqb_refl in A5. discriminate.
Qed.
Print Assumptions C30_held_until_reset.


(** *** A stream is opened once per confirmation, never before. *)
Lemma pass_bwd client taken l l' t' : pass client taken l l' t' -> forall a, In a l' -> exists b, In b l /\ a_id b = a_id a /\ a_conf b = a_conf a.
Proof.
  induction 1; intros b Hb; [destruct Hb| |].
  - destruct Hb as [<-|Hb]; [eexists; split; [left; reflexivity|auto]|]. destruct (IHpass _ Hb) as (c & C1 & C2). exists c. split; [right; exact C1|exact C2].
  - destruct Hb as [<-|Hb]; [exists a; split; [left; reflexivity|auto]|]. destruct (IHpass _ Hb) as (c & C1 & C2). exists c. split; [right; exact C1|exact C2].
Qed.
Lemma pass_conf client taken l l' t' : pass client taken l l' t' -> forall a, In a l -> exists b, In b l' /\ a_id b = a_id a /\ a_conf b = a_conf a.
Proof.
  induction 1; intros b Hb; [destruct Hb| |].
  - destruct Hb as [<-|Hb]; [eexists; split; [left; reflexivity|auto]|]. destruct (IHpass _ Hb) as (c & C1 & C2). exists c. split; [right; exact C1|exact C2].
  - destruct Hb as [<-|Hb]; [eexists; split; [left; reflexivity|auto]|]. destruct (IHpass _ Hb) as (c & C1 & C2). exists c. split; [right; exact C1|exact C2].
Qed.
Lemma conf_step client h e h' a : step client h e = Ok h' -> In a (allocs h') -> a_conf a = true ->
  (exists b, In b (allocs h) /\ a_id b = a_id a /\ a_conf b = true) \/ e = EConfirm (a_id a).
Proof.
  intros H A C. destruct e as [neg|id|inited|s|s rp|s|]; cbn [step] in H.
  - unfold new_channel in H. destruct (match neg with Some _ => _ | None => _ end); [discriminate|]. cbn [bind] in H. injection H as <-.
    cbn [allocs] in A. apply in_app_or in A as [A|[<-|[]]]; [left; eauto|discriminate].
  - unfold confirm in H. destruct (existsb _ _); [|discriminate]. injection H as <-. cbn [allocs] in A.
    assert (forall l, In a (upd_id l id (fun a => mkAlloc (a_id a) (a_stream a) (a_neg a) true)) -> In a l \/ a_id a = id) as X.
    { induction l as [|x l IH]; cbn [upd_id]; [tauto|]. destruct (a_id x =? id) eqn:E; intros [<-|J]; cbn [a_id]; try (right; lia); try (left; left; reflexivity).
      - left. right. exact J. - destruct (IH J); [left; right; assumption|right; assumption]. }
    destruct (X _ A) as [J|J]; [left; eauto|right; congruence].
  - injection H as <-. unfold handle_timeout in A. destruct inited; cbn [negb fst allocs] in A; [|left; eauto].
    apply in_map_iff in A as (b & E & B). unfold open_one in E. destruct (a_stream b) eqn:S; subst a; [discriminate|].
    left. destruct (do_alloc_pass h client) as (l' & t' & E & P). rewrite E in B. cbn [allocs] in B.
    destruct (pass_bwd _ _ _ _ _ P _ B) as (c & C1 & C2 & C3). exists c. repeat split; auto; congruence.
  - injection H as <-. unfold ensure_channel_id_for in A. destruct (existsb _ _); [left; eauto|]. cbn [allocs] in A. apply in_app_or in A as [A|[<-|[]]]; [left; eauto|discriminate].
  - destruct (channel_by_stream h s) as [id|]; injection H as <-; [|left; eauto]. cbn [allocs remove_channel] in A. apply filter_In in A as [A _]. left; eauto.
  - injection H as <-. left; eauto.
  - injection H as <-. left; eauto.
Qed.
Lemma conf_run client es : forall h h' a, run client h es = Ok h' -> In a (allocs h') -> a_conf a = true ->
  (exists b, In b (allocs h) /\ a_id b = a_id a /\ a_conf b = true) \/ In (EConfirm (a_id a)) es.
Proof.
  induction es as [|e es IH]; intros h h' a R A C; cbn [run] in R; [injection R as <-; left; eauto|].
  destruct (step client h e) as [h1| |] eqn:S; try discriminate. cbn [bind] in R.
  destruct (IH _ _ _ R A C) as [(b & B1 & B2 & B3)|J]; [|right; right; exact J].
  destruct (conf_step _ _ _ _ _ S B1 B3) as [(c & C1 & C2 & C3)| ->]; [left; exists c; repeat split; auto; congruence|right; left; congruence].
Qed.

Lemma opened_in l id s : In (id, s) (opened l) <-> exists a, In a l /\ a_id a = id /\ a_stream a = Some s /\ a_conf a = true.
Proof.
  unfold opened. rewrite in_flat_map. split.
  - intros (a & A1 & A2). destruct (a_stream a) eqn:S; [|destruct A2]. destruct (a_conf a) eqn:C; [|destruct A2]. destruct A2 as [[= <- <-]|[]]. exists a. auto.
  - intros (a & A1 & A2 & A3 & A4). exists a. split; [exact A1|]. rewrite A3, A4. left. congruence.
Qed.
(** SCTP is asked to open the stream of a channel only after the channel was confirmed (its config
    known), and again only after it was confirmed again. *)
Theorem C30_opened_only_when_confirmed : forall client es h inited h' op id s,
  run client init es = Ok h -> handle_timeout h inited client = (h', op) -> In (id, s) op -> In (EConfirm id) es.
Proof.
  intros client es h inited h' op id s R H J. unfold handle_timeout in H. destruct inited; cbn [negb] in H; injection H as <- <-; [|destruct J].
  apply opened_in in J as (a & A1 & <- & A3 & A4). destruct (do_alloc_pass h client) as (l' & t' & E & P). rewrite E in A1. cbn [allocs] in A1.
  destruct (pass_bwd _ _ _ _ _ P _ A1) as (b & B1 & B2 & B3). rewrite <- B2.
  destruct (conf_run _ _ _ _ _ R B1 ltac:(congruence)) as [(c & [] & _)|J]. exact J.
Qed.
Theorem C30_opened_once : forall client es1 h1 h2 op1 es2 h3 h4 op2 id s1 s2,
  run client init es1 = Ok h1 -> handle_timeout h1 true client = (h2, op1) -> In (id, s1) op1 ->
  run client h2 es2 = Ok h3 -> handle_timeout h3 true client = (h4, op2) -> In (id, s2) op2 -> In (EConfirm id) es2.
Proof.
  intros client es1 h1 h2 op1 es2 h3 h4 op2 id s1 s2 R1 H1 J1 R2 H2 J2.
  unfold handle_timeout in H2. cbn [negb] in H2. injection H2 as <- <-.
  apply opened_in in J2 as (a & A1 & <- & A3 & A4). destruct (do_alloc_pass h3 client) as (l' & t' & E & P). rewrite E in A1. cbn [allocs] in A1.
  destruct (pass_bwd _ _ _ _ _ P _ A1) as (b & B1 & B2 & B3). rewrite <- B2 in *.
  destruct (conf_run _ _ _ _ _ R2 B1 ltac:(congruence)) as [(c & C1 & C2 & C3)|J]; [exfalso|exact J].
  assert (good h2) as G. { apply good_run in R1; [|apply good_init]. apply (good_timeout h1 true client) in R1. rewrite H1 in R1. exact R1. }
  unfold handle_timeout in H1. cbn [negb] in H1. injection H1 as <- <-. apply opened_in in J1 as (d & D1 & D2 & D3 & D4). cbn [allocs] in *.
  assert (open_one d = c) as X.
  { pose proof (g_ids _ G) as N. cbn [allocs] in N. revert N C1 D1 C2 D2. clear. generalize (allocs (do_allocations h1 client)). intros l N C1 D1 C2 D2.
    assert (In (open_one d) (map open_one l)) as D1' by (apply in_map; exact D1).
    assert (a_id (open_one d) = a_id c) as EI by (unfold open_one; destruct (a_stream d); cbn; congruence).
    revert N C1 D1' EI. generalize (map open_one l) as m. clear. induction m as [|x m IH]; intros N C D EI; [destruct C|]. cbn [map] in N. inversion N; subst.
    destruct C as [<-|C], D as [D|D]; auto.
    - exfalso. apply H1. rewrite <- EI. apply in_map. exact D.
    - exfalso. apply H1. rewrite D, EI. apply in_map. exact C. }
  subst c. unfold open_one in C3. rewrite D3 in C3. discriminate.
Qed.
(** And it is asked as soon as a confirmed channel has a stream. *)
Theorem C30_opened_when_ready : forall client es h h' op id s n,
  run client init es = Ok h -> handle_timeout h true client = (h', op) -> has h' id (Some s) n ->
  forall es1 es2, es = es1 ++ EConfirm id :: es2 -> ~ In (ETimeout true) es2 -> In (id, s) op.
Proof.
  intros client es h h' op id s n R H HS es1 es2 -> NT.
  assert (exists h0, run client init (es1 ++ [EConfirm id]) = Ok h0 /\ run client h0 es2 = Ok h) as (h0 & R0 & R2).
  { revert R. generalize init. induction es1 as [|e es1 IH]; intros h0 R; cbn [app run] in *.
    - destruct (step client h0 (EConfirm id)) as [h2| |]; try discriminate. cbn [bind] in *. eauto.
    - destruct (step client h0 e) as [h2| |]; try discriminate. cbn [bind] in *. apply IH. exact R. }
  assert (forall a, In a (allocs h0) -> a_id a = id -> a_conf a = true) as C0.
  { assert (exists hp, run client init es1 = Ok hp /\ confirm hp id = Ok h0) as (hp & RP & CP).
    { clear R. revert R0. generalize init. induction es1 as [|e es1 IH]; intros k R0; cbn [app run step] in *.
      - exists k. split; [reflexivity|]. destruct (confirm k id) eqn:CK; cbn [bind] in R0; [exact R0|discriminate R0|discriminate R0].
      - destruct (step client k e) as [k'| |]; cbn [bind] in R0; [|discriminate R0|discriminate R0]. cbn [bind]. apply IH; exact R0. }
    apply good_run in RP; [|apply good_init]. apply g_ids in RP. unfold confirm in CP. destruct (existsb _ _); [|discriminate]. injection CP as <-. cbn [allocs].
    revert RP. clear. induction (allocs hp) as [|x l IH]; intros N a; cbn [upd_id map] in *; [intros []|]. inversion N as [|? ? N1 N2]; subst.
    destruct (Z.eqb_spec (a_id x) id) as [E|E]; intros [<-|J] EI; cbn [a_conf]; [reflexivity| |congruence|apply (IH N2 a J EI)].
    exfalso. apply N1. rewrite E, <- EI. apply in_map. exact J. }
  assert (id < next_id h0) as LT.
  { assert (existsb (fun a => a_id a =? id) (allocs h0) = true) as X.
    { clear - R0. revert R0. generalize init. induction es1 as [|e es1 IH]; intros k R0; cbn [app run step] in *.
      - unfold confirm in R0. destruct (existsb _ _) eqn:X in R0; [|discriminate]. cbn [bind] in R0. injection R0 as <-. cbn [allocs]. revert X.
        induction (allocs k) as [|x l IH]; [discriminate|]. cbn [existsb upd_id]. destruct (a_id x =? id) eqn:E; cbn [existsb a_id]; rewrite E; cbn [orb]; auto.
      - destruct (step client k e); try discriminate. cbn [bind] in *. eapply IH. exact R0. }
    apply existsb_exists in X as (a & A1 & A2). apply good_run in R0; [|apply good_init]. apply (g_lt _ R0) in A1. lia. }
  assert (forall a, In a (allocs h) -> a_id a = id -> a_conf a = true) as CH.
  { clear R H HS R0 es1. revert h0 R2 C0 LT. induction es2 as [|e es2 IH]; intros h0 R2 C0 LT; cbn [run] in R2; [injection R2 as <-; exact C0|].
    destruct (step client h0 e) as [h1| |] eqn:S; try discriminate. cbn [bind] in R2. assert (next_id h0 <= next_id h1) as NM.
    { assert (run client h0 [e] = Ok h1) as R1 by (cbn [run]; rewrite S; reflexivity). apply next_mono in R1. exact R1. }
    eapply IH; [intro J; apply NT; right; exact J|exact R2| |lia].
    intros a A EI. destruct e as [neg|id'|inited|s'|s' rp|s'|]; cbn [step] in S.
    - unfold new_channel in S. destruct (match neg with Some _ => _ | None => _ end); [discriminate|]. cbn [bind] in S. injection S as <-.
      cbn [allocs] in A. apply in_app_or in A as [A|[<-|[]]]; [auto|cbn in EI; lia].
    - unfold confirm in S. destruct (existsb _ _); [|discriminate]. injection S as <-. cbn [allocs] in A. revert A C0. clear - EI.
      induction (allocs h0) as [|x l IH]; cbn [upd_id]; [intros []|]. destruct (a_id x =? id'); intros [<-|J] C0; cbn [a_conf]; try reflexivity.
      + apply C0; [right; exact J|exact EI]. + apply C0; [left; reflexivity|exact EI]. + apply IH; [exact J|]. intros b B. apply C0. right. exact B.
    - destruct inited; [exfalso; apply NT; left; reflexivity|]. injection S as <-. auto.
    - injection S as <-. unfold ensure_channel_id_for in A. destruct (existsb _ _); [auto|]. cbn [allocs] in A. apply in_app_or in A as [A|[<-|[]]]; [auto|cbn in EI; lia].
    - destruct (channel_by_stream h0 s') as [id'|]; injection S as <-; [|auto]. cbn [allocs remove_channel] in A. apply filter_In in A as [A _]. auto.
    - injection S as <-. auto.
    - injection S as <-. auto. }
  unfold handle_timeout in H. cbn [negb] in H. injection H as <- <-. destruct HS as (b' & B1 & B2 & B3 & B4). cbn [allocs] in B1.
  apply in_map_iff in B1 as (b & EB & B1). apply opened_in. exists b. split; [exact B1|].
  assert (a_id b = id /\ a_stream b = Some s) as [X1 X2] by (unfold open_one in EB; destruct (a_stream b) eqn:SB; subst b'; cbn in *; split; congruence).
  repeat split; try assumption. destruct (do_alloc_pass h client) as (l' & t' & E & P). rewrite E in B1. cbn [allocs] in B1.
  destruct (pass_bwd _ _ _ _ _ P _ B1) as (c & D1 & D2 & D3). rewrite <- D3. apply CH; [exact D1|congruence].
Qed.
Print Assumptions C30_opened_only_when_confirmed.
Print Assumptions C30_opened_once.
Print Assumptions C30_opened_when_ready.

(** ** Non-trivial case: an auto channel, a negotiated one, a remote one, a close and a reopen. *)
Example demo : exists h,
  run true init [ENew (Some 5); ENew None; EConfirm 0; EConfirm 1; ETimeout true; ERemote 7; EClosed 0 true; ENew None; ETimeout true] = Ok h /\
  map (fun a => (a_id a, a_stream a)) (allocs h) = [(0, Some 5); (2, Some 7); (3, Some 2)] /\ held h = [0].
Proof. eexists. split; [vm_compute; reflexivity|]. split; reflexivity. Qed.

(** ** Where the claim fails: an automatic channel created before a negotiated one with id 0 takes
    that id.  The negotiated channel never opens, and the handler asks to be called again
    immediately, for ever. *)
Fixpoint timeouts (n : nat) (h : handler) : handler :=
  match n with O => h | S n' => timeouts n' (fst (handle_timeout h true true)) end.

Theorem C30_negotiated_taken_refuted : exists h,
  run true init [ENew None; EConfirm 0; ENew (Some 0); EConfirm 1; ETimeout true] = Ok h /\
  has h 0 (Some 0) None /\
  forall n, wants_timeout_now (timeouts n h) true = true /\ has (timeouts n h) 1 None (Some 0).
Proof.
  eexists. split; [vm_compute; reflexivity|].
  match goal with |- has ?x _ _ _ /\ _ => set (h := x) end.
  split; [exists (mkAlloc 0 (Some 0) None false); repeat split; left; reflexivity|].
  assert (fst (handle_timeout h true true) = h) as FIX by (vm_compute; reflexivity).
  assert (forall n, timeouts n h = h) as T by (induction n; cbn [timeouts]; [reflexivity|rewrite FIX; assumption]).
  intro n. rewrite T. split; [vm_compute; reflexivity|].
  exists (mkAlloc 1 None (Some 0) true). repeat split. right. left. reflexivity.
Qed.

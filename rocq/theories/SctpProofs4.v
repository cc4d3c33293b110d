(** Lemmas about the channel handler (C48). *)
From Verif Require Import Base BaseFacts ChanModel ChanProps.

Definition on (h : handler) (c s : Z) : Prop := exists a, In a (allocs h) /\ a_id a = c /\ a_stream a = Some s.

Lemma sbc_on h c s : good h -> (stream_by_channel h c = Some s <-> on h c s).
Proof.
  intros G. unfold stream_by_channel. split.
  - destruct (find _ (allocs h)) as [a|] eqn:F; [|discriminate]. intro E. apply find_some in F as [F1 F2]. apply Z.eqb_eq in F2. exists a. auto.
  - intros (a & I & E & S). destruct (find (fun b => a_id b =? c) (allocs h)) as [b|] eqn:F.
    + apply find_some in F as [F1 F2]. apply Z.eqb_eq in F2.
      destruct (good_unique h G) as (U & _ & _). destruct (U c (Some s) (a_neg a) (a_stream b) (a_neg b)) as [X _]; [exists a; auto|exists b; auto|]. congruence.
    + apply find_none with (x := a) in F; [|exact I]. rewrite E, Z.eqb_refl in F. discriminate.
Qed.
Lemma cbs_on h c s : good h -> (channel_by_stream h s = Some c <-> on h c s).
Proof. intro G. rewrite <- sbc_on by exact G. apply good_unique. exact G. Qed.
Lemma on_fun h c s s' : good h -> on h c s -> on h c s' -> s = s'.
Proof. intros G H1 H2. apply sbc_on in H1, H2; auto. congruence. Qed.
Lemma on_inj h c c' s : good h -> on h c s -> on h c' s -> c = c'.
Proof. intros G H1 H2. apply cbs_on in H1, H2; auto. congruence. Qed.
Lemma cbs_none h s : good h -> (channel_by_stream h s = None <-> forall c, ~ on h c s).
Proof.
  intro G. split.
  - intros H c O. apply cbs_on in O; [|exact G]. congruence.
  - intro H. destruct (channel_by_stream h s) as [c|] eqn:E; [|reflexivity]. apply cbs_on in E; [|exact G]. destruct (H c E).
Qed.
Lemma on_lt h c s : good h -> on h c s -> 0 <= c < next_id h.
Proof. intros G (a & I & <- & _). apply (g_lt _ G). exact I. Qed.

Definition known (h : handler) (c : Z) : Prop := exists a, In a (allocs h) /\ a_id a = c.
Lemma on_known h c s : on h c s -> known h c.
Proof. intros (a & I & E & _). exists a. auto. Qed.

(** new_channel *)
Lemma new_on h neg h' id : good h -> new_channel h neg = Ok (h', id) ->
  good h' /\ id = next_id h /\ next_id h' = id + 1 /\ (forall c s, on h' c s <-> on h c s) /\ (forall c, known h' c <-> known h c \/ c = id) /\
  (forall a, In a (allocs h') -> a_conf a = true -> In a (allocs h)).
Proof.
  intros G H. assert (step true h (ENew neg) = Ok h') as S by (cbn [step]; rewrite H; reflexivity). apply good_step in S; [|exact G].
  unfold new_channel in H. destruct (match neg with Some _ => _ | None => _ end); [discriminate|]. injection H as <- <-.
  split; [exact S|]. split; [reflexivity|]. split; [reflexivity|]. cbn [allocs]. unfold on, known. cbn [allocs]. split; [|split].
  - intros c s. split.
    + intros (a & I & E1 & E2). apply in_app_or in I as [I|[<-|[]]]; [exists a; auto|discriminate].
    + intros (a & I & E). exists a. split; [apply in_or_app; left; exact I|exact E].
  - intro c. split.
    + intros (a & I & E). apply in_app_or in I as [I|[<-|[]]]; [left; exists a; auto|right; auto].
    + intros [(a & I & E)|E]; [exists a; split; [apply in_or_app; left; exact I|exact E]|].
      eexists. split; [apply in_or_app; right; left; reflexivity|]. cbn. auto.
  - intros a I C. apply in_app_or in I as [I|[<-|[]]]; [exact I|discriminate].
Qed.

Lemma upd_in l id f a : In a (upd_id l id f) -> In a l \/ exists b, In b l /\ a_id b = id /\ a = f b.
Proof.
  induction l as [|x l IH]; [intros []|]. cbn [upd_id]. destruct (Z.eqb_spec (a_id x) id).
  - intros [<-|H]; [right; exists x; cbn; auto|left; right; exact H].
  - intros [<-|H]; [left; left; reflexivity|]. destruct (IH H) as [K|(b & K & K2)]; [left; right; exact K|right; exists b; cbn; tauto].
Qed.
Lemma upd_fwd l id f a : In a l -> In a (upd_id l id f) \/ (a_id a = id /\ In (f a) (upd_id l id f)).
Proof.
  induction l as [|x l IH]; [intros []|]. cbn [upd_id]. destruct (Z.eqb_spec (a_id x) id).
  - intros [<-|H]; [right; split; [assumption|left; reflexivity]|left; right; exact H].
  - intros [<-|H]; [left; left; reflexivity|]. destruct (IH H) as [K|[K1 K2]]; [left; right; exact K|right; split; [exact K1|right; exact K2]].
Qed.

(** confirm *)
Lemma confirm_on h id h' : good h -> confirm h id = Ok h' ->
  good h' /\ next_id h' = next_id h /\ (forall c s, on h' c s <-> on h c s) /\ (forall c, known h' c <-> known h c) /\
  (forall a, In a (allocs h') -> a_conf a = true -> a_id a = id \/ In a (allocs h)).
Proof.
  intros G H. assert (good h') as G' by (eapply (good_step true h (EConfirm id)); eauto).
  unfold confirm in H. destruct (existsb _ _); [|discriminate]. injection H as <-. split; [exact G'|]. split; [reflexivity|].
  set (f := fun a => mkAlloc (a_id a) (a_stream a) (a_neg a) true) in *. unfold on, known. cbn [allocs]. split; [|split].
  - intros c s. split.
    + intros (a & I & E1 & E2). apply upd_in in I as [I|(b & I & _ & ->)]; [exists a; auto|exists b; auto].
    + intros (a & I & E1 & E2). apply (upd_fwd _ id f) in I as [I|[_ I]]; [exists a; auto|exists (f a); auto].
  - intros c. split.
    + intros (a & I & E1). apply upd_in in I as [I|(b & I & _ & ->)]; [exists a; auto|exists b; auto].
    + intros (a & I & E1). apply (upd_fwd _ id f) in I as [I|[_ I]]; [exists a; auto|exists (f a); auto].
  - intros a I C. apply upd_in in I as [I|(b & I & E & ->)]; [auto|left; exact E].
Qed.

(** handle_timeout *)
Lemma timeout_on h inited client h' l : good h -> handle_timeout h inited client = (h', l) ->
  good h' /\ next_id h' = next_id h /\ (forall c s, on h c s -> on h' c s) /\ (forall c, known h' c <-> known h c) /\
  (forall c s, In (c, s) l -> on h' c s /\ exists a, In a (allocs h) /\ a_id a = c /\ a_conf a = true) /\
  (inited = false -> h' = h /\ l = []) /\
  (forall a, In a (allocs h') -> a_conf a = true -> exists b, In b (allocs h) /\ a_id b = a_id a /\ a_conf b = true).
Proof.
  intros G H. pose proof (good_timeout h inited client G) as G'. rewrite H in G'. cbn [fst] in G'. split; [exact G'|].
  unfold handle_timeout in H. destruct inited; cbn [negb] in H.
  2:{ injection H as <- <-. repeat split; auto; try (intros ? ? []); eauto; contradiction. }
  destruct (do_alloc_pass h client) as (l' & t' & EQ & PS). rewrite EQ in H. cbn [allocs next_id held] in H. injection H as <- <-.
  split; [reflexivity|]. split; [|split; [|split; [|split]]].
  - intros c s (a & I & E1 & E2). pose proof (pass_fwd _ _ _ _ _ PS a s I E2) as I'. exists (open_one a). cbn [allocs].
    split; [apply in_map, I'|]. unfold open_one. rewrite E2. auto.
  - intro c. assert (map a_id (map open_one l') = map a_id (allocs h)) as M by (rewrite open_ids; eapply pass_ids; eauto).
    unfold known. cbn [allocs]. split; intros (a & I & E).
    + assert (In c (map a_id (allocs h))) as K by (rewrite <- M, <- E; apply in_map, I). apply in_map_iff in K as (b & K1 & K2). eauto.
    + assert (In c (map a_id (map open_one l'))) as K by (rewrite M, <- E; apply in_map, I). apply in_map_iff in K as (b & K1 & K2). eauto.
  - intros c s I. apply opened_in in I as (a & I & E & S & C). split.
    + exists (open_one a). cbn [allocs]. split; [apply in_map, I|]. unfold open_one. rewrite S. auto.
    + destruct (pass_bwd _ _ _ _ _ PS a I) as (b & B1 & B2 & B3). exists b. split; [exact B1|]. split; congruence.
  - discriminate.
  - intros a I C. cbn [allocs] in I. apply in_map_iff in I as (a' & <- & I). destruct (pass_bwd _ _ _ _ _ PS a' I) as (b & B1 & B2 & B3).
    exists b. split; [exact B1|]. unfold open_one in *. destruct (a_stream a') eqn:S; cbn in C |- *; [discriminate|]. split; congruence.
Qed.

(** ensure_channel_id_for *)
Lemma ensure_on h s : good h -> let h' := ensure_channel_id_for h s in
  good h' /\ next_id h <= next_id h' /\ (forall c s', on h c s' -> on h' c s') /\
  (forall c s', on h' c s' -> on h c s' \/ (c = next_id h /\ s' = s /\ forall c', ~ on h c' s)) /\
  (forall c, known h' c -> known h c \/ c = next_id h) /\ (exists c, on h' c s) /\
  (forall a, In a (allocs h') -> a_conf a = true -> In a (allocs h)).
Proof.
  intros G h'. assert (good h') as G' by (eapply (good_step true h (ERemote s)); eauto; reflexivity). split; [exact G'|].
  unfold h', ensure_channel_id_for in *. destruct (existsb (fun a => opt_is (a_stream a) s) (allocs h)) eqn:E.
  - split; [lia|]. repeat split; auto. apply existsb_exists in E as (a & I & E). exists (a_id a), a. split; [exact I|]. split; [reflexivity|].
    destruct (a_stream a) as [x|]; [|discriminate]. cbn in E. apply Z.eqb_eq in E. congruence.
  - assert (forall c', ~ on h c' s) as N.
    { intros c' (a & I & _ & S). enough (existsb (fun a => opt_is (a_stream a) s) (allocs h) = true) by congruence.
      apply existsb_exists. exists a. split; [exact I|]. rewrite S. cbn. apply Z.eqb_refl. }
    cbn [next_id]. split; [lia|]. unfold on, known. cbn [allocs]. split; [|split; [|split; [|split]]].
    + intros c s' (a & I & K). exists a. split; [apply in_or_app; left; exact I|exact K].
    + intros c s' (a & I & K1 & K2). apply in_app_or in I as [I|[<-|[]]]; [left; exists a; auto|right]. cbn in K1, K2. repeat split; try congruence. exact N.
    + intros c (a & I & K). apply in_app_or in I as [I|[<-|[]]]; [left; exists a; auto|right]. cbn in K. auto.
    + exists (next_id h). eexists. split; [apply in_or_app; right; left; reflexivity|]. cbn. auto.
    + intros a I C. apply in_app_or in I as [I|[<-|[]]]; [exact I|discriminate].
Qed.

(** remove_channel *)
Lemma remove_on h c p : good h -> (exists s, on h c s) -> let h' := remove_channel h c p in
  good h' /\ next_id h' = next_id h /\ (forall c' s', on h' c' s' <-> on h c' s' /\ c' <> c) /\
  (forall c', known h' c' <-> known h c' /\ c' <> c) /\ (forall a, In a (allocs h') -> In a (allocs h)).
Proof.
  intros G (s & O) h'.
  assert (good h') as G'.
  { eapply (good_step true h (EClosed s p)); [exact G|]. cbn [step]. apply cbs_on in O; [|exact G]. rewrite O. reflexivity. }
  split; [exact G'|]. split; [reflexivity|]. unfold h', remove_channel, on, known. cbn [allocs].
  assert (forall a, In a (filter (fun a => negb (a_id a =? c)) (allocs h)) <-> In a (allocs h) /\ a_id a <> c) as F.
  { intro a. rewrite filter_In. destruct (Z.eqb_spec (a_id a) c); cbn; intuition congruence. }
  split; [|split].
  - intros c' s'. split.
    + intros (a & I & E1 & E2). apply F in I as [I N]. split; [exists a; auto|congruence].
    + intros [(a & I & E1 & E2) N]. exists a. split; [apply F; split; [exact I|congruence]|auto].
  - intros c'. split.
    + intros (a & I & E1). apply F in I as [I N]. split; [exists a; auto|congruence].
    + intros [(a & I & E1) N]. exists a. split; [apply F; split; [exact I|congruence]|auto].
  - intros a I. apply F in I. tauto.
Qed.

(** Format parameters: what is read from the pairs. *)
From Coq Require Import String Ascii Permutation.
From Verif Require Import Base BaseFacts PayModel PrioModel TextModel TextFacts SdpModel SdpSpec SdpProofs1 SdpProofs2.

Lemma bool_back : forall b, seqb (bdisp b) (T "1") = b.
Proof. intros []; reflexivity. Qed.
(** one parameter that is not profile, tier and level *)
Lemma fp_back : forall f, fp_ok f -> is_ptl f = false -> exists k v, pairs f = [(k, v)] /\ fp_parse k v = f.
Proof.
  intros f H P. destruct f; cbn [pairs is_ptl fp_ok] in *; unfold u8, u32 in *; try (exfalso; congruence); try (destruct H; fail);
    do 2 eexists; (split; [reflexivity|]);
    match goal with |- fp_parse ?k ?v = _ => unfold fp_parse end;
    repeat match goal with |- context [seqb (T ?a) (T ?b)] => let x := eval vm_compute in (seqb (T a) (T b)) in change (seqb (T a) (T b)) with x; cbv iota end;
    rewrite ?bool_back; unfold read_u8, read_u16, read_u32, fp_opt; rewrite ?read_dec, ?read_hex_pad by lia; try reflexivity.
  all: destruct (Z.leb_spec v 32767); [reflexivity|lia].
Qed.
Lemma in_existsb : forall x l, In x l -> existsb (Z.eqb x) l = true.
Proof. intros x l H. apply existsb_exists. exists x. split; [exact H|apply Z.eqb_refl]. Qed.
Definition levck (lv : list Z) : bool :=
  forallb (fun n => match index_of (nth n lv 0) lv 0 with Some o => o =? Z.of_nat n | None => false end) (seq 0 (length lv)).
Lemma level_back : forall lv i, levck lv = true -> 0 <= i < zlen lv -> index_of (level_id lv i) lv 0 = Some i.
Proof.
  intros lv i H Hi. unfold levck in H. rewrite forallb_forall in H. specialize (H (Z.to_nat i)). unfold zlen in Hi.
  specialize (H ltac:(apply in_seq; lia)). cbv beta in H. unfold level_id. destruct (index_of _ lv 0) as [o|]; [|discriminate].
  apply Z.eqb_eq in H. f_equal. lia.
Qed.
Lemma ptl_back : forall pr lv p, levck lv = true -> ptl_ok pr lv p ->
  ptl_new pr lv (pl_profile p) (pl_tier p) (level_id lv (pl_level p)) = Some p.
Proof.
  intros pr lv [a b c] H (H1 & H2 & H3). cbn [pl_profile pl_tier pl_level] in *. unfold ptl_new.
  rewrite in_existsb by exact H1. cbn [negb]. replace ((b =? 0) || (b =? 1)) with true by lia. cbn [negb].
  rewrite level_back by assumption. reflexivity.
Qed.
Lemma index_none : forall l v i, ~ In v l -> index_of v l i = None.
Proof.
  induction l as [|x l IH]; intros v i H; [reflexivity|]. cbn [index_of].
  destruct (Z.eqb_spec v x) as [E|E]; [exfalso; apply H; left; lia|]. apply IH. intro; apply H; right; assumption.
Qed.
(** the level numbers of H.265 and H.266 are disjoint *)
Lemma levels_apart : forall i, 0 <= i < zlen h266_levels -> ~ In (level_id h266_levels i) h265_levels.
Proof.
  intros i H. assert (G : forallb (fun v => negb (existsb (Z.eqb v) h265_levels)) h266_levels = true) by reflexivity.
  rewrite forallb_forall in G. specialize (G (level_id h266_levels i)). intro C. apply in_existsb in C.
  assert (I : In (level_id h266_levels i) h266_levels) by (apply nth_In; unfold zlen in H; lia).
  specialize (G I). rewrite C in G. discriminate.
Qed.
Lemma h266_not_h265 : forall p, ptl_ok h266_profiles h266_levels p ->
  h265_new (pl_profile p) (pl_tier p) (level_id h266_levels (pl_level p)) = None.
Proof.
  intros p (_ & _ & H). unfold h265_new, ptl_new. rewrite (index_none h265_levels) by (apply levels_apart; exact H).
  destruct (negb (existsb _ _)); [reflexivity|]. destruct (negb (_ || _)); reflexivity.
Qed.

(** ** maps *)
Lemma last_wins_id : forall l, NoDup (map fst l) -> last_wins l = l.
Proof.
  induction l as [|[k v] l IH]; intro H; [reflexivity|]. cbn [map fst] in H. inversion H as [|? ? N D]; subst.
  cbn [last_wins fst]. destruct (existsb _ l) eqn:E.
  - exfalso. apply N. apply existsb_exists in E. destruct E as (kv & I & Q). apply seqb_eq in Q. rewrite Q. apply in_map. exact I.
  - rewrite IH by exact D. reflexivity.
Qed.
Lemma lookup_in : forall l k v, NoDup (map fst l) -> In (k, v) l -> lookup k l = Some v.
Proof.
  induction l as [|[k' v'] l IH]; intros k v N I; [destruct I|]. cbn [map fst] in N. inversion N as [|? ? M D]; subst. cbn [lookup].
  destruct I as [E|I].
  - inversion E; subst. rewrite seqb_refl. reflexivity.
  - rewrite seqb_neq; [apply IH; assumption|]. intros ->. apply M. apply (in_map fst) in I. exact I.
Qed.
(** keys of different parameters differ *)
Definition kidx (k : str) : nat :=
  if seqb k (T "minptime") then 0 else if seqb k (T "stereo") then 1 else if seqb k (T "sprop-stereo") then 2
  else if seqb k (T "useinbandfec") then 3 else if seqb k (T "usedtx") then 4 else if seqb k (T "level-asymmetry-allowed") then 5
  else if seqb k (T "packetization-mode") then 6 else if seqb k (T "profile-level-id") then 7
  else if seqb k (T "profile") then 9 else if seqb k (T "level-idx") then 10 else if seqb k (T "tier") then 11
  else if seqb k (T "sprop-max-don-diff") then 14 else if seqb k (T "apt") then 15 else 12.
Definition key' (f : fparam) : nat := if is_ptl f then 12%nat else fp_key f.
Lemma kidx_pairs : forall f k v, (forall v, f <> ProfileId v) -> In (k, v) (pairs f) -> kidx k = key' f.
Proof.
  intros f k v N I. destruct f; cbn [pairs pairs_ptl In] in I;
    repeat match goal with H : _ \/ _ |- _ => destruct H as [H|H] end; try (destruct I; fail);
    match goal with H : (_, _) = (_, _) |- _ => injection H as <- <- end; try reflexivity.
  exfalso. eapply N. reflexivity.
Qed.
Lemma pairs_nodup : forall f, NoDup (map fst (pairs f)).
Proof.
  intro f. destruct f; cbn [pairs pairs_ptl map fst]; repeat (apply NoDup_cons; [cbn [In]; intuition discriminate|]); apply NoDup_nil.
Qed.
Lemma nodup_app : forall A (a b : list A), NoDup a -> NoDup b -> (forall x, In x a -> ~ In x b) -> NoDup (a ++ b).
Proof.
  intros A a b Ha Hb H. induction Ha as [|x a N Ha IH]; [exact Hb|]. cbn. constructor.
  - intro I. apply in_app_or in I. destruct I as [I|I]; [exact (N I)|]. apply (H x); [left; reflexivity|exact I].
  - apply IH. intros y Iy. apply H. right. exact Iy.
Qed.
Lemma flat_nodup : forall l, NoDup (map key' l) -> (forall v, ~ In (ProfileId v) l) -> NoDup (map fst (flat_map pairs l)).
Proof.
  induction l as [|f l IH]; intros N P; [constructor|]. cbn [map flat_map] in *. inversion N as [|? ? M D]; subst.
  rewrite map_app. apply nodup_app; [apply pairs_nodup|apply IH; [exact D|intros v I; apply (P v); right; exact I]|].
  intros k I J. apply in_map_iff in I. destruct I as ([k1 v1] & E1 & I). apply in_map_iff in J. destruct J as ([k2 v2] & E2 & J).
  cbn [fst] in *. subst k1 k2. apply in_flat_map in J. destruct J as (g & Jg & J). apply M.
  rewrite <- (kidx_pairs f k v1); [|intros v ->; apply (P v); left; reflexivity|exact I].
  rewrite (kidx_pairs g k v2); [|intros v ->; apply (P v); right; exact Jg|exact J]. apply in_map. exact Jg.
Qed.
Lemma key_nodup : forall l, NoDup (map fp_key l) -> ~ (exists p q, In (FH265 p) l /\ In (FH266 q) l) -> NoDup (map key' l).
Proof.
  induction l as [|f l IH]; intros N P; [constructor|]. cbn [map] in *. inversion N as [|? ? M D]; subst. constructor.
  - intro I. apply in_map_iff in I. destruct I as (g & E & I). unfold key' in E.
    destruct (is_ptl g) eqn:Pg, (is_ptl f) eqn:Pf.
    + destruct g; try discriminate; destruct f; try discriminate.
      * apply M. apply in_map_iff. eexists. split; [|exact I]. reflexivity.
      * apply P. do 2 eexists. split; [right; exact I|left; reflexivity].
      * apply P. do 2 eexists. split; [left; reflexivity|right; exact I].
      * apply M. apply in_map_iff. eexists. split; [|exact I]. reflexivity.
    + destruct f; discriminate.
    + destruct g; discriminate.
    + apply M. rewrite <- E. apply in_map. exact I.
  - apply IH; [exact D|]. intros (p & q & H1 & H2). apply P. exists p, q. split; right; assumption.
Qed.

(** ** the reader's list *)
Lemma plain_back : forall l, Forall fp_ok l -> existsb is_ptl l = false ->
  map (fun kv => fp_parse (fst kv) (snd kv)) (flat_map pairs l) = l.
Proof.
  intros l H P. induction H as [|f l Hf H IH]; [reflexivity|]. cbn [existsb] in P. apply orb_false_elim in P. destruct P as [P1 P2].
  cbn [flat_map]. destruct (fp_back f Hf P1) as (k & v & E & B). rewrite E. cbn [app map fst snd]. rewrite B, IH by exact P2. reflexivity.
Qed.
Definition tl_key (kv : str * str) : bool := seqb (fst kv) (T "tier-flag") || seqb (fst kv) (T "level-id").
Definition rest_key (kv : str * str) : bool :=
  negb (seqb (fst kv) (T "profile-id")) && negb (seqb (fst kv) (T "tier-flag")) && negb (seqb (fst kv) (T "level-id")).
Lemma tl_pairs : forall f, fp_ok f -> existsb tl_key (pairs f) = is_ptl f.
Proof. intros f H. destruct f; try reflexivity. Qed.
Lemma tl_flat : forall l, Forall fp_ok l -> existsb tl_key (flat_map pairs l) = existsb is_ptl l.
Proof.
  intros l H. induction H as [|f l Hf H IH]; [reflexivity|]. cbn [flat_map existsb]. rewrite existsb_app, tl_pairs by exact Hf. rewrite IH. reflexivity.
Qed.
Lemma rest_pairs : forall f, fp_ok f -> (forall v, f <> ProfileId v) -> filter rest_key (pairs f) = if is_ptl f then [] else pairs f.
Proof. intros f H N. destruct f; try reflexivity. exfalso. eapply N. reflexivity. Qed.
Lemma rest_flat : forall l, Forall fp_ok l -> (forall v, ~ In (ProfileId v) l) ->
  filter rest_key (flat_map pairs l) = flat_map pairs (filter (fun f => negb (is_ptl f)) l).
Proof.
  intros l H N. induction H as [|f l Hf H IH]; [reflexivity|]. cbn [flat_map filter]. rewrite filter_app, rest_pairs.
  - rewrite IH by (intros v I; apply (N v); right; exact I). destruct (is_ptl f); reflexivity.
  - exact Hf.
  - intros v ->. apply (N v). left. reflexivity.
Qed.
Lemma filter_none : forall l, existsb is_ptl (filter (fun f => negb (is_ptl f)) l) = false.
Proof.
  induction l as [|f l IH]; [reflexivity|]. cbn [filter]. destruct (is_ptl f) eqn:E; cbn [negb]; [exact IH|]. cbn [existsb]. rewrite E. exact IH.
Qed.
Lemma filter_all : forall l, ~ In 12%nat (map key' l) -> filter (fun f => negb (is_ptl f)) l = l.
Proof.
  induction l as [|f l IH]; intro N; [reflexivity|]. cbn [map In filter] in *. destruct (is_ptl f) eqn:E.
  - exfalso. apply N. left. unfold key'. rewrite E. reflexivity.
  - cbn [negb]. rewrite IH; [reflexivity|]. intro; apply N; right; assumption.
Qed.
Lemma split_ptl : forall l, existsb is_ptl l = true -> NoDup (map key' l) ->
  exists p, is_ptl p = true /\ In p l /\ Permutation l (p :: filter (fun f => negb (is_ptl f)) l).
Proof.
  induction l as [|f l IH]; intros E N; [discriminate|]. cbn [map existsb filter] in *. inversion N as [|? ? M D]; subst.
  destruct (is_ptl f) eqn:P; cbn [negb].
  - exists f. split; [exact P|]. split; [left; reflexivity|]. rewrite filter_all; [apply Permutation_refl|].
    unfold key' in M at 1. rewrite P in M. exact M.
  - cbn [orb] in E. destruct (IH E D) as (p & Pp & I & Q). exists p. split; [exact Pp|]. split; [right; exact I|].
    apply perm_trans with (f :: p :: filter (fun f => negb (is_ptl f)) l); [constructor; exact Q|constructor].
Qed.
Lemma filter_perm : forall A (f : A -> bool) l m, Permutation l m -> Permutation (filter f l) (filter f m).
Proof.
  intros A f l m H. induction H; cbn [filter].
  - constructor.
  - destruct (f x); [constructor|]; assumption.
  - destruct (f x), (f y); try apply Permutation_refl. constructor.
  - eapply perm_trans; eassumption.
Qed.
Lemma in_flat_pairs : forall l p kv, In p l -> In kv (pairs p) -> In kv (flat_map pairs l).
Proof. intros. apply in_flat_map. eauto. Qed.
Lemma ptl_from_ok : forall mk l a b c, NoDup (map fst l) -> 0 <= a <= 255 -> 0 <= b <= 255 -> 0 <= c <= 255 ->
  In (T "profile-id", dec a) l -> In (T "tier-flag", dec b) l -> In (T "level-id", dec c) l -> ptl_from mk l = mk a b c.
Proof.
  intros mk l a b c N Ha Hb Hc I1 I2 I3. unfold ptl_from, read_u8.
  rewrite (lookup_in _ _ _ N I1), read_dec by lia. rewrite (lookup_in _ _ _ N I2), read_dec by lia.
  rewrite (lookup_in _ _ _ N I3), read_dec by lia. reflexivity.
Qed.
Lemma ptl_u8 : forall pr lv p, ptl_ok pr lv p -> Forall (fun x => 0 <= x <= 255) pr -> Forall (fun x => 0 <= x <= 255) lv ->
  0 <= pl_profile p <= 255 /\ 0 <= pl_tier p <= 255 /\ 0 <= level_id lv (pl_level p) <= 255.
Proof.
  intros pr lv p (H1 & H2 & H3) Hp Hl. rewrite Forall_forall in Hp. specialize (Hp _ H1).
  pose proof (nth_range lv 255 (Z.to_nat (pl_level p)) Hl) as Hlv. unfold level_id. lia.
Qed.
Lemma parse_pairs_ok : forall e l, env_ok e -> fmtp_ok l -> fmtp_reads l (parse_pairs e (flat_map pairs l)).
Proof.
  intros e l He (Hok & H). unfold parse_pairs, fmtp_reads.
  change (existsb (fun kv => seqb (fst kv) (T "tier-flag") || seqb (fst kv) (T "level-id")) (flat_map pairs l))
    with (existsb tl_key (flat_map pairs l)).
  rewrite tl_flat by exact Hok. destruct (existsb is_ptl l) eqn:P.
  2:{ apply plain_back; assumption. }
  destruct H as [H|(N & NP & NB)]; [discriminate|]. pose proof (key_nodup l N NB) as K.
  pose proof (flat_nodup l K NP) as D. rewrite (last_wins_id _ D).
  destruct (split_ptl l P K) as (p & Pp & Ip & Q).
  assert (Fp : fp_ok p) by (rewrite Forall_forall in Hok; apply Hok; exact Ip).
  assert (HEAD : match ptl_from h265_new (flat_map pairs l) with
     | Some p => [FH265 p]
     | None => match ptl_from h266_new (flat_map pairs l) with Some p => [FH266 p] | None => [] end end = [p]).
  { destruct p as [| | | | | | | | | | | |q|q| | |]; try discriminate; cbn [fp_ok] in Fp;
      pose proof (fun kv => in_flat_pairs l _ kv Ip) as I; cbn [pairs pairs_ptl In] in I;
      (destruct (ptl_u8 _ _ _ Fp) as (R1 & R2 & R3); [apply byte_list; reflexivity|apply byte_list; reflexivity|]).
    - rewrite (ptl_from_ok h265_new _ _ _ _ D R1 R2 R3) by (apply I; auto). unfold h265_new. rewrite ptl_back by (reflexivity || exact Fp). reflexivity.
    - rewrite (ptl_from_ok h265_new _ _ _ _ D R1 R2 R3) by (apply I; auto). rewrite h266_not_h265 by exact Fp.
      rewrite (ptl_from_ok h266_new _ _ _ _ D R1 R2 R3) by (apply I; auto). unfold h266_new. rewrite ptl_back by (reflexivity || exact Fp). reflexivity. }
  rewrite HEAD. cbn [app]. do 2 eexists. split; [reflexivity|]. split; [exact Pp|].
  eapply perm_trans; [exact Q|]. constructor. fold rest_key.
  pose proof (filter_perm _ rest_key _ _ (eo_shuf e He (flat_map pairs l))) as S. rewrite rest_flat in S by assumption.
  eapply perm_trans; [|apply Permutation_map; exact S]. rewrite plain_back; [apply Permutation_refl| |apply filter_none].
  apply Forall_forall. intros f If. apply filter_In in If. rewrite Forall_forall in Hok. apply Hok. apply If.
Qed.
Lemma fmtp_line : forall e pt l r, pt_ok pt -> fmtp_ok l -> l <> [] ->
  p_fmtp e (T "a=fmtp:" ++ dec pt ++ T " " ++ join (T ";") (map show_fparam l) ++ crlf ++ r) = POk true (MFmtp pt (parse_pairs e (flat_map pairs l))) r.
Proof.
  intros e pt l r Hpt Hl N.
  destruct Hl as [Hok _]. rewrite show_flat by exact Hok. unfold p_fmtp. eapply choice_hit. eapply attempt_ok.
  eapply (attr_ok _ (T "fmtp")); [discriminate|].
  eapply pbind_okt; [apply pt_read; [exact Hpt|reflexivity]|]. eapply pbind_okt; [reflexivity|].
  eapply pbind_okt; [apply kvs_ok; [apply flat_ne; assumption|apply flat_ok; exact Hok]|]. reflexivity.
Qed.

(** Session attributes, media descriptions, the whole description. *)
From Coq Require Import String Ascii Permutation.
From Verif Require Import Base BaseFacts PayModel PrioModel TextModel TextFacts SdpModel SdpSpec SdpProofs1 SdpProofs2 SdpProofs3 SdpProofs4 SdpProofs5.

(** ** session attributes *)
Definition sreads_as (e : env) (a a' : sattr) (s : str) : Prop :=
  show_sattr e a = Ok s /\ (exists t, s = 97 :: 61 :: t) /\ forall r, p_sattr e (s ++ r) = POk true a' r.
Lemma cand_prefix : forall s, prefixb (T "candidate:") s = true -> exists t, s = T "candidate:" ++ t.
Proof.
  intros s Pre. do 10 (destruct s as [|? s]; [discriminate|cbn [prefixb T map list_ascii_of_string] in Pre; apply andb_prop in Pre; destruct Pre as [H Pre]; apply Z.eqb_eq in H; subst]).
  exists s. reflexivity.
Qed.
Lemma session_read : forall e a, env_ok e -> sattr_ok a -> exists s a', sattr_reads e a a' /\ sreads_as e a a' s.
Proof.
  intros e a He Ha. destruct a as [t m|sm l| | |v|v|v|v|v|c| |v]; cbn [sattr_ok sattr_reads] in *.
  (* group *)
  - destruct Ha as (H1 & H2 & H3). do 2 eexists. split; [reflexivity|]. split; [reflexivity|]. split; [eexists; reflexivity|]. intro r. rewrite <- !app_assoc.
    unfold p_sattr, session_alts. hit. at_a "group"%string.
    eapply pbind_okt; [apply not_sp_ok; [exact H1|reflexivity]|]. eapply pbind_okt; [reflexivity|].
    eapply pbind_okt; [|reflexivity].
    pose proof (sep_list _ (pmap mid_from not_sp) 32 (fun m => m) m (crlf ++ r)) as G. rewrite map_id in G. apply G; [exact H2| |discriminate].
    intros x s Hx Hs. rewrite Forall_forall in H3. specialize (H3 x Hx). rewrite <- (mid_back x H3) at 2. apply pmap_ok.
    apply not_sp_ok; [apply mid_word; exact H3|]. destruct Hs as [[t' ->]| ->]; reflexivity.
  (* msid-semantic *)
  - destruct Ha as (H1 & H2 & H3). do 2 eexists. split; [reflexivity|]. split; [reflexivity|]. split; [eexists; reflexivity|]. intro r. rewrite <- !app_assoc.
    unfold p_sattr, session_alts. skip_r. hit. at_a "msid-semantic"%string.
    eapply pbind_okt; [eapply optional_some; reflexivity|].
    eapply pbind_okt; [apply not_sp_ok; [exact H1|reflexivity]|]. eapply pbind_okt; [reflexivity|].
    eapply pbind_okt; [|reflexivity].
    pose proof (sep_list _ not_sp 32 (fun m => m) l (crlf ++ r)) as G. rewrite map_id in G. apply G; [exact H2| |discriminate].
    intros x s Hx Hs. rewrite Forall_forall in H3. specialize (H3 x Hx).
    apply not_sp_ok; [exact H3|]. destruct Hs as [[t' ->]| ->]; reflexivity.
  (* extmap-allow-mixed *)
  - do 2 eexists. split; [reflexivity|]. split; [reflexivity|]. split; [eexists; reflexivity|]. intro r. rewrite <- !app_assoc.
    unfold p_sattr, session_alts. do 10 skip_r. eapply choice_hit. eapply pmap_ok. eapply typed_ok.
    apply (any_ok (T "extmap-allow-mixed") r). split; [discriminate|]. apply Forall_forall. intros c Hc. apply not_eol_iff. revert c Hc. apply forallb_forall. reflexivity.
  - do 2 eexists. split; [reflexivity|]. split; [reflexivity|]. split; [eexists; reflexivity|]. intro r. rewrite <- !app_assoc.
    unfold p_sattr, session_alts. do 2 skip_r. hit. eapply (pmap_ok _ _ (fun _ => SIceLite) _ _ _ tt). apply (flag_ok (T "ice-lite")). discriminate.
  - do 2 eexists. split; [reflexivity|]. split; [reflexivity|]. split; [eexists; reflexivity|]. intro r. rewrite <- !app_assoc.
    unfold p_sattr, session_alts. do 3 skip_r. hit. eapply pmap_ok. at_a "ice-ufrag"%string. apply any_ok. exact Ha.
  - do 2 eexists. split; [reflexivity|]. split; [reflexivity|]. split; [eexists; reflexivity|]. intro r. rewrite <- !app_assoc.
    unfold p_sattr, session_alts. do 4 skip_r. hit. eapply pmap_ok. at_a "ice-pwd"%string. apply any_ok. exact Ha.
  - do 2 eexists. split; [reflexivity|]. split; [reflexivity|]. split; [eexists; reflexivity|]. intro r. rewrite <- !app_assoc.
    unfold p_sattr, session_alts. do 5 skip_r. hit. eapply pmap_ok. at_a "ice-options"%string. apply any_ok. exact Ha.
  (* fingerprint *)
  - destruct (finger_ok v [] Ha) as (b & Eb & _). do 2 eexists. split; [reflexivity|]. unfold sreads_as. cbn [show_sattr]. rewrite Eb. cbn [bind].
    split; [reflexivity|]. split; [eexists; reflexivity|]. intro r. rewrite <- !app_assoc. destruct (finger_ok v r Ha) as (b' & Eb' & P).
    rewrite Eb in Eb'. injection Eb' as <-. unfold p_sattr, session_alts. do 6 skip_r. hit. eapply pmap_ok. exact P.
  - do 2 eexists. split; [reflexivity|]. split; [reflexivity|]. split; [eexists; reflexivity|]. intro r. rewrite <- !app_assoc.
    unfold p_sattr, session_alts. do 7 skip_r. hit. eapply pmap_ok. apply setup_ok.
  (* candidate *)
  - destruct (cand_full e c He Ha) as (s & c' & Es & Pre & Seen & P). exists (97 :: 61 :: s ++ crlf), (SCandidate c').
    split; [eauto|]. unfold sreads_as. cbn [show_sattr]. rewrite Es. cbn [bind].
    split; [reflexivity|]. split; [eexists; reflexivity|]. intro r. cbn [app]. rewrite <- app_assoc.
    apply cand_prefix in Pre. destruct Pre as [t ->].
    unfold p_sattr, session_alts. do 8 skip_r. hit. eapply pmap_ok. apply P.
  - do 2 eexists. split; [reflexivity|]. split; [reflexivity|]. split; [eexists; reflexivity|]. intro r. rewrite <- !app_assoc.
    unfold p_sattr, session_alts. do 9 skip_r. hit. eapply (pmap_ok _ _ (fun _ => SEndOfCandidates) _ _ _ tt). apply (flag_ok (T "end-of-candidates")). discriminate.
  (* unknown *)
  - do 2 eexists. split; [reflexivity|]. split; [reflexivity|]. split; [eexists; reflexivity|]. intro r. rewrite <- !app_assoc.
    pose proof (unknown_clear session_names session_flags v r Ha (no_cr_ok session_names eq_refl) (no_cr_ok session_flags eq_refl)) as [Cn Cf].
    change (T "a=" ++ v ++ crlf ++ r) with (97 :: 61 :: v ++ crlf ++ r). unfold p_sattr, session_alts.
    do 10 (skip_with ltac:(first [apply Cn; cbn [session_names map In]; tauto | apply Cf; cbn [session_flags map In]; tauto])).
    eapply choice_hit. eapply pmap_ok. eapply typed_ok. apply any_ok. apply Ha.
Qed.

(** ** ends of repetitions *)
Definition not_attr (s : str) : Prop := match s with [] => True | c :: _ => c <> 97 end.
Lemma attr_other : forall A n (val : parser A) s, not_attr s -> attribute_line n val s = PErr false.
Proof. intros A n val [|c s] H; [reflexivity|]. apply typed_other. exact H. Qed.
Lemma flag_other : forall n s, not_attr s -> attribute_flag n s = PErr false.
Proof. intros n [|c s] H; [reflexivity|]. apply typed_other. exact H. Qed.
Lemma cand_other : forall e s, not_attr s -> p_cand_attr e s = PErr false.
Proof.
  intros e [|c s] H; [reflexivity|]. unfold p_cand_attr. apply bind_peek. unfold lit. cbn [T map list_ascii_of_string lit_go].
  change (Z.of_N (N_of_ascii "a")) with 97. destruct (Z.eqb_spec 97 c); [cbn in H; congruence|reflexivity].
Qed.
Lemma att_err : forall A (p : parser A) s, p s = PErr false -> attempt p s = PErr false.
Proof. intros. apply fails_attempt. exists false. assumption. Qed.
Lemma map_err : forall A B (f : A -> B) p s, p s = PErr false -> pmap f p s = PErr false.
Proof. intros. unfold pmap. rewrite H. reflexivity. Qed.
Ltac other H := first [apply attr_other; exact H | apply flag_other; exact H | apply cand_other; exact H].
Lemma p_mattr_end : forall e s, not_attr s -> p_mattr e s = PErr false.
Proof.
  intros e s H. unfold p_mattr.
  rewrite choice_skip.
  2:{ apply att_err. unfold media_alts1, p_finger, p_setup.
      do 10 (rewrite choice_skip by (apply att_err; first [apply map_err; other H | other H])).
      rewrite choice_skip.
      2:{ apply att_err. do 4 (rewrite choice_skip by (apply att_err; apply map_err; other H)). reflexivity. }
      do 2 (rewrite choice_skip by (apply att_err; first [apply map_err; other H | other H])). reflexivity. }
  rewrite choice_skip.
  2:{ apply att_err. unfold media_alts2, p_rtpmap, p_rid, p_simulcast.
      do 7 (rewrite choice_skip by (apply att_err; first [apply map_err; other H | other H])).
      rewrite choice_skip.
      2:{ apply att_err. unfold p_fmtp. do 2 (rewrite choice_skip by (apply att_err; other H)). reflexivity. }
      do 4 (rewrite choice_skip by (apply att_err; first [apply map_err; other H | other H])). reflexivity. }
  rewrite choice_skip; [reflexivity|]. apply map_err. destruct s as [|c s]; [reflexivity|]. apply typed_other. exact H.
Qed.
Lemma p_sattr_end : forall e s, not_attr s -> p_sattr e s = PErr false.
Proof.
  intros e s H. unfold p_sattr, session_alts, p_finger, p_setup.
  do 10 (rewrite choice_skip by (apply att_err; first [apply map_err; other H | other H])).
  rewrite choice_skip; [reflexivity|]. apply map_err. destruct s as [|c s]; [reflexivity|]. apply typed_other. exact H.
Qed.

(** ** the consistency check *)
Lemma occurs_count : forall A (f : A -> bool) P l n, (forall x, f x = true <-> P x) -> (occurs P l n <-> count f l = Z.of_nat n).
Proof.
  intros A f P l n H. revert n. induction l as [|x l IH]; intro n.
  - cbn. split; intro E; [subst; reflexivity|]. unfold count, zlen in E. cbn in E. lia.
  - cbn [occurs]. unfold count, zlen in *. cbn [filter]. destruct (f x) eqn:E.
    + assert (Px : P x) by (apply H; exact E). cbn [length]. split.
      * intros [(_ & k & -> & O)|(N & _)]; [|contradiction]. apply IH in O. lia.
      * intro C. left. split; [exact Px|]. destruct n as [|k]; [lia|]. exists k. split; [reflexivity|]. apply IH. lia.
    + assert (Px : ~ P x) by (intro Q; apply H in Q; congruence). split.
      * intros [(Q & _)|(_ & O)]; [contradiction|]. apply IH. exact O.
      * intro C. right. split; [exact Px|]. apply IH. exact C.
Qed.
Lemma mid_iff : forall a, is_mid a = true <-> a_mid a.
Proof. intros a. unfold a_mid. split; [destruct a; try discriminate; eauto|intros [m ->]; reflexivity]. Qed.
Lemma setup_iff : forall a, is_setup a = true <-> a_setup a.
Proof. intros a. unfold a_setup. split; [destruct a; try discriminate; eauto|intros [m ->]; reflexivity]. Qed.
Lemma dir_iff : forall a, is_dir a = true <-> a_dir a.
Proof. intros a. unfold a_dir. split; [destruct a; try discriminate; tauto|intros [->|[->|[->| ->]]]; reflexivity]. Qed.
Lemma map_iff : forall pt a, is_map pt a = true <-> a_map pt a.
Proof.
  intros pt a. unfold a_map. split.
  - destruct a; try discriminate. cbn. intro E. apply Z.eqb_eq in E. subst. eauto.
  - intros (c & k & ch & ->). cbn. apply Z.eqb_refl.
Qed.
Lemma static_iff : forall pt, is_some (static_spec pt) = true <-> static_pt pt.
Proof.
  intro pt. unfold static_spec, static_pt. cbn [In].
  destruct (Z.eqb_spec pt 0); [subst; cbn; tauto|]. destruct (Z.eqb_spec pt 8); [subst; cbn; tauto|].
  destruct (Z.eqb_spec pt 9); [subst; cbn; tauto|]. destruct (Z.eqb_spec pt 13); [subst; cbn; tauto|].
  cbn. split; [discriminate|lia].
Qed.
Lemma count_nonneg : forall A (f : A -> bool) l, 0 <= count f l.
Proof. intros. unfold count, zlen. lia. Qed.
Lemma check_iff : forall m, check_consistent m = true <-> consistent m.
Proof.
  intro m. unfold check_consistent.
  pose proof (count_nonneg _ is_mid (ml_attrs m)) as P1. pose proof (count_nonneg _ is_setup (ml_attrs m)) as P2.
  pose proof (count_nonneg _ is_dir (ml_attrs m)) as P3.
  split.
  - intro H. destruct (Z.eqb_spec (count is_mid (ml_attrs m)) 0); [discriminate|].
    destruct (Z.ltb_spec 1 (count is_mid (ml_attrs m))); [discriminate|].
    destruct (Z.ltb_spec 1 (count is_setup (ml_attrs m))); [discriminate|].
    destruct (is_srtp (ml_proto m) && negb (count is_dir (ml_attrs m) =? 1)) eqn:Ed; [discriminate|].
    destruct (is_srtp (ml_proto m) && is_nil (ml_pts m)) eqn:Ep; [discriminate|].
    rewrite forallb_forall in H. constructor.
    + apply (occurs_count _ is_mid); [exact mid_iff|]. cbn. lia.
    + exists (Z.to_nat (count is_setup (ml_attrs m))). split; [|lia]. apply (occurs_count _ is_setup); [exact setup_iff|]. lia.
    + intro Hp. rewrite Hp in Ed. cbn [is_srtp andb] in Ed. apply (occurs_count _ is_dir); [exact dir_iff|]. cbn. lia.
    + intros Hp. rewrite Hp in Ep. cbn [is_srtp andb] in Ep. destruct (ml_pts m); [discriminate|congruence].
    + intros pt I. specialize (H pt I). cbv zeta beta in H. pose proof (count_nonneg _ (is_map pt) (ml_attrs m)) as P4.
      destruct (Z.eqb_spec (count (is_map pt) (ml_attrs m)) 0) as [E0|E0].
      * right. split; [apply (occurs_count _ (is_map pt)); [apply map_iff|exact E0]|]. apply static_iff.
        destruct (is_some (static_spec pt)); [reflexivity|]. cbn in H. discriminate.
      * left. apply (occurs_count _ (is_map pt)); [apply map_iff|]. destruct (Z.ltb_spec 1 (count (is_map pt) (ml_attrs m))); [cbn in H; exfalso; revert H; clear; intro H; congruence|]. cbn. lia.
  - intros [H1 (n & H2 & Hn) H3 H4 H5].
    apply (proj1 (occurs_count _ _ _ _ _ mid_iff)) in H1. apply (proj1 (occurs_count _ _ _ _ _ setup_iff)) in H2.
    rewrite H1. cbn [Z.of_nat Pos.of_succ_nat]. replace (1 =? 0) with false by reflexivity. replace (1 <? 1) with false by reflexivity.
    rewrite H2. destruct (Z.ltb_spec 1 (Z.of_nat n)); [lia|].
    assert (D : is_srtp (ml_proto m) && negb (count is_dir (ml_attrs m) =? 1) = false).
    { destruct (ml_proto m); [|reflexivity]. cbn. specialize (H3 eq_refl). apply (proj1 (occurs_count _ _ _ _ _ dir_iff)) in H3. rewrite H3. reflexivity. }
    assert (E : is_srtp (ml_proto m) && is_nil (ml_pts m) = false).
    { destruct (ml_proto m); [|reflexivity]. cbn. specialize (H4 eq_refl). destruct (ml_pts m); [congruence|reflexivity]. }
    rewrite D, E. apply forallb_forall. intros pt I. cbv zeta.
    destruct (H5 pt I) as [O|[O S]]; apply (proj1 (occurs_count _ _ _ _ _ (map_iff pt))) in O; rewrite O.
    + reflexivity.
    + apply static_iff in S. rewrite S. reflexivity.
Qed.
(** what is read back is as consistent as what was written *)
Lemma count_silent : forall (f : mattr -> bool) l, (forall a, silent a = true -> f a = false) -> count f (filter (fun a => negb (silent a)) l) = count f l.
Proof.
  intros f l H. unfold count. f_equal. induction l as [|a l IH]; [reflexivity|]. cbn [filter]. destruct (silent a) eqn:S; cbn [negb].
  - rewrite H by exact S. exact IH.
  - cbn [filter]. rewrite IH. reflexivity.
Qed.
Lemma count_reads : forall e (f : mattr -> bool) l l', (forall a a', mattr_reads e a a' -> f a' = f a) -> Forall2 (mattr_reads e) l l' -> count f l' = count f l.
Proof.
  intros e f l l' H F. unfold count, zlen. induction F as [|a a' l l' R F IH]; [reflexivity|]. cbn [filter]. rewrite (H a a' R). destruct (f a); cbn [length]; lia.
Qed.
Lemma forallb_ext : forall A (f g : A -> bool) l, (forall x, f x = g x) -> forallb f l = forallb g l.
Proof. intros A f g l H. induction l as [|x l IH]; [reflexivity|]. cbn [forallb]. rewrite H, IH. reflexivity. Qed.
Lemma consistent_reads : forall e m m', consistent m -> mline_reads e m m' -> check_consistent m' = true.
Proof.
  intros e m m' C [_ _ R3 R4 _ R6]. apply check_iff in C. rewrite <- C. unfold check_consistent.
  assert (K : forall f : mattr -> bool, (forall a, silent a = true -> f a = false) -> (forall a a', mattr_reads e a a' -> f a' = f a) ->
    count f (ml_attrs m') = count f (ml_attrs m)).
  { intros f H1 H2. rewrite (count_reads e f _ _ H2 R6). apply count_silent. exact H1. }
  assert (G : forall (f : mattr -> bool), (forall c c', f (MCandidate c) = f (MCandidate c')) -> (forall p l l', f (MFmtp p l) = f (MFmtp p l')) ->
     forall a a', mattr_reads e a a' -> f a' = f a).
  { intros f F1 F2 a a' R. destruct a; cbn [mattr_reads] in R; try (rewrite R; reflexivity).
    - destruct R as (c' & -> & _). apply F1.
    - destruct R as (l' & -> & _). apply F2. }
  assert (FE : forall pts, forallb (fun pt => let n := count (is_map pt) (ml_attrs m') in
                          negb ((n =? 0) && negb (is_some (static_spec pt))) && negb (1 <? n)) pts
     = forallb (fun pt => let n := count (is_map pt) (ml_attrs m) in
                          negb ((n =? 0) && negb (is_some (static_spec pt))) && negb (1 <? n)) pts).
  { intro pts. apply forallb_ext. intro pt. cbv zeta. rewrite K; [reflexivity| |].
    - intros a; destruct a as [| | | | | | | | | | | | | | | | | | | | | | |? [|? ?]| | | | |]; cbn; (reflexivity || discriminate).
    - apply G; reflexivity. }
  rewrite FE. clear FE. cbv zeta.
  rewrite !K; try (apply G; reflexivity); try (intros a; destruct a as [| | | | | | | | | | | | | | | | | | | | | | |? [|? ?]| | | | |]; cbn; (reflexivity || discriminate)).
  rewrite R3, R4. reflexivity.
Qed.

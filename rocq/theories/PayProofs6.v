(** Histories of offers and answers between two peers. *)
From Coq Require Import Permutation.
From Verif Require Import Base BaseFacts PayModel PaySpec PayProofs PayProofs2 PayProofs3 PayProofs4 PayProofs5.

Lemma match_ok cfg q c : match_params cfg q = Some c -> In c cfg /\ compatible (p_spec c) (p_spec q).
Proof.
  unfold match_params. destruct (max_by _ cfg) as [x|] eqn:E; [|discriminate]. destruct (is_some (score (p_spec x) (p_spec q))) eqn:S; [|discriminate].
  intros H. assert (x = c) as -> by congruence. split.
  - unfold max_by in E. destruct cfg as [|y r]; [discriminate|].
    assert (max_from (fun p => okey (score (p_spec p) (p_spec q))) y r = c) as <- by congruence. apply max_from_in.
  - apply score_iff. destruct (score _ _); [discriminate|discriminate S].
Qed.
Lemma match_some cfg q c : In c cfg -> compatible (p_spec c) (p_spec q) -> exists d, match_params cfg q = Some d.
Proof.
  intros I C. unfold match_params. destruct (max_by _ cfg) as [x|] eqn:E.
  2:{ unfold max_by in E. destruct cfg; [destruct I|discriminate]. }
  destruct (is_some (score (p_spec x) (p_spec q))) eqn:S; [eauto|]. exfalso.
  unfold max_by in E. destruct cfg as [|y r]; [discriminate|].
  assert (H : max_from (fun p => okey (score (p_spec p) (p_spec q))) y r = x) by congruence.
  destruct (max_from_last (fun p => okey (score (p_spec p) (p_spec q))) r y) as (l1 & l2 & A & B & D). rewrite H in A, B, D.
  assert (K : okey (score (p_spec x) (p_spec q)) = -1) by (destruct (score (p_spec x) (p_spec q)); [discriminate S|reflexivity]).
  apply score_iff in C. destruct (score (p_spec c) (p_spec q)) as [v|] eqn:SC; [|tauto]. apply score_range in SC as SR.
  rewrite A in I. apply in_app_or in I as [I|[<-|I]].
  - apply B in I. rewrite SC, K in I. cbn in I. lia.
  - rewrite SC in S. discriminate.
  - apply D in I. rewrite SC, K in I. cbn in I. lia.
Qed.
Lemma filter_map_in {A B} (f : A -> option B) l v : In v (filter_map f l) <-> exists x, In x l /\ f x = Some v.
Proof.
  induction l as [|a r IH]; cbn [filter_map In]; [firstorder|]. destruct (f a) as [w|] eqn:E; cbn [In]; rewrite IH.
  - split.
    + intros [<-|(x & X & Y)]; eauto.
    + intros (x & [<-|X] & Y); [left; congruence|right; eauto].
  - split.
    + intros (x & X & Y); eauto.
    + intros (x & [<-|X] & Y); [congruence|eauto].
Qed.
Lemma flat_filter_nodup {T} (f : T -> list Z) (g : T -> bool) l : NoDup (flat_map f l) -> NoDup (flat_map f (filter g l)).
Proof.
  induction l as [|x r IH]; intros N; [constructor|]. cbn [flat_map filter] in *. apply NoDup_app_inv in N as (A & B & C).
  destruct (g x); [|auto]. cbn [flat_map]. apply NoDup_app_intro; auto.
  intros v V W. apply (C v V). apply in_flat_map in W as (y & Y & W). apply filter_In in Y as (Y & _). apply in_flat_map. eauto.
Qed.
Lemma line_in cfg vd pts p : In p (line_params cfg vd pts) <-> In p cfg /\ of_kind vd p = true /\ In (p_pt p) pts.
Proof. unfold line_params. rewrite !filter_In, mem_iff. tauto. Qed.
Lemma line_nodup cfg vd pts : NoDup (numbers cfg) -> NoDup (numbers (line_params cfg vd pts)).
Proof. rewrite !numbers_own. intros N. unfold line_params. apply flat_filter_nodup, flat_filter_nodup, N. Qed.

Section Phase2.
  Context (A B0 : list pp).
  Hypothesis GA : good A.
  Hypothesis NB : NoDup B0.
  Hypothesis SA : separated A.
  Hypothesis SB : separated B0.
  Hypothesis LB : forall b, In b B0 -> p_locked b = true -> exists a, In a A /\ compatible (p_spec b) (p_spec a) /\ same_numbers b a.

  Lemma pos_matched M b0 b a : pos A M b0 b -> In a A -> M a -> compatible (p_spec b) (p_spec a) ->
    p_locked b = true /\ same_numbers b a /\ p_spec b = neg_spec (p_spec b0) (p_spec a) /\ compatible (p_spec b0) (p_spec a).
  Proof.
    intros P I Ma C. pose proof (proj1 (pos_compat A SA M b0 b a P I) C) as C0.
    destruct P as [(a1 & I1 & M1 & C1 & L1 & S1 & N1)|(U & _)]; [|destruct (U a I Ma C0)].
    assert (a = a1) as <- by (apply (uniq A SA _ _ (p_spec b0)); auto). auto.
  Qed.
  Lemma sep_pos M B : Forall2 (pos A M) B0 B -> separated B.
  Proof.
    intros F s p q Ip Iq Cp Cq. destruct (F2_r _ _ _ F p Ip) as (p0 & Jp & Kp & Pp). destruct (F2_r _ _ _ F q Iq) as (q0 & Jq & Kq & Pq).
    assert (E : p0 = q0); [|subst q0; eapply comb_fun; eauto].
    destruct Pp as [(a & I & Ma & C & L & S & N)|(U & S & _)]; destruct Pq as [(a' & I' & Ma' & C' & L' & S' & N')|(U' & S' & _)]; rewrite S in Cp; rewrite S' in Cq.
    - assert (Q : compatible (p_spec q0) (p_spec a) \/ compatible (p_spec p0) (p_spec a') -> p0 = q0).
      { intros [X|X]; [apply (SB (p_spec a)); auto|]. assert (a = a') as <- by (apply (uniq A SA _ _ (p_spec p0)); auto). apply (SB (p_spec a)); auto. }
      destruct (neg_widen _ _ _ _ C Cp Cq) as [X|X].
      + destruct (neg_widen _ _ _ _ C' Cq X) as [Y|Y]; [apply (SB s); auto|auto].
      + destruct (neg_widen _ _ _ _ C' X C) as [Y|Y]; auto.
    - destruct (neg_widen _ _ _ _ C Cp Cq) as [X|X]; [apply (SB s); auto|]. destruct (U' a I Ma X).
    - destruct (neg_widen _ _ _ _ C' Cq Cp) as [X|X]; [apply (SB s); auto|]. destruct (U a' I' Ma' X).
    - apply (SB s); auto.
  Qed.

  Definition pts_spec (S : list pp) (pts : list Z) : Prop :=
    forall v, In v pts <-> exists a b0, In a S /\ v = p_pt a /\ In b0 B0 /\ compatible (p_spec b0) (p_spec a).
  Lemma pts_ok (M : pp -> Prop) B S rr : incl S A -> NoDup (numbers S) -> (forall a, In a S -> M a) -> Forall2 (pos A M) B0 B -> pts_spec S (remote_pts B (wire S) rr).
  Proof.
    intros IS NS MS F v. unfold remote_pts. rewrite filter_map_in.
    assert (K : forall q a c, In a S -> key q = key a -> match_params B q = Some c -> p_pt c = p_pt a /\ exists b0, In b0 B0 /\ compatible (p_spec b0) (p_spec a)).
    { intros q a c I E H. apply match_ok in H as (J & C). apply key_own in E as (_ & E2 & _). rewrite E2 in C.
      destruct (F2_r _ _ _ F c J) as (c0 & J0 & _ & P). destruct (pos_matched M c0 c a P (IS _ I) (MS _ I) C) as (X1 & (X2 & _) & X3 & X4). eauto. }
    split.
    - intros (q & I & H). unfold sdp_match_remote in H. destruct (match_params B q) as [c|] eqn:E; [|discriminate].
      destruct (wire_in A GA S IS NS q I) as (a & J & EK). destruct (K q a c J EK E) as (X & b0 & Y & Z).
      apply key_own in EK as (_ & _ & (E1 & _)). exists a, b0. split; [exact J|]. split; [|auto]. destruct rr; congruence.
    - intros (a & b0 & I & -> & J & C). destruct (in_wire A GA S IS NS a I) as (q & Q & EK). exists q. split; [exact Q|].
      destruct (F2_l _ _ _ F b0 J) as (b & Jb & _ & P).
      assert (Cb : compatible (p_spec b) (p_spec q)).
      { rewrite (proj1 (proj2 (key_own _ _ EK))). apply (pos_compat A SA M b0 b a P (IS _ I)). exact C. }
      destruct (match_some B q b Jb Cb) as (d & E). destruct (K q a d I EK E) as (X & _).
      unfold sdp_match_remote. rewrite E. apply key_own in EK as (_ & _ & (E1 & _)). destruct rr; congruence.
  Qed.

  Lemma pos_mono M M' B : (forall a, M a <-> M' a) -> Forall2 (pos A M) B0 B -> Forall2 (pos A M') B0 B.
  Proof.
    intros H F. clear -H F. induction F as [|x y r r' P F IH]; constructor; auto. destruct P as [(a & X1 & X2 & X3)|(X1 & X2)].
    - left. exists a. rewrite <- H. auto.
    - right. split; [|exact X2]. intros a I Ma. apply X1; [exact I|]. apply H. exact Ma.
  Qed.
  Lemma apply_phase lines : forall M B, (forall S rr, In (S, rr) lines -> incl S A /\ NoDup (numbers S)) ->
    good B -> Forall2 (pos A M) B0 B ->
    exists B' ptss, apply_lines B (map (fun l => (wire (fst l), snd l)) lines) = Ok (B', ptss) /\ good B' /\
      Forall2 (pos A (fun a => M a \/ exists l, In l lines /\ In a (fst l))) B0 B' /\
      Forall2 (fun l pts => pts_spec (fst l) pts) lines ptss.
  Proof.
    induction lines as [|[S rr] r IH]; intros M B H G F; cbn [map apply_lines].
    - exists B, []. split; [reflexivity|]. split; [exact G|]. split; [|constructor]. eapply pos_mono; [|exact F].
      intros a. split; [auto|]. intros [X|(l & [] & _)]. exact X.
    - destruct (H S rr (or_introl eq_refl)) as (IS & NS). cbn [fst snd].
      destruct (phase_step A B0 GA NB SA SB LB S IS NS M B rr G F) as (B1 & E1 & G1 & F1). rewrite E1. cbn [bind].
      destruct (IH _ B1 (fun S' rr' X => H S' rr' (or_intror X)) G1 F1) as (B' & ptss & E & G' & F' & P'). rewrite E. cbn [bind].
      eexists _, _. split; [reflexivity|]. split; [exact G'|]. split.
      + eapply pos_mono; [|exact F']. intros a. cbn [In]. split.
        * intros [[X|X]|(l & X & Y)]; [auto|right; exists (S, rr); auto|right; exists l; auto].
        * intros [X|(l & [<-|X] & Y)]; [auto|auto|right; exists l; auto].
      + constructor; [|exact P']. cbn [fst]. eapply pts_ok; [exact IS|exact NS| |exact F1]. intros a I. right. exact I.
  Qed.
  (** the answer lists exactly what was settled from this line *)
  Lemma answer_in (M : pp -> Prop) B S vd pts : good B -> Forall2 (pos A M) B0 B -> incl S A -> (forall a, In a S -> M a) -> (forall a, In a S -> of_kind vd a = true) ->
    pts_spec S pts -> forall b, In b (line_params B vd pts) <-> In b B /\ exists a, In a S /\ compatible (p_spec b) (p_spec a).
  Proof.
    intros G F IS MS KS P b. rewrite line_in. split.
    - intros (I & _ & J). apply P in J as (a & c0 & Ia & E & Ic & C). split; [exact I|]. exists a. split; [exact Ia|].
      destruct (F2_l _ _ _ F c0 Ic) as (c & Jc & _ & Pc). pose proof (proj2 (pos_compat A SA M c0 c a Pc (IS _ Ia)) C) as Cc.
      destruct (pos_matched M c0 c a Pc (IS _ Ia) (MS _ Ia) Cc) as (_ & (N1 & _) & _).
      assert (b = c) as ->; [|exact Cc]. apply (share B b c (p_pt b)); auto; [apply G|left; reflexivity|left; congruence].
    - intros (I & a & Ia & C). split; [exact I|]. destruct (F2_r _ _ _ F b I) as (b0 & J0 & _ & Pb).
      destruct (pos_matched M b0 b a Pb (IS _ Ia) (MS _ Ia) C) as (_ & (N1 & _) & _ & C0). split.
      + specialize (KS a Ia). unfold of_kind in *. rewrite (compat_codec _ _ C). exact KS.
      + apply P. exists a, b0. auto.
  Qed.
End Phase2.

Lemma pos_mono_in X M M' l0 l : (forall a, In a X -> (M a <-> M' a)) -> Forall2 (pos X M) l0 l -> Forall2 (pos X M') l0 l.
Proof.
  intros Q F. induction F as [|y z r r' P F IH]; constructor; auto. destruct P as [(a & X1 & X2 & X3)|(X1 & X2)].
  - left. exists a. split; [exact X1|]. split; [apply Q; auto|exact X3].
  - right. split; [|exact X2]. intros a I Ma. apply X1; [exact I|]. apply Q; auto.
Qed.
(** The state of two peers between exchanges. *)
Definition inv (A B : list pp) : Prop :=
  good A /\ good B /\ separated A /\ separated B /\ lcov A B /\ lcov B A.
Lemma inv_sym A B : inv A B -> inv B A.
Proof. unfold inv. tauto. Qed.

Lemma exchange_inv A B lines : inv A B -> exists A' B', exchange A B lines = Ok (A', B') /\ inv A' B' /\
  (let off a := exists l, In l lines /\ In a (line_params A (l_video l) (l_list l)) in
   Forall2 (pos A off) B B' /\ Forall2 (pos B' (fun b => exists a, In a A /\ off a /\ compatible (p_spec b) (p_spec a))) A A').
Proof.
  intros (GA & GB & SA & SB & LA & LBA).
  assert (NA : NoDup A) by (apply good_nodup, GA). assert (NB : NoDup B) by (apply good_nodup, GB).
  unfold exchange. set (S l := line_params A (l_video l) (l_list l)).
  set (lin := map (fun l => (S l, l_orecv l)) lines).
  assert (EM : map (fun l => (wire (S l), l_orecv l)) lines = map (fun l => (wire (fst l), snd l)) lin) by (unfold lin; rewrite map_map; reflexivity).
  assert (HL : forall S' rr, In (S', rr) lin -> incl S' A /\ NoDup (numbers S')).
  { intros S' rr I. apply in_map_iff in I as (l & E & _). assert (S' = S l) as -> by congruence. split.
    - intros a I. apply line_in in I. tauto.
    - apply line_nodup, GA. }
  assert (F0 : Forall2 (pos A (fun _ => False)) B B).
  { clear. induction B as [|b r IH]; constructor; auto. right. split; [tauto|]. repeat split; auto. }
  assert (LB : forall b, In b B -> p_locked b = true -> exists a, In a A /\ compatible (p_spec b) (p_spec a) /\ same_numbers b a).
  { intros b I L. destruct (LBA b I L) as (a & X1 & X2 & X3 & X4). eauto. }
  destruct (apply_phase A B GA NB SA SB LB lin _ B HL GB F0) as (B' & ptss & E & GB' & F & PT).
  change (map (fun l => (wire (line_params A (l_video l) (l_list l)), l_orecv l)) lines) with (map (fun l => (wire (S l), l_orecv l)) lines).
  rewrite EM, E. cbn [bind].
  set (off a := exists l, In l lines /\ In a (S l)).
  assert (F' : Forall2 (pos A off) B B').
  { eapply pos_mono; [|exact F]. intros a. unfold off, lin. split.
    - intros [[]|(l & X & Y)]. apply in_map_iff in X as (l' & <- & X). exists l'. auto.
    - intros (l & X & Y). right. exists (S l, l_orecv l). split; [apply in_map_iff; eauto|exact Y]. }
  assert (SB' : separated B') by (exact (sep_pos A B NB SA SB off B' F')).
  (* second half *)
  set (T lp := line_params B' (l_video (fst lp)) (snd lp)).
  set (lin2 := map (fun lp : newline * list Z => (T lp, l_arecv (fst lp))) (combine lines ptss)).
  assert (EM2 : map (fun lp => (wire (T lp), l_arecv (fst lp))) (combine lines ptss) = map (fun l => (wire (fst l), snd l)) lin2) by (unfold lin2; rewrite map_map; reflexivity).
  assert (HL2 : forall S' rr, In (S', rr) lin2 -> incl S' B' /\ NoDup (numbers S')).
  { intros S' rr I. apply in_map_iff in I as (l & E' & _). assert (S' = T l) as -> by congruence. split.
    - intros a I. apply line_in in I. tauto.
    - apply line_nodup, GB'. }
  assert (PTc : forall l pts, In (l, pts) (combine lines ptss) -> In l lines /\ pts_spec B (S l) pts).
  { clear -PT. unfold lin in PT. revert ptss PT. induction lines as [|l r IH]; intros ptss PT l' pts I; [destruct I|].
    destruct ptss as [|p ptss]; [destruct I|]. cbn [map] in PT. inversion PT; subst. destruct I as [I|I].
    - assert (l = l' /\ p = pts) as (-> & ->) by (split; congruence). split; [left; reflexivity|assumption].
    - destruct (IH ptss ltac:(assumption) l' pts I). split; [right; assumption|assumption]. }
  assert (Tin : forall l pts, In (l, pts) (combine lines ptss) -> forall b, In b (T (l, pts)) <-> In b B' /\ exists a, In a (S l) /\ compatible (p_spec b) (p_spec a)).
  { intros l pts I b. destruct (PTc l pts I) as (Il & P). unfold T. cbn [fst snd].
    apply (answer_in A B SA off B' (S l) (l_video l) pts GB' F').
    - intros a X. apply line_in in X. tauto.
    - intros a X. exists l. auto.
    - intros a X. apply line_in in X. tauto.
    - exact P. }
  assert (LA' : forall a, In a A -> p_locked a = true -> exists b, In b B' /\ compatible (p_spec a) (p_spec b) /\ same_numbers a b).
  { intros a I L. destruct (LA a I L) as (b0 & X1 & X2 & X3 & X4). destruct (F2_l _ _ _ F' b0 X1) as (b & Jb & _ & P).
    exists b. split; [exact Jb|]. split.
    - apply compat_sym. apply (pos_compat A SA off b0 b a P I). apply compat_sym. exact X3.
    - destruct P as [(a1 & I1 & M1 & C1 & L1 & S1 & N1)|(U & S1 & L1 & N1)].
      + assert (a = a1) as <- by (apply (uniq A SA _ _ (p_spec b0)); auto; apply compat_sym; auto). unfold same_numbers in *. intuition congruence.
      + specialize (N1 X2). unfold same_numbers in *. intuition congruence. }
  assert (F02 : Forall2 (pos B' (fun _ => False)) A A).
  { clear. induction A as [|b r IH]; constructor; auto. right. split; [tauto|]. repeat split; auto. }
  destruct (apply_phase B' A GB' NA SB' SA LA' lin2 _ A HL2 GA F02) as (A' & x & E2 & GA' & F2 & _).
  change (map (fun lp => (wire (line_params B' (l_video (fst lp)) (snd lp)), l_arecv (fst lp))) (combine lines ptss)) with (map (fun lp => (wire (T lp), l_arecv (fst lp))) (combine lines ptss)).
  rewrite EM2, E2. cbn [bind]. exists A', B'. split; [reflexivity|].
  set (N b := exists a, In a A /\ off a /\ compatible (p_spec b) (p_spec a)).
  assert (F2' : Forall2 (pos B' N) A A').
  { assert (LL : length ptss = length lines). { apply F2_len in PT. unfold lin in PT. rewrite map_length in PT. congruence. }
    (* only entries of B' matter *)
    assert (Q : forall b, In b B' -> ((False \/ exists l, In l lin2 /\ In b (fst l)) <-> N b)).
    { intros b Ib. unfold N, off, lin2. split.
      - intros [[]|(l & X & Y)]. apply in_map_iff in X as ([l' pts] & <- & X). cbn [fst] in Y.
        apply (Tin _ _ X) in Y as (_ & a & Ya & C). exists a. split; [apply line_in in Ya; tauto|]. split; [|exact C].
        exists l'. split; [apply PTc in X; tauto|exact Ya].
      - intros (a & Ia & (l & Il & Ya) & C). right.
        assert (exists pts, In (l, pts) (combine lines ptss)) as (pts & X).
        { clear -LL Il. revert ptss LL. induction lines as [|y r IH]; intros ptss LL; [destruct Il|]. destruct ptss as [|p ptss]; [discriminate|].
          destruct Il as [<-|Il]; [exists p; left; reflexivity|]. cbn [length] in LL. destruct (IH Il ptss ltac:(congruence)) as (q & Hq). exists q. right. exact Hq. }
        exists (T (l, pts), l_arecv l). split; [apply in_map_iff; exists (l, pts); auto|]. cbn [fst]. apply (Tin _ _ X). eauto. }
    eapply pos_mono_in; [exact Q|exact F2]. }
  split; [|split; [exact F'|exact F2']].
  split; [exact GA'|]. split; [exact GB'|]. split; [exact (sep_pos B' A NA SB' SA N A' F2')|]. split; [exact SB'|].
  assert (offA : forall a b b0, In a A -> In b B' -> pos A off b0 b -> compatible (p_spec a) (p_spec b) -> N b -> off a).
  { intros a b b0 I J P C (a1 & I1 & O1 & C1). assert (a = a1) as <-; [|exact O1].
    apply (SA (p_spec b)); auto. apply compat_sym. exact C1. }
  split.
  - intros a' I L. destruct (F2_r _ _ _ F2' a' I) as (a & Ja & _ & P). destruct P as [(b & Ib & Nb & C & La & Sa & Na)|(U & Sa & La & Na)].
    + exists b. split; [exact Ib|]. destruct Nb as (a1 & I1 & O1 & C1). destruct (F2_r _ _ _ F' b Ib) as (b0 & J0 & _ & Pb).
      destruct (pos_matched A SA off b0 b a1 Pb I1 O1 C1) as (X1 & _). split; [exact X1|]. split; [|exact Na].
      rewrite Sa. apply neg_compat. exact C.
    + rewrite L in La. symmetry in La. destruct (LA a Ja La) as (b0 & X1 & X2 & X3 & X4). destruct (F2_l _ _ _ F' b0 X1) as (b & Jb & _ & Pb).
      assert (Cab : compatible (p_spec a) (p_spec b)).
      { apply compat_sym. apply (pos_compat A SA off b0 b a Pb Ja). apply compat_sym. exact X3. }
      destruct Pb as [(a1 & I1 & M1 & C1 & L1 & S1 & N1)|(U1 & S1 & L1 & N1)].
      * assert (a = a1) as <- by (apply (uniq A SA _ _ (p_spec b0)); auto; apply compat_sym; auto).
        exfalso. apply (U b Jb); [|exact Cab]. exists a. split; [exact Ja|]. split; [exact M1|]. apply compat_sym. exact Cab.
      * exists b. split; [exact Jb|]. split; [congruence|]. rewrite Sa. split; [exact Cab|]. specialize (Na La). specialize (N1 X2).
        unfold same_numbers in *. intuition congruence.
  - intros b I L. destruct (F2_r _ _ _ F' b I) as (b0 & J0 & _ & Pb). destruct Pb as [(a & Ia & Ma & C & Lb & Sb & Nb)|(U & Sb & Lb & Nb)].
    + assert (Cb : compatible (p_spec b) (p_spec a)) by (rewrite Sb; apply neg_compat; exact C).
      destruct (F2_l _ _ _ F2' a Ia) as (a' & Ja & _ & P). exists a'. split; [exact Ja|].
      assert (NN : N b) by (exists a; auto).
      destruct P as [(b1 & I1 & N1 & C1 & L1 & S1 & E1)|(U & _)]; [|exfalso; apply (U b I NN); apply compat_sym; exact Cb].
      assert (b = b1) as <- by (apply (SB' (p_spec a)); auto; apply compat_sym; auto).
      split; [exact L1|]. split; [rewrite S1; apply compat_sym, neg_compat, compat_sym; exact Cb|].
      unfold same_numbers in *. intuition congruence.
    + rewrite L in Lb. symmetry in Lb. destruct (LBA b0 J0 Lb) as (a & X1 & X2 & X3 & X4). destruct (F2_l _ _ _ F2' a X1) as (a' & Ja & _ & P).
      exists a'. split; [exact Ja|].
      destruct P as [(b1 & I1 & (a1 & Ia1 & O1 & C1') & C1 & L1 & S1 & E1)|(U1 & S1 & L1 & N1)].
      * exfalso. assert (a = a1) as <- by (apply (SA (p_spec b1)); auto; apply compat_sym; auto). apply (U a X1 O1 X3).
      * split; [congruence|]. rewrite S1, Sb. split; [exact X3|]. specialize (N1 X2). specialize (Nb Lb). unfold same_numbers in *. intuition congruence.
Qed.

Lemma exchanges_inv h : forall A B, inv A B -> exists A' B', exchanges A B h = Ok (A', B') /\ inv A' B'.
Proof.
  induction h as [|[w ls] r IH]; intros A B I; cbn [exchanges]; [eauto|]. destruct w.
  - destruct (exchange_inv A B ls I) as (A' & B' & E & I' & _). rewrite E. cbn [bind]. auto.
  - destruct (exchange_inv B A ls (inv_sym _ _ I)) as (B' & A' & E & I' & _). rewrite E. cbn [bind]. apply IH. apply inv_sym. exact I'.
Qed.

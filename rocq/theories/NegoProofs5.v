From Coq Require Import List ZArith Bool Lia Permutation Sorted.
From Verif Require Import Base BaseFacts NegoModel NegoSpec NegoProofs NegoProofs2 NegoProofs3 NegoProofs4.
Import ListNotations.
Open Scope Z_scope.

(* ---------- the offer's lines ---------- *)
Definition set_dir (d : direction) (l : line) : line :=
  mkLine (l_type l) (l_srtp l) (l_mid l) (l_disabled l) (set_first_dir d (l_dirs l)) (l_pts l).

Lemma set_line_dir_map mid d ls : NoDup (map l_mid ls) ->
  set_line_dir mid d ls = map (fun l => if l_mid l =? mid then set_dir d l else l) ls.
Proof.
  induction ls as [|l ls IH]; intros N; [reflexivity|]. cbn [set_line_dir map] in *.
  inversion N as [|? ? N1 N2]; subst. destruct (Z.eqb_spec (l_mid l) mid) as [E|E].
  - f_equal. rewrite <- (map_id ls) at 1. apply map_ext_in. intros x Hx.
    destruct (Z.eqb_spec (l_mid x) mid); [|reflexivity]. exfalso. apply N1. rewrite E, <- e. apply in_map. exact Hx.
  - f_equal. apply IH. exact N2.
Qed.

Lemma apply_to_map cs : forall ls, NoDup (map l_mid ls) ->
  apply_to cs ls = map (fun l => match last_dir cs (l_mid l) with Some d => set_dir d l | None => l end) ls.
Proof.
  induction cs as [|c cs IH]; intros ls N; cbn [apply_to last_dir]; [symmetry; apply map_id|].
  destruct c; try (apply IH; exact N).
  rewrite set_line_dir_map by exact N. rewrite IH.
  - rewrite map_map. apply map_ext. intros l.
    destruct (Z.eqb_spec (l_mid l) mid) as [E|E].
    + cbn [set_dir l_mid]. destruct (last_dir cs (l_mid l)) as [x|].
      * unfold set_dir. cbn. f_equal. destruct (l_dirs l); reflexivity.
      * rewrite E, Z.eqb_refl. reflexivity.
    + destruct (last_dir cs (l_mid l)) as [x|]; [reflexivity|].
      destruct (Z.eqb_spec mid (l_mid l)); [congruence|reflexivity].
  - rewrite map_map. erewrite map_ext; [exact N|]. intros l. destruct (l_mid l =? mid); reflexivity.
Qed.

Lemma new_medias_mids cs : forall idx, map e_mid (as_new_medias idx cs) = new_mids cs.
Proof.
  unfold new_mids. induction cs as [|c cs IH]; intros idx; [reflexivity|].
  destruct c; cbn; rewrite ?IH; reflexivity.
Qed.

Lemma new_medias_index cs : forall idx,
  map e_index (as_new_medias idx cs) = zseq idx (length (as_new_medias idx cs)).
Proof.
  induction cs as [|c cs IH]; intros idx; [reflexivity|].
  destruct c; cbn [as_new_medias map length zseq e_index m_index]; rewrite ?IH; reflexivity.
Qed.

Definition fresh_entry (e : entry) : Prop :=
  match e with
  | EApp _ _ => True
  | EMedia m => m_stopped m = false /\ m_pts m = true /\ m_remote m = false
  end.

Lemma new_medias_fresh cs : (forall m x d p, In (AddMedia m x d p) cs -> p = true) ->
  forall idx, Forall fresh_entry (as_new_medias idx cs).
Proof.
  induction cs as [|c cs IH]; intros H idx; [constructor|].
  assert (forall m x d p, In (AddMedia m x d p) cs -> p = true) as H'.
  { intros m x d p Hi. eapply H. right. exact Hi. }
  destruct c; cbn [as_new_medias]; try (apply IH; exact H').
  - constructor; [|apply IH; exact H']. cbn. split; [reflexivity|]. split; [|reflexivity].
    eapply H. left. reflexivity.
  - constructor; [exact I|apply IH; exact H'].
Qed.

Lemma new_medias_apps cs :
  forall idx e, In e (as_new_medias idx cs) -> entry_type e = TApp -> exists m, In (AddApp m) cs /\ e_mid e = m.
Proof.
  induction cs as [|c cs IH]; intros idx e H T; [destruct H|].
  destruct c; cbn [as_new_medias] in H;
    try (destruct (IH _ _ H T) as [m [I1 I2]]; exists m; split; [right; exact I1|exact I2]).
  - destruct H as [<-|H]; [unfold entry_type in T; cbn in T; destruct audio; discriminate|].
    destruct (IH _ _ H T) as [m [I1 I2]]; exists m; split; [right; exact I1|exact I2].
  - destruct H as [<-|H]; [exists mid; split; [left; reflexivity|reflexivity]|].
    destruct (IH _ _ H T) as [m [I1 I2]]; exists m; split; [right; exact I1|exact I2].
Qed.

Lemma new_medias_count cs : forall idx, zlen (as_new_medias idx cs) = zlen (filter is_new_media cs).
Proof.
  unfold zlen. induction cs as [|c cs IH]; intros idx; [reflexivity|].
  destruct c; cbn [as_new_medias filter is_new_media]; try apply IH; cbn [length]; specialize (IH (idx + 1)); lia.
Qed.

(* the answer's line for a new entry is found among the pending changes *)
Lemma answer_line_ok_new cs : NoDup (new_mids cs) -> forall idx e l,
  In e (as_new_medias idx cs) -> l_mid l = e_mid e -> l_type l = entry_type e ->
  answer_line_ok (filter (fun c => match c with AddChannel => false | _ => true end) cs) l = true.
Proof.
  unfold new_mids. induction cs as [|c cs IH]; intros N idx e l H E T; [destruct H|].
  destruct c; cbn [as_new_medias flat_map new_mid_of List.app filter answer_line_ok] in *;
    try (eapply IH; eauto; fail).
  - inversion N as [|? ? N1 N2]; subst. destruct H as [<-|H].
    + cbn in E. rewrite E, Z.eqb_refl, T. unfold entry_type. cbn. destruct audio; reflexivity.
    + destruct (Z.eqb_spec mid (l_mid l)) as [EM|EM]; [|eapply IH; eauto].
      exfalso. apply N1. rewrite EM, E. fold (new_mids cs). rewrite <- (new_medias_mids cs (idx + 1)). apply in_map. exact H.
  - inversion N as [|? ? N1 N2]; subst. destruct H as [<-|H].
    + cbn in E. rewrite E, Z.eqb_refl, T. reflexivity.
    + destruct (Z.eqb_spec mid (l_mid l)) as [EM|EM]; [|eapply IH; eauto].
      exfalso. apply N1. rewrite EM, E. fold (new_mids cs). rewrite <- (new_medias_mids cs (idx + 1)). apply in_map. exact H.
Qed.

(* lines of an api object ready to make an offer *)
Lemma offer_lines s0 n0 a : api_inv s0 n0 a [] ->
  let s := ses (a_rtc a) in
  let N := as_new_medias (zlen (session_lines s)) (a_changes a) in
  NoDup (map e_mid (session_lines s ++ N)) /\
  s_lines (as_sdp s (a_changes a)) = map line_of (session_lines s ++ N).
Proof.
  intros I s N. destruct I as [T1 T2 T3 T4 T5 T6 T7 T8 T9 T10 T11 T12].
  cbn [call_mids flat_map] in *. rewrite app_nil_r in T6, T7.
  assert (NoDup (map e_mid (session_lines s ++ N))) as ND.
  { rewrite map_app. unfold N. rewrite new_medias_mids.
    assert (forall l1 l2 : list Z, NoDup l1 -> NoDup l2 -> (forall x, In x l2 -> ~ In x l1) -> NoDup (l1 ++ l2)) as AP.
    { induction l1 as [|x l1 IH]; intros l2 A B C; [exact B|]. inversion A; subst. cbn. constructor.
      - rewrite in_app_iff. intros [J|J]; [contradiction|]. apply (C x J). left. reflexivity.
      - apply IH; auto. intros y Hy J. apply (C y Hy). right. exact J. }
    apply AP; [exact (proj2 T1)|exact T6|exact T7]. }
  split; [exact ND|]. unfold as_sdp. cbv zeta. cbn [s_lines].
  fold (session_lines s). fold N. rewrite apply_to_map.
  2: { rewrite map_map. erewrite map_ext; [exact ND|]. apply line_of_mid. }
  rewrite <- (map_id (map line_of (session_lines s ++ N))) at 2. apply map_ext_in.
  intros l Hl. destruct (last_dir (a_changes a) (l_mid l)) as [d|] eqn:L; [|reflexivity].
  destruct (T12 _ _ L) as [m [M1 [M2 M3]]]. apply in_map_iff in Hl as [e [He1 He2]].
  assert (In (EMedia m) (session_lines s)) as IM.
  { eapply Permutation_in; [apply lines_perm|]. apply in_entries_media. exact M1. }
  assert (e = EMedia m) as ->.
  { apply (NoDup_map_inj e_mid (session_lines s ++ N)); auto.
    - apply in_or_app. left. exact IM.
    - cbn [e_mid]. rewrite M2, <- He1. symmetry. apply line_of_mid. }
  rewrite <- He1. unfold set_dir. cbn. rewrite M3. reflexivity.
Qed.

(* ---------- BUNDLE and rejection ---------- *)
Lemma bundle_rejected ls l : NoDup (map l_mid ls) -> In l ls ->
  is_rejected (Some (map l_mid (filter (fun l => negb (l_disabled l)) ls))) l = l_disabled l.
Proof.
  intros N HI. unfold is_rejected. destruct (l_disabled l) eqn:D; [|reflexivity].
  destruct (existsb _ _) eqn:E; [|reflexivity]. exfalso.
  apply existsb_exists in E as [x [Hx1 Hx2]]. apply Z.eqb_eq in Hx2. subst x.
  apply in_map_iff in Hx1 as [y [Hy1 Hy2]]. apply filter_In in Hy2 as [Hy2 Hy3].
  assert (y = l) as -> by (apply (NoDup_map_inj l_mid ls); auto). rewrite D in Hy3. discriminate.
Qed.

Lemma as_sdp_bundle s cs : bundle_mids (as_sdp s cs) =
  Some (map l_mid (filter (fun l => negb (l_disabled l)) (s_lines (as_sdp s cs)))).
Proof. reflexivity. Qed.

Definition has_live (o : sdp) : Prop := exists l, In l (s_lines o) /\ l_disabled l = false.

Lemma wire_as_sdp s cs : Forall (fun l => line_ok l = true) (s_lines (as_sdp s cs)) -> has_live (as_sdp s cs) ->
  wire (as_sdp s cs) = Some (as_sdp s cs) /\ assert_consistency (as_sdp s cs) = true /\ s_lines (as_sdp s cs) <> [].
Proof.
  intros HF [l [H1 H2]].
  assert (forallb line_ok (s_lines (as_sdp s cs)) = true) as FB.
  { apply forallb_forall. intros x Hx. rewrite Forall_forall in HF. apply HF. exact Hx. }
  assert (exists x r, map l_mid (filter (fun l => negb (l_disabled l)) (s_lines (as_sdp s cs))) = x :: r) as [x [r EG]].
  { destruct (map l_mid _) as [|x r] eqn:E; [|eauto]. exfalso.
    assert (In (l_mid l) (map l_mid (filter (fun l => negb (l_disabled l)) (s_lines (as_sdp s cs))))) as J.
    { apply in_map. apply filter_In. rewrite H2. auto. }
    rewrite E in J. destruct J. }
  assert (s_groups (as_sdp s cs) = [(true, x :: r)]) as EG' by (unfold as_sdp in *; cbv zeta in *; cbn [s_groups s_lines] in *; rewrite EG; reflexivity).
  split; [|split].
  - unfold wire. rewrite FB, EG'. cbn [filter snd]. f_equal.
    rewrite <- EG'. destruct (as_sdp s cs); reflexivity.
  - unfold assert_consistency. rewrite EG'. destruct (s_lines (as_sdp s cs)) as [|y ys]; [destruct H1|].
    cbn [consistency_loop]. inversion HF; subst. rewrite H3. reflexivity.
  - intro E. rewrite E in H1. destruct H1.
Qed.

Lemma line_ok_entry e : match e with EMedia m => m_pts m = true | _ => True end -> line_ok (line_of e) = true.
Proof. destruct e as [x y|m]; intro H; [reflexivity|]. unfold line_ok. cbn. exact H. Qed.

(* ---------- one side's update against the other's lines ---------- *)
(* a: the offering side after its calls; b: the answering side before *)
Definition pre (a b : entry) : Prop :=
  match a, b with
  | EApp m i, EApp m' i' => m = m' /\ i = i'
  | EMedia x, EMedia y =>
      m_mid x = m_mid y /\ m_index x = m_index y /\ m_audio x = m_audio y /\
      m_pts x = true /\ m_pts y = true /\ (m_stopped y = true -> m_stopped x = true)
  | _, _ => False
  end.

(* a: the offering side; b: the answering side after accepting the offer *)
Definition mid_state (a b : entry) : Prop :=
  match a, b with
  | EApp m i, EApp m' i' => m = m' /\ i = i'
  | EMedia x, EMedia y =>
      m_mid x = m_mid y /\ m_index x = m_index y /\ m_audio x = m_audio y /\
      m_pts x = true /\ m_pts y = true /\ m_stopped y = m_stopped x /\
      (m_stopped x = true -> m_dir y = Inactive) /\
      (m_stopped x = false -> m_dir y = invert (m_dir x) \/ m_dir y = Inactive)
  | _, _ => False
  end.

Lemma mirror_sym a b : mirror a b -> mirror b a.
Proof.
  destruct a as [x y|x], b as [x' y'|x']; cbn; try tauto; [intuition congruence|].
  intros [A [B [C [D [E [F G]]]]]]. rewrite D, invert_inv. repeat split; auto.
Qed.


Lemma type_media m : is_media_t (if m_audio m then TAudio else TVideo) = true.
Proof. destruct (m_audio m); reflexivity. Qed.

Lemma upd_pre mb bundle a b : all_live mb ->
  is_rejected bundle (line_of a) = l_disabled (line_of a) ->
  pre a b -> mid_state a (upd_entry mb bundle b (line_of a)).
Proof.
  intros AL R. destruct a as [x y|x], b as [x' y'|x']; cbn [pre mid_state upd_entry on_media]; try tauto.
  intros [H1 [H2 [H3 [H4 [H5 H6]]]]].
  rewrite update_mid, update_index, update_audio. repeat (split; [assumption|]).
  change (l_disabled (line_of (EMedia x))) with (disabled x) in R. unfold update_media. rewrite R.
  unfold disabled. rewrite H4. cbn [negb orb]. rewrite orb_false_r.
  destruct (m_stopped x) eqn:S.
  - cbn [m_pts media_set_dir mark_stopped m_stopped m_dir]. repeat split; auto; discriminate.
  - assert (mb (mkLine (if m_audio x then TAudio else TVideo) true (m_mid x) false [m_dir x] true) = true) as MT
      by (apply AL; apply type_media).
    assert (line_of (EMedia x) = mkLine (if m_audio x then TAudio else TVideo) true (m_mid x) false [m_dir x] true) as EL
      by (cbn; unfold disabled; rewrite S, H4; reflexivity).
    rewrite EL. cbn [l_dir l_dirs].
    assert (m_stopped x' = false) as S' by (destruct (m_stopped x'); [specialize (H6 eq_refl); discriminate|reflexivity]).
    destruct (negb (m_remote x') && _ && _) eqn:D; cbn [m_pts media_set_dir media_set_pts m_stopped m_dir]; rewrite MT, S'.
    + apply andb_true_iff in D as [D _]. apply andb_true_iff in D as [_ D]. apply dir_eqb_eq in D.
      repeat split; auto; discriminate.
    + repeat split; auto. discriminate.
Qed.

(* the answering side's new entry for a new line of the offer *)
Lemma new_pre mb bundle idx a : all_live mb ->
  is_rejected bundle (line_of a) = l_disabled (line_of a) ->
  fresh_entry a -> e_index a = idx ->
  mid_state a (new_entry mb bundle true (idx, line_of a)).
Proof.
  intros AL R F EI. unfold new_entry. destruct a as [x y|x].
  - cbn in *. auto.
  - cbn [line_of l_type]. rewrite type_media. cbn in EI. destruct F as [F1 [F2 F3]].
    assert (line_of (EMedia x) = mkLine (if m_audio x then TAudio else TVideo) true (m_mid x) false [m_dir x] true) as EL
      by (cbn; unfold disabled; rewrite F1, F2; reflexivity).
    change (mkLine (if m_audio x then TAudio else TVideo) true (m_mid x) (disabled x) [m_dir x] (m_pts x)) with (line_of (EMedia x)).
    rewrite EL in *. cbn [l_disabled] in R.
    cbn [mid_state]. rewrite update_mid, update_index, update_audio. cbn [m_mid m_index m_audio media_set_open from_remote l_mid l_type].
    split; [reflexivity|]. split; [exact EI|]. split; [destruct (m_audio x); reflexivity|].
    unfold update_media. rewrite R. cbn [andb negb].
    cbn [m_remote m_dir media_set_open from_remote l_disabled l_dir l_dirs negb andb].
    cbn [m_pts media_set_dir media_set_pts m_stopped m_dir].
    rewrite AL by (apply type_media). rewrite F1. repeat split; auto. discriminate.
Qed.

(* the offering side takes the answer *)
Lemma upd_final ma bundle a b : all_live ma ->
  is_rejected bundle (line_of b) = l_disabled (line_of b) ->
  mid_state a b -> mirror (upd_entry ma bundle a (line_of b)) b.
Proof.
  intros AL R. destruct a as [x y|x], b as [x' y'|x']; cbn [mid_state mirror upd_entry on_media]; try tauto.
  intros [H1 [H2 [H3 [H4 [H5 [H6 [H7 H8]]]]]]].
  rewrite update_mid, update_index, update_audio. split; [assumption|]. split; [assumption|]. split; [assumption|].
  change (l_disabled (line_of (EMedia x'))) with (disabled x') in R. unfold update_media. rewrite R.
  unfold disabled. rewrite H5. cbn [negb orb]. rewrite orb_false_r.
  destruct (m_stopped x') eqn:S.
  - rewrite H6 in S. cbn [m_pts media_set_dir mark_stopped m_stopped m_dir invert].
    repeat split; auto.
  - assert (m_stopped x = false) as S' by congruence.
    assert (ma (line_of (EMedia x')) = true) as MT by (apply AL; apply type_media).
    rewrite MT. cbn [line_of l_dir l_dirs].
    assert (negb (m_remote x) && dir_eqb (m_dir x) Inactive && dir_eqb (invert (m_dir x')) SendOnly = false) as D.
    { destruct (H8 S') as [E|E]; rewrite E.
      - rewrite invert_inv. destruct (m_dir x), (m_remote x); reflexivity.
      - cbn. apply andb_false_r. }
    rewrite D. cbn [m_pts media_set_dir media_set_pts m_stopped m_dir]. rewrite invert_inv. repeat split; auto.
Qed.

Lemma new_final ma bundle idx a b : all_live ma ->
  is_rejected bundle (line_of b) = l_disabled (line_of b) ->
  fresh_entry a -> mid_state a b -> e_index a = idx ->
  mirror (new_entry ma bundle false (idx, line_of b)) b.
Proof.
  intros AL R F HM EI. unfold new_entry. destruct a as [x y|x], b as [x' y'|x']; cbn [mid_state] in HM; try tauto.
  - cbn in *. intuition congruence.
  - destruct HM as [H1 [H2 [H3 [H4 [H5 [H6 [H7 H8]]]]]]]. destruct F as [F1 [F2 F3]]. cbn in EI.
    cbn [line_of l_type]. rewrite type_media.
    assert (m_stopped x' = false) as S by congruence.
    assert (line_of (EMedia x') = mkLine (if m_audio x' then TAudio else TVideo) true (m_mid x') false [m_dir x'] true) as EL
      by (cbn; unfold disabled; rewrite S, H5; reflexivity).
    change (mkLine (if m_audio x' then TAudio else TVideo) true (m_mid x') (disabled x') [m_dir x'] (m_pts x')) with (line_of (EMedia x')).
    rewrite EL in *. cbn [l_disabled] in R. cbn [mirror].
    rewrite update_mid, update_index, update_audio. cbn [m_mid m_index m_audio media_set_open from_remote l_mid l_type].
    split; [reflexivity|]. split; [congruence|]. split; [destruct (m_audio x'); reflexivity|].
    unfold update_media. rewrite R. cbn [m_remote m_dir media_set_open from_remote l_disabled l_dir l_dirs negb andb].
    assert (dir_eqb (invert (m_dir x')) Inactive && dir_eqb (invert (m_dir x')) SendOnly = false) as D
      by (destruct (m_dir x'); reflexivity).
    rewrite D. cbn [m_pts media_set_dir media_set_pts m_stopped m_dir]. rewrite invert_inv.
    rewrite AL by (apply type_media). rewrite S. repeat split; auto.
Qed.

(* ---------- whole lists ---------- *)
Lemma target_new matched bundle io : forall (N R : list entry) (Pr : entry -> entry -> Prop) idx,
  map e_index N = zseq idx (length N) ->
  Forall2 (fun a b => forall i, e_index a = i -> Pr (new_entry matched bundle io (i, line_of b)) b) N R ->
  Forall2 (fun x b => Pr x b) (target matched bundle io idx [] (map line_of R)) R.
Proof.
  intros N R Pr idx HI HF. revert idx HI. induction HF as [|a b N R H HF IH]; intros idx HI; [constructor|].
  cbn [map length zseq] in HI. injection HI as E1 E2. cbn [map target]. constructor; [apply H; exact E1|].
  apply IH. exact E2.
Qed.

Lemma Forall2_length {A B} (R : A -> B -> Prop) l1 l2 : Forall2 R l1 l2 -> length l1 = length l2.
Proof. induction 1; cbn; congruence. Qed.

Lemma Forall2_flip' {A B} (R : A -> B -> Prop) l1 l2 : Forall2 R l1 l2 -> Forall2 (fun b a => R a b) l2 l1.
Proof. induction 1; constructor; auto. Qed.

Lemma target_app matched bundle io l1 : forall Q idx l2, length Q = length l1 ->
  target matched bundle io idx Q (l1 ++ l2) =
  target matched bundle io idx Q l1 ++ target matched bundle io (idx + Z.of_nat (length l1)) [] l2.
Proof.
  induction l1 as [|l l1 IH]; intros Q idx l2 H; destruct Q as [|q Q]; try discriminate.
  - cbn. f_equal. lia.
  - cbn [List.app target]. f_equal. rewrite IH by (cbn in H; lia). do 2 f_equal. cbn [length]. lia.
Qed.

Lemma target_old matched bundle io : forall (Q R : list entry) (Pr : entry -> entry -> Prop) idx,
  Forall2 (fun a b => e_mid a = e_mid b /\ Pr (upd_entry matched bundle a (line_of b)) b) Q R ->
  Forall2 Pr (target matched bundle io idx Q (map line_of R)) R.
Proof.
  intros Q R Pr idx HF. revert idx. induction HF as [|a b Q R [H1 H2] HF IH]; intros idx; [constructor|].
  cbn [map target]. rewrite line_of_mid, H1, Z.eqb_refl. constructor; [exact H2|apply IH].
Qed.

Lemma plan_old matched bundle : forall (Q R : list entry) idx l2,
  Forall2 (fun a b => e_mid a = e_mid b) Q R ->
  snd (plan matched bundle idx Q (map line_of R ++ l2)) =
  snd (plan matched bundle (idx + zlen Q) [] l2).
Proof.
  intros Q R idx l2 HF. revert idx. induction HF as [|a b Q R H HF IH]; intros idx.
  - cbn. rewrite Z.add_0_r. reflexivity.
  - cbn [map List.app plan]. rewrite line_of_mid, H, Z.eqb_refl.
    specialize (IH (idx + 1)). destruct (plan matched bundle (idx + 1) Q (map line_of R ++ l2)) as [k n].
    cbn [snd] in *. rewrite IH. unfold zlen. cbn [length]. do 2 f_equal. lia.
Qed.

Lemma plan_nil matched bundle : forall l2 idx,
  map snd (snd (plan matched bundle idx [] l2)) = l2.
Proof.
  induction l2 as [|l l2 IH]; intros idx; [reflexivity|]. cbn [plan].
  specialize (IH (idx + 1)). destruct (plan matched bundle (idx + 1) [] l2) as [k n]. cbn [snd map] in *.
  rewrite IH. reflexivity.
Qed.

Lemma mid_state_shape a b : mid_state a b -> e_mid a = e_mid b /\ entry_type a = entry_type b /\ e_index a = e_index b.
Proof.
  destruct a as [x y|x], b as [x' y'|x']; cbn [mid_state]; try tauto; unfold entry_type; cbn.
  intros [H1 [H2 [H3 _]]]. rewrite H3. auto.
Qed.

Lemma pre_shape a b : pre a b -> e_mid a = e_mid b /\ entry_type a = entry_type b /\ e_index a = e_index b.
Proof.
  destruct a as [x y|x], b as [x' y'|x']; cbn [pre]; try tauto; unfold entry_type; cbn.
  intros [H1 [H2 [H3 _]]]. rewrite H3. auto.
Qed.

Lemma Forall2_map_eq {A B C} (R : A -> B -> Prop) (f : A -> C) (g : B -> C) l1 l2 :
  (forall a b, R a b -> f a = g b) -> Forall2 R l1 l2 -> map f l1 = map g l2.
Proof. intros H. induction 1; cbn; [reflexivity|]. f_equal; auto. Qed.

Lemma Forall2_impl' {A B} (R S : A -> B -> Prop) l1 l2 :
  (forall a b, In a l1 -> In b l2 -> R a b -> S a b) -> Forall2 R l1 l2 -> Forall2 S l1 l2.
Proof.
  intros H F. induction F; constructor; [apply H; [left; reflexivity|left; reflexivity|assumption]|].
  apply IHF. intros a b Ha Hb. apply H; right; assumption.
Qed.

Lemma has_app_lines s : has_app s = true <-> exists e, In e (session_lines s) /\ entry_type e = TApp.
Proof.
  unfold has_app. split.
  - destruct (app s) as [[m i]|] eqn:E; [|discriminate]. intros _. exists (EApp m i). split; [|reflexivity].
    eapply Permutation_in; [apply lines_perm|]. apply in_entries_app. exact E.
  - intros [[m i|x] [H T]].
    + eapply Permutation_in in H; [|apply Permutation_sym, lines_perm]. apply in_entries_app in H. rewrite H. reflexivity.
    + unfold entry_type in T. cbn in T. destruct (m_audio x); discriminate.
Qed.

Lemma entry_type_cases e : is_media_t (entry_type e) = true \/ entry_type e = TApp.
Proof. destruct e as [x y|x]; unfold entry_type; cbn; [right; reflexivity|left; apply type_media]. Qed.

Lemma called_mirror_pre a0 a b : called a0 a -> mirror a0 b -> pre a b.
Proof.
  destruct a0 as [x y|x], a as [x1 y1|x1], b as [x' y'|x']; cbn; try tauto.
  - intuition congruence.
  - intros [[A1 [A2 [A3 A4]]] [A5 A6]] [B1 [B2 [B3 [B4 [B5 [B6 B7]]]]]].
    split; [congruence|]. split; [congruence|]. split; [congruence|]. split; [congruence|].
    split; [exact B7|]. intro S. apply A6. congruence.
Qed.

Lemma Forall2_comp {A B C} (R : A -> B -> Prop) (S : A -> C -> Prop) (T : B -> C -> Prop) :
  (forall a b c, R a b -> S a c -> T b c) -> forall l1 l2 l3,
  Forall2 R l1 l2 -> Forall2 S l1 l3 -> Forall2 T l2 l3.
Proof.
  intros H l1 l2 l3 F. revert l3. induction F; intros l3 G; inversion G; subst; constructor; eauto.
Qed.

Lemma in_sync_tidy_r a b : in_sync a b -> tidy b.
Proof.
  intros [[T1 T2] F].
  assert (map e_index (session_lines a) = map e_index (session_lines b)) as E1.
  { eapply Forall2_map_eq; [|exact F]. intros x y H. destruct x as [?|?], y as [?|?]; cbn in *; try tauto; intuition congruence. }
  assert (map e_mid (session_lines a) = map e_mid (session_lines b)) as E2.
  { eapply Forall2_map_eq; [|exact F]. intros x y H. destruct x as [?|?], y as [?|?]; cbn in *; try tauto; intuition congruence. }
  unfold tidy. rewrite <- E1, <- E2. split; [|exact T2]. rewrite T1. f_equal. exact (Forall2_length _ _ _ F).
Qed.

Lemma in_sync_sym a b : in_sync a b -> in_sync b a.
Proof.
  intros H. split; [eapply in_sync_tidy_r; exact H|]. destruct H as [_ F].
  apply Forall2_flip'. eapply Forall2_impl'; [|exact F]. intros x y _ _. apply mirror_sym.
Qed.

(* lines of a list of entries that form a legal continuation *)
Lemma cont_lines io S ha : forall (Q R : list entry) l2,
  Forall2 (fun q r => e_mid q = e_mid r /\ entry_type q = entry_type r) Q R ->
  Forall (newR S ha) l2 ->
  cont io S ha Q (map line_of R ++ l2).
Proof.
  intros Q R l2 F N. induction F as [|q r Q R [H1 H2] F IH]; [exact N|].
  cbn [map List.app cont]. split; [|exact IH]. left. unfold keepR. rewrite line_of_mid. unfold entry_type in *. auto.
Qed.

Lemma exchange_ok ma mb ra rb cs :
  in_sync (ses ra) (ses rb) -> fresh_calls (ses ra) cs -> keeps_one ra cs ->
  all_live ma -> all_live mb ->
  (exists ra', exchange ma mb ra rb cs = NoOffer ra' rb /\ ses ra' = ses ra) \/
  (exists ra' rb', exchange ma mb ra rb cs = Done ra' rb' /\ in_sync (ses ra') (ses rb')).
Proof.
  intros SY FC KO LA LB.
  pose proof (in_sync_tidy_r _ _ SY) as TB. destruct SY as [TA SY].
  pose proof (calls_inv _ _ _ _ (api_inv_init ra cs TA FC)) as I.
  unfold exchange. set (a := fold_left do_call cs (mkApi ra [])) in *.
  unfold api_apply in *. destruct (a_changes a) as [|c0 cs0] eqn:EC.
  { left. exists (a_rtc a). split; [reflexivity|]. apply (ai_same _ _ _ _ I). rewrite EC. reflexivity. }
  rewrite <- EC in *. unfold next_change_id in *. cbn [ses counter] in *.
  destruct (existsb requires_negotiation (a_changes a)) eqn:RN.
  2: { left. eexists. split; [reflexivity|]. cbn [ses]. apply (ai_same _ _ _ _ I). exact RN. }
  right.
  set (s := ses (a_rtc a)) in *. set (N := as_new_medias (zlen (session_lines s)) (a_changes a)).
  destruct (offer_lines _ _ _ I) as [ND OL]. fold s N in ND, OL.
  set (o := as_sdp s (a_changes a)) in *.
  destruct (KO (mkRtc s (counter (a_rtc a) + 1)) o (counter (a_rtc a), a_changes a)) as [l0 [L1 L2]].
  { fold a. unfold api_apply. rewrite EC, <- EC. unfold next_change_id. cbn [ses]. rewrite RN. reflexivity. }
  assert (has_live o) as HL by (exists l0; auto).
  set (E := session_lines s) in *.
  (* A's entries *)
  assert (Forall2 pre E (session_lines (ses rb))) as PRE.
  { eapply Forall2_comp; [exact called_mirror_pre|exact (ai_called _ _ _ _ I)|exact SY]. }
  assert (Forall fresh_entry N) as FN by (apply new_medias_fresh; exact (ai_pts _ _ _ _ I)).
  assert (map e_index E = zseq 0 (length E)) as IE by exact (proj1 (ai_tidy _ _ _ _ I)).
  assert (map e_index N = zseq (zlen E) (length N)) as IN by apply new_medias_index.
  assert (Forall (fun l => line_ok l = true) (s_lines o)) as OKL.
  { rewrite OL. apply Forall_forall. intros l Hl. apply in_map_iff in Hl as [e [<- He]]. apply line_ok_entry.
    apply in_app_or in He as [He|He].
    - destruct e as [x y|m]; [exact Logic.I|]. clear - PRE He.
      assert (forall l1 l2, Forall2 pre l1 l2 -> In (EMedia m) l1 -> m_pts m = true) as G; [|eapply G; eauto].
      induction 1 as [|p q l1 l2 H F IH]; intros J; [destruct J|]. destruct J as [->|J]; [|auto].
      destruct q; cbn in H; [tauto|]. intuition.
    - rewrite Forall_forall in FN. specialize (FN _ He). destruct e; cbn in *; [exact Logic.I|tauto]. }
  destruct (wire_as_sdp _ _ OKL HL) as [W1 [W2 W3]]. fold o in W1, W2, W3. rewrite W1.
  (* B accepts *)
  assert (NoDup (map l_mid (s_lines o))) as NDL.
  { rewrite OL, map_map. erewrite map_ext; [exact ND|]. apply line_of_mid. }
  assert (map e_mid E = map e_mid (session_lines (ses rb))) as EMB.
  { eapply Forall2_map_eq; [|exact PRE]. intros x y H. apply pre_shape in H. tauto. }
  assert (forall x, In x (new_mids (a_changes a)) -> ~ In x (map e_mid E)) as FRESH.
  { intros x Hx. apply (ai_fresh _ _ _ _ I). apply in_or_app. left. exact Hx. }
  assert (forall e, In e E -> entry_type e = TApp -> has_app s = true) as HAE.
  { intros e He T. apply has_app_lines. exists e. auto. }
  assert (forall e, In e N -> entry_type e = TApp -> has_app s = false) as HAN.
  { intros e He T. destruct (new_medias_apps _ _ _ He T) as [m [M1 M2]]. unfold has_app, s.
    rewrite (ai_app _ _ _ _ I), (ai_noapp _ _ _ _ I _ M1). reflexivity. }
  assert (forall e e', In e (E ++ N) -> In e' (E ++ N) -> entry_type e = TApp -> entry_type e' = TApp -> e = e') as UAE.
  { intros e e' He He' T T'.
    apply (NoDup_map_inj e_mid (E ++ N)); auto.
    apply in_app_or in He as [He|He]; apply in_app_or in He' as [He'|He'].
    - destruct e as [x y|m]; [|unfold entry_type in T; cbn in T; destruct (m_audio m); discriminate].
      destruct e' as [x' y'|m]; [|unfold entry_type in T'; cbn in T'; destruct (m_audio m); discriminate].
      eapply Permutation_in in He; [|apply Permutation_sym, lines_perm].
      eapply Permutation_in in He'; [|apply Permutation_sym, lines_perm].
      apply in_entries_app in He, He'. congruence.
    - rewrite (HAE _ He T) in HAN. specialize (HAN _ He' T'). discriminate.
    - rewrite (HAE _ He' T') in HAN. specialize (HAN _ He T). discriminate.
    - destruct (new_medias_apps _ _ _ He T) as [m [M1 M2]]. destruct (new_medias_apps _ _ _ He' T') as [m' [M1' M2']].
      apply In_nth_error in M1 as [i Hi]. apply In_nth_error in M1' as [j Hj].
      assert (i = j) as <- by (eapply (ai_oneapp _ _ _ _ I); eauto). congruence. }
  assert (has_app (ses rb) = has_app s) as HAB.
  { apply eq_true_iff_eq. rewrite !has_app_lines. fold E. split; intros [e [H1 H2]].
    - clear - PRE H1 H2. induction PRE as [|p q l1 l2 H F IH]; [destruct H1|]. destruct H1 as [->|H1].
      + exists p. split; [left; reflexivity|]. apply pre_shape in H. intuition congruence.
      + destruct (IH H1) as [e' [A B]]. exists e'. split; [right; exact A|exact B].
    - clear - PRE H1 H2. induction PRE as [|p q l1 l2 H F IH]; [destruct H1|]. destruct H1 as [->|H1].
      + exists q. split; [left; reflexivity|]. apply pre_shape in H. intuition congruence.
      + destruct (IH H1) as [e' [A B]]. exists e'. split; [right; exact A|exact B]. }
  assert (forall l l', In l (s_lines o) -> In l' (s_lines o) -> l_type l = TApp -> l_type l' = TApp -> l = l') as UAL.
  { intros l l' Hl Hl' T T'. rewrite OL in Hl, Hl'. apply in_map_iff in Hl as [e [<- He]]. apply in_map_iff in Hl' as [e' [<- He']].
    f_equal. apply UAE; auto. }
  assert (cont true (map e_mid (session_lines (ses rb))) (has_app (ses rb)) (session_lines (ses rb)) (s_lines o)) as CB.
  { rewrite OL, map_app. apply cont_lines.
    - apply Forall2_flip'. eapply Forall2_impl'; [|exact PRE]. intros x y _ _ H. apply pre_shape in H. intuition congruence.
    - apply Forall_forall. intros l Hl. apply in_map_iff in Hl as [e [<- He]]. unfold newR.
      rewrite line_of_mid, <- EMB. fold (entry_type e).
      destruct (entry_type_cases e) as [T|T].
      + left. split; [exact T|]. apply FRESH. rewrite <- (new_medias_mids (a_changes a) (zlen E)). apply in_map. exact He.
      + right. split; [exact T|]. rewrite HAB. eapply HAN; eauto. }
  destruct (sync_add mb (bundle_mids o) true (ses rb) (s_lines o) TB NDL UAL CB)
    as [s1 [k [nl [sb [EP [H1 [H2 [H3 [H4 _]]]]]]]]].
  assert (accept_offer mb rb o = (mkRtc sb (counter rb + 1), Some (as_sdp sb []))) as AO.
  { unfold accept_offer, next_change_id. cbn [ses counter].
    destruct (s_lines o) as [|z zs] eqn:EZ; [congruence|]. rewrite W2. cbn [negb]. rewrite H1, H2. reflexivity. }
  rewrite AO.
  (* B's entries now *)
  assert (forall e, In e (E ++ N) -> is_rejected (bundle_mids o) (line_of e) = l_disabled (line_of e)) as REJ.
  { intros e He. unfold o. rewrite as_sdp_bundle. apply bundle_rejected; fold o; [exact NDL|].
    rewrite OL. apply in_map. exact He. }
  set (EB := session_lines sb) in *.
  assert (Forall2 mid_state (E ++ N) EB) as MS.
  { rewrite H3, OL, map_app, target_app
      by (rewrite map_length; symmetry; exact (Forall2_length _ _ _ PRE)).
    apply Forall2_app.
    - apply Forall2_flip'. apply (target_old mb (bundle_mids o) true (session_lines (ses rb)) E (fun b a => mid_state a b)).
      apply Forall2_flip'. eapply Forall2_impl'; [|exact PRE]. intros x y Hx _ H. split; [apply pre_shape in H; intuition congruence|].
      apply upd_pre; auto. apply REJ, in_or_app. left. exact Hx.
    - apply Forall2_flip'. apply (target_new mb (bundle_mids o) true N N (fun b a => mid_state a b)).
      + rewrite map_length. exact IN.
      + assert (forall L, incl L N -> Forall2 (fun a0 b => forall i, e_index a0 = i -> mid_state b (new_entry mb (bundle_mids o) true (i, line_of b))) L L) as G.
        { induction L as [|z L IH]; intros HI; constructor.
          - intros i Ei. apply new_pre; auto.
            + apply REJ, in_or_app. right. apply HI. left. reflexivity.
            + rewrite Forall_forall in FN. apply FN, HI. left. reflexivity.
          - apply IH. intros x Hx. apply HI. right. exact Hx. }
        apply G, incl_refl. }
  set (ans := as_sdp sb []) in *.
  assert (s_lines ans = map line_of EB) as AL by apply as_sdp_lines.
  assert (Forall (fun l => line_ok l = true) (s_lines ans)) as OKA.
  { rewrite AL. clear - MS. induction MS as [|p q l1 l2 H F IH]; cbn; constructor; [|exact IH].
    apply line_ok_entry. destruct p, q; cbn in H; try tauto. }
  assert (has_live ans) as HLA.
  { rewrite OL in L1. unfold has_live. rewrite AL. clear - MS L1 L2.
    induction MS as [|p q l1 l2 H F IH]; [destruct L1|]. destruct L1 as [EQ|L1].
    - exists (line_of q). split; [left; reflexivity|]. subst l0. destruct p, q; cbn in *; try tauto.
      unfold disabled in *. destruct H as [_ [_ [_ [P1 [P2 [P3 _]]]]]]. rewrite P1, P2, P3 in *. exact L2.
    - destruct (IH L1) as [l [A B]]. exists l. split; [right; exact A|exact B]. }
  destruct (wire_as_sdp _ _ OKA HLA) as [V1 [V2 V3]]. fold ans in V1, V2, V3. rewrite V1.
  (* split B's entries into old and new *)
  apply Forall2_app_inv_l in MS as [B1 [B2 [MS1 [MS2 EB12]]]].
  assert (map e_mid (E ++ N) = map e_mid EB) as EMID.
  { rewrite EB12, !map_app. f_equal.
    - eapply Forall2_map_eq; [|exact MS1]. intros x y H. apply mid_state_shape in H. tauto.
    - eapply Forall2_map_eq; [|exact MS2]. intros x y H. apply mid_state_shape in H. tauto. }
  assert (NoDup (map l_mid (s_lines ans))) as NDA.
  { rewrite AL, map_map. erewrite map_ext; [|apply line_of_mid]. rewrite <- EMID. exact ND. }
  assert (forall l l', In l (s_lines ans) -> In l' (s_lines ans) -> l_type l = TApp -> l_type l' = TApp -> l = l') as UAA.
  { intros l l' Hl Hl' T T'. rewrite AL in Hl, Hl'.
    apply in_map_iff in Hl as [e [<- He]]. apply in_map_iff in Hl' as [e' [<- He']]. f_equal.
    destruct e as [x y|m]; [|cbn in T; destruct (m_audio m); discriminate].
    destruct e' as [x' y'|m]; [|cbn in T'; destruct (m_audio m); discriminate].
    eapply Permutation_in in He; [|apply Permutation_sym, lines_perm].
    eapply Permutation_in in He'; [|apply Permutation_sym, lines_perm].
    apply in_entries_app in He, He'. congruence. }
  assert (forall b, In b B2 -> exists e, In e N /\ mid_state e b) as INB2.
  { intros b Hb. clear - MS2 Hb. induction MS2 as [|p q l1 l2 H F IH]; [destruct Hb|]. destruct Hb as [->|Hb].
    - exists p. split; [left; reflexivity|exact H].
    - destruct (IH Hb) as [e [X Y]]. exists e. split; [right; exact X|exact Y]. }
  assert (Forall2 (fun q r => e_mid q = e_mid r /\ entry_type q = entry_type r) E B1) as FE1.
  { eapply Forall2_impl'; [|exact MS1]. intros x y _ _ H. apply mid_state_shape in H. tauto. }
  assert (cont false (map e_mid E) (has_app s) E (s_lines ans)) as CA.
  { rewrite AL, EB12, map_app. apply cont_lines; [exact FE1|].
    apply Forall_forall. intros l Hl. apply in_map_iff in Hl as [b [<- Hb]].
    destruct (INB2 _ Hb) as [e [He Hm]]. apply mid_state_shape in Hm as [M1 [M2 M3]].
    unfold newR. rewrite line_of_mid. fold (entry_type b). rewrite <- M1, <- M2.
    destruct (entry_type_cases e) as [T|T].
    - left. split; [exact T|]. apply FRESH. rewrite <- (new_medias_mids (a_changes a) (zlen E)). apply in_map. exact He.
    - right. split; [exact T|]. eapply HAN; eauto. }
  destruct (sync_add ma (bundle_mids ans) false s (s_lines ans) (ai_tidy _ _ _ _ I) NDA UAA CA)
    as [s1' [k' [nl' [sa [EP' [G1 [G2 [G3 [G4 _]]]]]]]]]. fold E in EP', G3.
  assert (map snd nl' = map line_of B2) as ENL.
  { rewrite AL, EB12, map_app in EP'.
    assert (snd (plan ma (bundle_mids ans) 0 E (map line_of B1 ++ map line_of B2)) = nl') as X by (rewrite EP'; reflexivity).
    rewrite plan_old in X.
    - rewrite <- X. apply plan_nil.
    - eapply Forall2_impl'; [|exact FE1]. cbn. tauto. }
  assert (NoDup (new_mids (a_changes a))) as NDN.
  { pose proof (ai_nodup _ _ _ _ I) as X. cbn in X. rewrite app_nil_r in X. exact X. }
  set (cs' := filter (fun c => match c with AddChannel => false | _ => true end) (a_changes a)) in *.
  assert (ensure_correct_answer cs' nl' = true) as ECA.
  { unfold ensure_correct_answer. apply andb_true_iff. split.
    - apply Z.eqb_eq. unfold zlen at 2. rewrite <- (map_length snd), ENL, map_length.
      rewrite <- (Forall2_length _ _ _ MS2). unfold N. fold (zlen (as_new_medias (zlen E) (a_changes a))).
      rewrite new_medias_count. f_equal. unfold cs'. clear.
      induction (a_changes a) as [|c l IH]; [reflexivity|]. destruct c; cbn; rewrite ?IH; reflexivity.
    - apply forallb_forall. intros p Hp. assert (In (snd p) (map line_of B2)) as J by (rewrite <- ENL; apply in_map; exact Hp).
      apply in_map_iff in J as [b [Eb Hb]]. destruct (INB2 _ Hb) as [e [He Hm]]. apply mid_state_shape in Hm as [M1 [M2 M3]].
      unfold cs'. eapply answer_line_ok_new; [exact NDN|exact He| |]; rewrite <- Eb.
      + rewrite line_of_mid. auto.
      + symmetry. exact M2. }
  assert (map e_mid (session_lines sa) = map e_mid EB) as EMA.
  { rewrite G3, target_mids, AL, map_map. apply map_ext. apply line_of_mid. }
  assert (Forall2 mirror (session_lines sa) EB) as MF.
  { assert (forall e, In e EB -> is_rejected (bundle_mids ans) (line_of e) = l_disabled (line_of e)) as REJA.
    { intros e He. unfold ans. rewrite as_sdp_bundle. apply bundle_rejected; fold ans; [exact NDA|].
      rewrite AL. apply in_map. exact He. }
    rewrite G3, AL, EB12, map_app, target_app
      by (rewrite map_length; exact (Forall2_length _ _ _ MS1)).
    apply Forall2_app.
    - apply target_old. eapply Forall2_impl'; [|exact MS1]. intros x y _ Hy H.
      split; [apply mid_state_shape in H; tauto|]. apply upd_final; auto. apply REJA. rewrite EB12. apply in_or_app. left. exact Hy.
    - apply (target_new ma (bundle_mids ans) false N B2 mirror).
      + rewrite map_length, <- (Forall2_length _ _ _ MS1). exact IN.
      + eapply Forall2_impl'; [|exact MS2]. intros x y Hx Hy H i Ei. eapply new_final; eauto.
        * apply REJA. rewrite EB12. apply in_or_app. right. exact Hy.
        * rewrite Forall_forall in FN. apply FN. exact Hx. }
  assert (add_pending_ok sa cs' = true) as APO.
  { unfold add_pending_ok. apply forallb_forall. intros c Hc. destruct c as [mid au d p| | | |]; try reflexivity.
    unfold cs' in Hc. apply filter_In in Hc as [Hc _].
    destruct (media_by_mid (medias sa) mid) eqn:B; [reflexivity|]. exfalso. apply media_by_mid_None in B. apply B.
    assert (exists i, In (EMedia (mkMedia mid i au d false p false true false)) N) as [i Hi].
    { unfold N. generalize (zlen E). clear - Hc. induction (a_changes a) as [|c l IH]; intros i; [destruct Hc|].
      destruct Hc as [->|Hc]; [exists i; left; reflexivity|].
      destruct c; cbn [as_new_medias]; try (apply IH; exact Hc);
        destruct (IH Hc (i + 1)) as [j Hj]; exists j; right; exact Hj. }
    assert (exists m, In (EMedia m) B2 /\ m_mid m = mid) as [m [Hm1 Hm2]].
    { clear - MS2 Hi. induction MS2 as [|x y l1 l2 H F IH]; [destruct Hi|]. destruct Hi as [->|Hi].
      - destruct y as [u v|m]; cbn in H; [tauto|]. exists m. split; [left; reflexivity|]. symmetry. apply H.
      - destruct (IH Hi) as [m [X Y]]. exists m. split; [right; exact X|exact Y]. }
    assert (In (EMedia m) EB) as HmE by (rewrite EB12; apply in_or_app; right; exact Hm1).
    assert (exists m', In (EMedia m') (session_lines sa) /\ m_mid m' = mid) as [m' [X Y]].
    { clear - MF HmE Hm2. induction MF as [|x y l1 l2 H F IH]; [destruct HmE|]. destruct HmE as [->|HmE].
      - destruct x as [u v|m']; cbn in H; [tauto|]. exists m'. split; [left; reflexivity|]. intuition congruence.
      - destruct (IH HmE) as [m' [X Y]]. exists m'. split; [right; exact X|exact Y]. }
    rewrite <- Y. apply in_map. apply in_entries_media. eapply Permutation_in; [apply Permutation_sym, lines_perm|exact X]. }
  exists (mkRtc sa (counter (a_rtc a) + 1)), (mkRtc sb (counter rb + 1)). split.
  - unfold accept_answer, is_correct_change_id. cbn [fst snd counter ses]. rewrite Z.eqb_refl. cbn [negb].
    rewrite V2. cbn [negb]. rewrite G1. fold cs'. rewrite ECA. cbn [negb]. rewrite G2, APO. reflexivity.
  - cbn [ses]. split; [exact G4|]. exact MF.
Qed.

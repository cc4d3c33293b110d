From Coq Require Import List ZArith Bool Lia Permutation Sorted.
From Verif Require Import Base BaseFacts NegoModel NegoSpec NegoProofs NegoProofs2 NegoProofs3.
Import ListNotations.
Open Scope Z_scope.

(* ---------- a live media is never dropped or moved ---------- *)

Lemma same_slot_refl m : same_slot m m.
Proof. repeat split. Qed.

Lemma update_slot matched b m l : same_slot m (update_media matched b m l).
Proof.
  unfold same_slot. rewrite update_mid, update_index, update_audio. repeat split.
  unfold update_media. destruct (is_rejected b l); [reflexivity|]. destruct (_ && _); reflexivity.
Qed.

Lemma upd_mid_slot f mid L m : (forall x, same_slot x (f x)) -> In m L ->
  exists m', In m' (upd_mid L mid f) /\ same_slot m m'.
Proof.
  intros HF. induction L as [|y L IH]; intros HI; [destruct HI|].
  cbn. destruct (m_mid y =? mid).
  - destruct HI as [->|HI]; [exists (f m); split; [left; reflexivity|apply HF]|].
    exists m. split; [right; exact HI|apply same_slot_refl].
  - destruct HI as [->|HI]; [exists m; split; [left; reflexivity|apply same_slot_refl]|].
    destruct (IH HI) as [m' [H1 H2]]. exists m'. split; [right; exact H1|exact H2].
Qed.

Lemma same_slot_trans a b c : same_slot a b -> same_slot b c -> same_slot a c.
Proof. unfold same_slot. intuition congruence. Qed.

Lemma sync_live matched b io ls : forall s idx s' r m,
  sync_medias matched b io s idx ls = (s', r) -> In m (medias s) ->
  m_index m < idx \/ disabled m = false \/ io = false ->
  exists m', In m' (medias s') /\ same_slot m m'.
Proof.
  induction ls as [|l ls IH]; intros s idx s' r m H HI HD.
  - injection H as <- <-. exists m. split; [exact HI|apply same_slot_refl].
  - assert (exists m', In m' (medias s) /\ same_slot m m') as SELF by (exists m; split; [exact HI|apply same_slot_refl]).
    assert (forall s1 r1 m1, sync_medias matched b io s1 (idx + 1) ls = (s', r1) -> In m1 (medias s1) ->
              same_slot m m1 -> m_index m <= idx \/ (m1 = m) ->
              exists m', In m' (medias s') /\ same_slot m m') as NEXT.
    { intros s1 r1 m1 E I1 SS HB. eapply IH in E; [|exact I1|].
      - destruct E as [m' [E1 E2]]. exists m'. split; [exact E1|eapply same_slot_trans; eauto].
      - destruct SS as [_ [E2 _]]. destruct HB as [HB|HB].
        + left. lia.
        + subst m1. destruct HD as [HD|HD]; [left; lia|right; exact HD]. }
    destruct (is_media_t (l_type l)) eqn:M.
    + rewrite sync_media_eq in H by exact M. cbv zeta in H.
      destruct (media_by_mid (medias s) (l_mid l)) as [m0|] eqn:B.
      * destruct (Z.eqb_spec idx (m_index m0)) as [E|E]; cbn [negb] in H; [|injection H as <- <-; exact SELF].
        assert (In m (upd_mid (medias s) (l_mid l) (fun m => update_media matched b m l)) \/
                (In (update_media matched b m l) (upd_mid (medias s) (l_mid l) (fun m => update_media matched b m l)) /\
                 media_by_mid (medias s) (l_mid l) = Some m)) as [J|[J1 J2]].
        { clear - HI. induction (medias s) as [|y L IH]; [destruct HI|]. cbn. unfold media_by_mid in *. cbn.
          destruct (m_mid y =? l_mid l) eqn:E.
          - destruct HI as [->|HI]; [right; split; [left; reflexivity|reflexivity]|left; right; exact HI].
          - destruct HI as [->|HI]; [left; left; reflexivity|].
            destruct (IH HI) as [J|[J1 J2]]; [left; right; exact J|right; split; [right; exact J1|exact J2]]. }
        -- eapply NEXT; [exact H|exact J|apply same_slot_refl|right; reflexivity].
        -- eapply NEXT; [exact H|exact J1|apply update_slot|left].
           rewrite B in J2. injection J2 as ->. lia.
      * pose proof (position_idx_spec (medias s) idx) as PS.
        destruct (position_idx (medias s) idx) as [pos|].
        -- destruct io; cbn [negb] in H; [|injection H as <- <-; exact SELF].
           destruct PS as [m0 [PS1 PS2]]. rewrite PS1 in H.
           destruct (disabled m0) eqn:D; cbn [negb] in H; [|injection H as <- <-; exact SELF].
           destruct (sync_medias matched b true _ (idx + 1) ls) as [s2 o] eqn:E in H.
           assert (s2 = s') as -> by (destruct o; injection H as <- _; reflexivity).
           eapply NEXT; [exact E| |apply same_slot_refl|right; reflexivity].
           cbn [medias]. eapply Permutation_in in HI; [|apply swap_remove_perm; exact PS1].
           destruct HI as [->|HI]; [|exact HI]. exfalso. destruct HD as [HD|[HD|HD]]; [lia|congruence|discriminate].
        -- destruct (sync_medias matched b io s (idx + 1) ls) as [s2 o] eqn:E.
           assert (s2 = s') as -> by (destruct o; injection H as <- _; reflexivity).
           eapply NEXT; [exact E|exact HI|apply same_slot_refl|right; reflexivity].
    + cbn [sync_medias] in H. destruct (l_type l); try discriminate M.
      * destruct (app s) as [[am i]|].
        -- destruct (negb (idx =? i)); [injection H as <- <-; exact SELF|].
           eapply NEXT; [exact H|exact HI|apply same_slot_refl|right; reflexivity].
        -- destruct (sync_medias matched b io s (idx + 1) ls) as [s2 o] eqn:E.
           assert (s2 = s') as -> by (destruct o; injection H as <- _; reflexivity).
           eapply NEXT; [exact E|exact HI|apply same_slot_refl|right; reflexivity].
      * eapply NEXT; [exact H|exact HI|apply same_slot_refl|right; reflexivity].
Qed.

Lemma add_live matched b io nl : forall s s' ok m,
  add_new_lines matched b io s nl = (s', ok) -> In m (medias s) -> In m (medias s').
Proof.
  induction nl as [|[i l] nl IH]; intros s s' ok m H HI; cbn [add_new_lines] in H.
  - injection H as <- <-. exact HI.
  - destruct (is_media_t (l_type l)).
    + eapply IH in H; [exact H|]. cbn [medias]. apply in_or_app. left. exact HI.
    + destruct (is_channel_t (l_type l)); [|injection H as <- <-; exact HI].
      destruct (set_app s (l_mid l) i) as [s1 o] eqn:E.
      assert (medias s1 = medias s) as EM.
      { unfold set_app in E. destruct (app s) as [[x y]|]; [|injection E as <-; reflexivity].
        destruct (negb (x =? l_mid l)); [injection E as <- _; reflexivity|].
        destruct (negb (y =? i)); injection E as <- _; reflexivity. }
      destruct o; [eapply IH in H; [exact H|rewrite EM; exact HI]|injection H as <- <-; rewrite EM; exact HI].
Qed.

Lemma offer_live matched r o r' ans m :
  accept_offer matched r o = (r', ans) -> In m (medias (ses r)) -> disabled m = false ->
  exists m', In m' (medias (ses r')) /\ same_slot m m'.
Proof.
  unfold accept_offer, next_change_id. cbn [ses counter]. intros H HI HD.
  destruct (s_lines o) as [|l ls]; [injection H as <- _; exists m; split; [exact HI|apply same_slot_refl]|].
  destruct (negb (assert_consistency o)); [injection H as <- _; exists m; split; [exact HI|apply same_slot_refl]|].
  destruct (sync_medias matched (bundle_mids o) true (ses r) 0 (l :: ls)) as [s x] eqn:E.
  assert (E' := E).
  eapply (sync_live _ _ _ _ _ _ _ _ m) in E' as [m' [E1 E2]]; [|exact HI|right; left; exact HD].
  destruct x as [nl|]; [|injection H as <- _; exists m'; auto].
  destruct (add_new_lines matched (bundle_mids o) true s nl) as [s2 ok] eqn:EA.
  assert (r' = mkRtc s2 (counter r + 1)) as -> by (destruct ok; injection H as <- _; reflexivity).
  exists m'. split; [|exact E2]. eapply add_live; eauto.
Qed.

Lemma answer_live matched r p a r' res m :
  accept_answer matched r p a = (r', res) -> In m (medias (ses r)) ->
  exists m', In m' (medias (ses r')) /\ same_slot m m'.
Proof.
  unfold accept_answer. intros H HI.
  assert (exists m', In m' (medias (ses r)) /\ same_slot m m') as SELF by (exists m; split; [exact HI|apply same_slot_refl]).
  destruct (negb (is_correct_change_id r (fst p))); [injection H as <- _; exact SELF|].
  destruct (negb (assert_consistency a)); [injection H as <- _; exact SELF|].
  destruct (sync_medias matched (bundle_mids a) false (ses r) 0 (s_lines a)) as [s x] eqn:E.
  assert (E' := E).
  eapply (sync_live _ _ _ _ _ _ _ _ m) in E' as [m' [E1 E2]]; [|exact HI|right; right; reflexivity].
  destruct x as [nl|]; [|injection H as <- _; exists m'; auto].
  destruct (negb (ensure_correct_answer _ nl)); [injection H as <- _; exists m'; auto|].
  destruct (add_new_lines matched (bundle_mids a) false s nl) as [s2 ok] eqn:EA.
  assert (r' = mkRtc s2 (counter r)) as -> by (destruct ok; injection H as <- _; reflexivity).
  exists m'. split; [|exact E2]. eapply add_live; eauto.
Qed.

(* ---------- local calls ---------- *)
Lemma lines_upd s mid f : tidy s ->
  (forall m, m_mid (f m) = m_mid m) -> (forall m, m_index (f m) = m_index m) ->
  session_lines (mkSession (upd_mid (medias s) mid f) (app s)) =
    map (on_media (fun m => if m_mid m =? mid then f m else m)) (session_lines s).
Proof.
  intros [T1 T2] F1 F2.
  assert (NoDup (map m_mid (medias s))) as NM.
  { apply NoDup_medias. eapply Permutation_NoDup; [|exact T2]. apply Permutation_map, Permutation_sym, lines_perm. }
  apply lines_eq.
  - rewrite <- (Permutation_map (on_media (fun m => if m_mid m =? mid then f m else m)) (lines_perm s)).
    unfold entries. cbn [medias app]. rewrite upd_mid_map by exact NM. rewrite !map_app, !map_map.
    destruct (app s) as [[x y]|]; cbn; apply Permutation_refl.
  - unfold is_seq. rewrite map_length, map_map, <- T1. apply map_ext.
    intros [x y|m]; cbn; [reflexivity|]. destruct (m_mid m =? mid); [apply F2|reflexivity].
Qed.

Lemma tidy_upd s mid f : tidy s ->
  (forall m, m_mid (f m) = m_mid m) -> (forall m, m_index (f m) = m_index m) ->
  tidy (mkSession (upd_mid (medias s) mid f) (app s)).
Proof.
  intros T F1 F2. unfold tidy. rewrite (lines_upd s mid f T F1 F2). destruct T as [T1 T2].
  rewrite map_length, !map_map. split.
  - rewrite <- T1. apply map_ext. intros [x y|m]; cbn; [reflexivity|]. destruct (m_mid m =? mid); [apply F2|reflexivity].
  - erewrite map_ext; [exact T2|]. intros [x y|m]; cbn; [reflexivity|]. destruct (m_mid m =? mid); [apply F1|reflexivity].
Qed.

(* what calls may do to an entry *)
Definition called (e e' : entry) : Prop :=
  match e, e' with
  | EApp m i, EApp m' i' => m = m' /\ i = i'
  | EMedia x, EMedia y => same_slot x y /\ m_pts y = m_pts x /\ (m_stopped x = true -> m_stopped y = true)
  | _, _ => False
  end.

Lemma called_refl e : called e e.
Proof. destruct e; cbn; [auto|]. split; [apply same_slot_refl|auto]. Qed.

Lemma called_trans a b c : called a b -> called b c -> called a c.
Proof.
  destruct a, b, c; cbn; try tauto; [intuition congruence|].
  intros [S1 [P1 T1]] [S2 [P2 T2]]. split; [eapply same_slot_trans; eauto|]. split; [congruence|auto].
Qed.

Lemma Forall2_map_r {A B} (R : A -> B -> Prop) f l : (forall x, In x l -> R x (f x)) -> Forall2 R l (map f l).
Proof.
  induction l as [|x l IH]; intros H; [constructor|]. cbn. constructor; [apply H; left; reflexivity|].
  apply IH. intros y Hy. apply H. right. exact Hy.
Qed.

Lemma Forall2_trans {A} (R : A -> A -> Prop) : (forall a b c, R a b -> R b c -> R a c) ->
  forall l1 l2 l3, Forall2 R l1 l2 -> Forall2 R l2 l3 -> Forall2 R l1 l3.
Proof.
  intros T l1 l2 l3 H. revert l3. induction H; intros l3 H3; inversion H3; subst; constructor; eauto.
Qed.

Fixpoint last_dir (cs : list change) (mid : Z) : option direction :=
  match cs with
  | [] => None
  | ChDirection m d :: cs' =>
      match last_dir cs' mid with Some x => Some x | None => if m =? mid then Some d else None end
  | _ :: cs' => last_dir cs' mid
  end.

Lemma last_dir_snoc cs c mid : last_dir (cs ++ [c]) mid =
  match c with
  | ChDirection m d => if m =? mid then Some d else last_dir cs mid
  | _ => last_dir cs mid
  end.
Proof.
  induction cs as [|x cs IH]; cbn.
  - destruct c; try reflexivity; destruct (mid0 =? mid); reflexivity.
  - destruct x; rewrite ?IH; try reflexivity. destruct c; try reflexivity.
    destruct (mid1 =? mid); reflexivity.
Qed.

Definition new_mid_of (c : change) : list Z :=
  match c with AddMedia m _ _ _ => [m] | AddApp m => [m] | _ => [] end.
Definition new_mids (cs : list change) : list Z := flat_map new_mid_of cs.

Lemma new_mids_app a b : new_mids (a ++ b) = new_mids a ++ new_mids b.
Proof. apply flat_map_app. Qed.

Lemma filter_ice_new cs : new_mids (filter (fun c => negb (is_ice_restart c)) cs) = new_mids cs.
Proof. unfold new_mids. induction cs as [|c cs IH]; [reflexivity|]. destruct c; cbn; rewrite IH; reflexivity. Qed.

Lemma filter_ice_last cs mid : last_dir (filter (fun c => negb (is_ice_restart c)) cs) mid = last_dir cs mid.
Proof. induction cs as [|c cs IH]; [reflexivity|]. destruct c; cbn; rewrite ?IH; reflexivity. Qed.

(* state of the api object while the calls in [rest] are still to come *)
Record api_inv (s0 : session) (n0 : Z) (a : api) (rest : list call) : Prop := {
  ai_tidy : tidy (ses (a_rtc a));
  ai_count : counter (a_rtc a) = n0;
  ai_called : Forall2 called (session_lines s0) (session_lines (ses (a_rtc a)));
  ai_app : app (ses (a_rtc a)) = app s0;
  ai_same : existsb requires_negotiation (a_changes a) = false -> ses (a_rtc a) = s0;
  ai_nodup : NoDup (new_mids (a_changes a) ++ call_mids rest);
  ai_fresh : forall m, In m (new_mids (a_changes a) ++ call_mids rest) ->
               ~ In m (map e_mid (session_lines (ses (a_rtc a))));
  ai_pts : forall m x d p, In (AddMedia m x d p) (a_changes a) -> p = true;
  ai_rest : forall m x d p, In (CAddMedia m x d p) rest -> p = true;
  ai_oneapp : forall i j m m', nth_error (a_changes a) i = Some (AddApp m) ->
                nth_error (a_changes a) j = Some (AddApp m') -> i = j;
  ai_noapp : forall m, In (AddApp m) (a_changes a) -> app s0 = None;
  ai_dirs : forall mid d, last_dir (a_changes a) mid = Some d ->
              exists m, In m (medias (ses (a_rtc a))) /\ m_mid m = mid /\ m_dir m = d
}.

Lemma nth_error_snoc {A} (l : list A) c i x : nth_error (l ++ [c]) i = Some x ->
  nth_error l i = Some x \/ (i = length l /\ x = c).
Proof.
  intro H. destruct (Nat.lt_ge_cases i (length l)) as [L|L].
  - rewrite nth_error_app1 in H by exact L. left. exact H.
  - rewrite nth_error_app2 in H by exact L. right.
    destruct (i - length l)%nat as [|k] eqn:E; cbn in H; [injection H as <-; split; [lia|reflexivity]|destruct k; discriminate].
Qed.

Lemma oneapp_snoc cs c :
  (forall i j m m', nth_error cs i = Some (AddApp m) -> nth_error cs j = Some (AddApp m') -> i = j) ->
  (is_add_app c = true -> existsb is_add_app cs = false) ->
  forall i j m m', nth_error (cs ++ [c]) i = Some (AddApp m) -> nth_error (cs ++ [c]) j = Some (AddApp m') -> i = j.
Proof.
  intros H HC i j m m' Hi Hj.
  assert (forall k x, nth_error cs k = Some (AddApp x) -> c = AddApp m \/ c = AddApp m' -> False) as X.
  { intros k x Hk Ec. assert (existsb is_add_app cs = true) as E.
    { apply existsb_exists. exists (AddApp x). split; [eapply nth_error_In; exact Hk|reflexivity]. }
    rewrite HC in E; [discriminate|]. destruct Ec as [->| ->]; reflexivity. }
  apply nth_error_snoc in Hi as [Hi|[-> Hi]]; apply nth_error_snoc in Hj as [Hj|[-> Hj]].
  - eapply H; eauto.
  - exfalso. eapply X; eauto.
  - exfalso. eapply X; eauto.
  - reflexivity.
Qed.

Lemma oneapp_filter cs (f : change -> bool) :
  (forall i j m m', nth_error cs i = Some (AddApp m) -> nth_error cs j = Some (AddApp m') -> i = j) ->
  forall i j m m', nth_error (filter f cs) i = Some (AddApp m) -> nth_error (filter f cs) j = Some (AddApp m') -> i = j.
Proof.
  induction cs as [|c cs IH]; intros H i j m m' Hi Hj; cbn in Hi, Hj; [destruct i; discriminate|].
  assert (forall i j m m', nth_error cs i = Some (AddApp m) -> nth_error cs j = Some (AddApp m') -> i = j) as H'.
  { intros a b x y Ha Hb. specialize (H (S a) (S b) x y Ha Hb). lia. }
  destruct (f c); [|eapply IH; eauto].
  destruct i as [|i], j as [|j]; cbn in Hi, Hj; auto.
  - exfalso. apply nth_error_In, filter_In in Hj as [Hj _]. apply In_nth_error in Hj as [k Hk].
    specialize (H O (S k) m m' Hi Hk). discriminate.
  - exfalso. apply nth_error_In, filter_In in Hi as [Hi _]. apply In_nth_error in Hi as [k Hk].
    specialize (H O (S k) m' m Hj Hk). discriminate.
  - f_equal. eapply IH; eauto.
Qed.

(* a local change of one media that ends with direction d *)
Lemma inv_dir_step s0 n0 a rest mid d s' :
  api_inv s0 n0 a rest ->
  (exists f, s' = mkSession (upd_mid (medias (ses (a_rtc a))) mid f) (app (ses (a_rtc a))) /\
     (forall m, same_slot m (f m) /\ m_pts (f m) = m_pts m /\ (m_stopped m = true -> m_stopped (f m) = true) /\ m_dir (f m) = d)) ->
  In mid (map m_mid (medias (ses (a_rtc a)))) ->
  api_inv s0 n0 (mkApi (mkRtc s' (counter (a_rtc a))) (a_changes a ++ [ChDirection mid d])) rest.
Proof.
  intros [T1 T2 T3 T4 T5 T6 T7 T8 T9 T10 T11 T12] [f [-> HF]] HM.
  assert (forall m, m_mid (f m) = m_mid m) as F1 by (intro m; apply (HF m)).
  assert (forall m, m_index (f m) = m_index m) as F2 by (intro m; apply (HF m)).
  constructor; cbn [a_rtc a_changes ses counter app]; auto.
  - apply tidy_upd; assumption.
  - rewrite lines_upd by assumption. eapply Forall2_trans; [exact called_trans|exact T3|].
    apply Forall2_map_r. intros [x y|m] _; cbn; [auto|]. destruct (m_mid m =? mid).
    + destruct (HF m) as [A [B [C _]]]. auto.
    + split; [apply same_slot_refl|auto].
  - rewrite existsb_app. cbn. rewrite orb_true_r. discriminate.
  - rewrite new_mids_app. cbn [new_mids new_mid_of flat_map List.app]. rewrite app_nil_r. exact T6.
  - rewrite new_mids_app. cbn [new_mids new_mid_of flat_map List.app]. rewrite app_nil_r. intros m Hm. rewrite lines_upd by assumption.
    rewrite map_map. erewrite map_ext; [apply T7; exact Hm|].
    intros [x y|z]; cbn; [reflexivity|]. destruct (m_mid z =? mid); [apply F1|reflexivity].
  - intros m x d' p H. apply in_app_or in H as [H|[H|[]]]; [eapply T8; eauto|discriminate].
  - apply oneapp_snoc; [exact T10|discriminate].
  - intros m H. apply in_app_or in H as [H|[H|[]]]; [eapply T11; eauto|discriminate].
  - intros mid' d' H. rewrite last_dir_snoc in H. cbn [medias].
    rewrite upd_mid_map.
    2: { apply NoDup_medias. eapply Permutation_NoDup; [|exact (proj2 T1)].
         apply Permutation_map, Permutation_sym, lines_perm. }
    destruct (Z.eqb_spec mid mid') as [E|E].
    + injection H as <-. apply in_map_iff in HM as [y [Hy1 Hy2]]. exists (f y). split.
      * apply in_map_iff. exists y. rewrite Hy1, Z.eqb_refl. auto.
      * split; [rewrite F1; congruence|apply (HF y)].
    + destruct (T12 _ _ H) as [m [M1 [M2 M3]]]. exists m. split; [|auto].
      apply in_map_iff. exists m. destruct (Z.eqb_spec (m_mid m) mid); [congruence|auto].
Qed.

Lemma dir_eqb_refl d : dir_eqb d d = true.
Proof. destruct d; reflexivity. Qed.

Lemma upd_mid_comp L mid f g : NoDup (map m_mid L) -> (forall m, m_mid (f m) = m_mid m) ->
  upd_mid (upd_mid L mid f) mid g = upd_mid L mid (fun m => g (f m)).
Proof.
  intros N F. induction L as [|y L IH]; [reflexivity|]. cbn [upd_mid map] in *.
  inversion N as [|? ? N1 N2]; subst.
  destruct (m_mid y =? mid) eqn:E; cbn [upd_mid].
  - rewrite F, E. reflexivity.
  - rewrite E. f_equal. apply IH. exact N2.
Qed.

Lemma do_call_inv s0 n0 a c rest : api_inv s0 n0 a (c :: rest) -> api_inv s0 n0 (do_call a c) rest.
Proof.
  intros I.
  assert (NoDup (new_mids (a_changes a) ++ call_mids rest)) as ND.
  { destruct I as [_ _ _ _ _ T6 _ _ _ _ _ _]. unfold call_mids in *. cbn [flat_map] in T6.
    destruct c; cbn [List.app] in T6; try exact T6; eapply NoDup_remove_1; exact T6. }
  assert (forall m, In m (new_mids (a_changes a) ++ call_mids rest) ->
            ~ In m (map e_mid (session_lines (ses (a_rtc a))))) as FR.
  { intros m Hm. apply (ai_fresh _ _ _ _ I). apply in_app_or in Hm as [Hm|Hm]; apply in_or_app; [left; exact Hm|right].
    unfold call_mids in *. cbn [flat_map]. apply in_or_app. right. exact Hm. }
  assert (forall m x d p, In (CAddMedia m x d p) rest -> p = true) as RS.
  { intros m x d p H. eapply (ai_rest _ _ _ _ I). right. exact H. }
  assert (api_inv s0 n0 a rest) as I'.
  { destruct I as [T1 T2 T3 T4 T5 T6 T7 T8 T9 T10 T11 T12]. constructor; auto. }
  assert (NoDup (map m_mid (medias (ses (a_rtc a))))) as NM.
  { apply NoDup_medias. eapply Permutation_NoDup; [|exact (proj2 (ai_tidy _ _ _ _ I))].
    apply Permutation_map, Permutation_sym, lines_perm. }
  assert (forall b, mkApi (mkRtc (ses (a_rtc b)) (counter (a_rtc b))) (a_changes b) = b) as ETA
    by (intros [[? ?] ?]; reflexivity).
  destruct c as [mid au d p|mid d|mid|mid|]; unfold do_call; cbv zeta.
  - (* add_media *)
    destruct I as [T1 T2 T3 T4 T5 T6 T7 T8 T9 T10 T11 T12].
    constructor; cbn [a_rtc a_changes]; auto.
    + rewrite existsb_app. cbn. rewrite orb_true_r. discriminate.
    + rewrite new_mids_app. cbn [new_mids new_mid_of flat_map List.app]. rewrite <- app_assoc. exact T6.
    + rewrite new_mids_app. cbn [new_mids new_mid_of flat_map List.app]. rewrite <- app_assoc. exact T7.
    + intros m x d' p' H. apply in_app_or in H as [H|[H|[]]]; [eapply T8; eauto|].
      injection H as <- <- <- <-. eapply T9. left. reflexivity.
    + apply oneapp_snoc; [exact T10|discriminate].
    + intros m H. apply in_app_or in H as [H|[H|[]]]; [eapply T11; eauto|discriminate].
    + intros mid' d' H. rewrite last_dir_snoc in H. apply T12. exact H.
  - (* set_direction *)
    unfold session_set_direction. destruct (media_by_mid (medias (ses (a_rtc a))) mid) as [m|] eqn:B.
    + destruct (dir_eqb (m_dir m) d); [rewrite ETA; exact I'|].
      apply media_by_mid_In in B as [B1 B2].
      apply inv_dir_step; [exact I'| |rewrite <- B2; apply in_map; exact B1].
      exists (fun m => media_set_dir m d). split; [reflexivity|]. intros x. cbn. repeat split; auto.
    + rewrite ETA. exact I'.
  - (* stop_media *)
    unfold session_stop_media. destruct (media_by_mid (medias (ses (a_rtc a))) mid) as [m|] eqn:B.
    + destruct (disabled m); [rewrite ETA; exact I'|].
      assert (B' := B). apply media_by_mid_In in B' as [B1 B2].
      unfold session_set_direction. cbn [medias app].
      assert (media_by_mid (upd_mid (medias (ses (a_rtc a))) mid mark_stopped) mid = Some (mark_stopped m)) as B3.
      { clear - B. unfold media_by_mid in *. induction (medias (ses (a_rtc a))) as [|y L IH]; [discriminate|].
        cbn [upd_mid find] in *. destruct (m_mid y =? mid) eqn:E; cbn [find].
        - injection B as ->. cbn [mark_stopped m_mid]. rewrite E. reflexivity.
        - rewrite E. apply IH. exact B. }
      rewrite B3. cbn [mark_stopped m_dir].
      destruct (dir_eqb (m_dir m) Inactive) eqn:DI; cbn [fst].
      * apply dir_eqb_eq in DI.
        apply inv_dir_step; [exact I'| |rewrite <- B2; apply in_map; exact B1].
        exists (fun x => mkMedia (m_mid x) (m_index x) (m_audio x) Inactive true (m_pts x) (m_remote x) (m_open x) (m_changed x)).
        split; [|intros x; cbn; repeat split; auto].
        f_equal. rewrite !upd_mid_map by exact NM. apply map_ext_in. intros x Hx.
        destruct (Z.eqb_spec (m_mid x) mid) as [E|E]; [|reflexivity].
        assert (x = m) as -> by (apply (NoDup_map_inj m_mid (medias (ses (a_rtc a)))); auto; congruence).
        unfold mark_stopped. rewrite DI. reflexivity.
      * apply inv_dir_step; [exact I'| |rewrite <- B2; apply in_map; exact B1].
        exists (fun x => media_set_dir (mark_stopped x) Inactive). split.
        -- f_equal. apply upd_mid_comp; [exact NM|reflexivity].
        -- intros x. cbn. repeat split; auto.
    + rewrite ETA. exact I'.
  - (* add_channel *)
    destruct I as [T1 T2 T3 T4 T5 T6 T7 T8 T9 T10 T11 T12].
    destruct (negb _ && negb (existsb is_add_app (a_changes a))) eqn:C.
    + apply andb_true_iff in C as [C1 C2]. apply negb_true_iff in C2.
      assert (app s0 = None) as NA.
      { rewrite <- T4. destruct (app (ses (a_rtc a))); [discriminate|reflexivity]. }
      constructor; cbn [a_rtc a_changes]; auto.
      * rewrite !existsb_app. cbn. rewrite orb_true_r. discriminate.
      * rewrite !new_mids_app. cbn [new_mids new_mid_of flat_map List.app]. rewrite app_nil_r, <- app_assoc. exact T6.
      * rewrite !new_mids_app. cbn [new_mids new_mid_of flat_map List.app]. rewrite app_nil_r, <- app_assoc. exact T7.
      * intros m x d' p' H. rewrite <- app_assoc in H. apply in_app_or in H as [H|[H|[H|[]]]]; [eapply T8; eauto| |]; discriminate.
      * apply oneapp_snoc; [|discriminate]. apply oneapp_snoc; [exact T10|]. intros _. exact C2.
      * intros mid' d' H. rewrite !last_dir_snoc in H. apply T12. exact H.
    + constructor; cbn [a_rtc a_changes]; auto.
      * rewrite !existsb_app. cbn. rewrite orb_false_r. exact T5.
      * rewrite new_mids_app. cbn [new_mids new_mid_of flat_map List.app]. rewrite app_nil_r. exact ND.
      * rewrite new_mids_app. cbn [new_mids new_mid_of flat_map List.app]. rewrite app_nil_r. exact FR.
      * intros m x d' p' H. apply in_app_or in H as [H|[H|[]]]; [eapply T8; eauto|discriminate].
      * apply oneapp_snoc; [exact T10|discriminate].
      * intros m H. apply in_app_or in H as [H|[H|[]]]; [eapply T11; eauto|discriminate].
      * intros mid' d' H. rewrite last_dir_snoc in H. apply T12. exact H.
  - (* ice_restart *)
    destruct I as [T1 T2 T3 T4 T5 T6 T7 T8 T9 T10 T11 T12].
    constructor; cbn [a_rtc a_changes]; auto.
    + rewrite existsb_app. cbn. rewrite orb_true_r. discriminate.
    + rewrite new_mids_app, filter_ice_new. cbn [new_mids new_mid_of flat_map List.app]. rewrite app_nil_r. exact ND.
    + rewrite new_mids_app, filter_ice_new. cbn [new_mids new_mid_of flat_map List.app]. rewrite app_nil_r. exact FR.
    + intros m x d' p' H. apply in_app_or in H as [H|[H|[]]]; [|discriminate].
      apply filter_In in H as [H _]. eapply T8; eauto.
    + apply oneapp_snoc; [|discriminate]. apply oneapp_filter. exact T10.
    + intros m H. apply in_app_or in H as [H|[H|[]]]; [|discriminate].
      apply filter_In in H as [H _]. eapply T11; eauto.
    + intros mid' d' H. rewrite last_dir_snoc, filter_ice_last in H. apply T12. exact H.
Qed.

Lemma calls_inv s0 n0 cs : forall a, api_inv s0 n0 a cs -> api_inv s0 n0 (fold_left do_call cs a) [].
Proof.
  induction cs as [|c cs IH]; intros a I; [exact I|]. cbn [fold_left]. apply IH, do_call_inv. exact I.
Qed.

Lemma api_inv_init r cs : tidy (ses r) -> fresh_calls (ses r) cs ->
  api_inv (ses r) (counter r) (mkApi r []) cs.
Proof.
  intros T [F1 [F2 F3]]. constructor; cbn [a_rtc a_changes]; auto; cbn; try discriminate; try tauto.
  - assert (forall l, Forall2 called l l) as G; [|apply G].
    induction l as [|e l IH]; [constructor|]. constructor; [apply called_refl|exact IH].
  - intros i j m m' H. destruct i; discriminate.
Qed.

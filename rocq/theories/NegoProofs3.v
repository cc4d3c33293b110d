From Coq Require Import List ZArith Bool Lia Permutation Sorted.
From Verif Require Import Base BaseFacts NegoModel NegoSpec NegoProofs NegoProofs2.
Import ListNotations.
Open Scope Z_scope.

(* ---------- answers mirror offers ---------- *)
Lemma continues_cont s ls : tidy s -> continues s ls ->
  cont true (map e_mid (session_lines s)) (has_app s) (session_lines s) ls.
Proof.
  intros T [_ [_ [old [new [-> [HF HN]]]]]].
  assert (Forall (newR (map e_mid (session_lines s)) (has_app s)) new) as HN'.
  { eapply Forall_impl; [|exact HN]. intros l [H1 [H2|[H2 H3]]]; [left; auto|right].
    unfold has_app. rewrite H3. auto. }
  assert (forall S, S = map e_mid (session_lines s) -> forall Q old, Forall2 (line_for s) Q old ->
     cont true S (has_app s) Q (old ++ new)) as G; [|eapply G; [reflexivity|exact HF]].
  intros S -> Q. induction Q as [|q Q IH]; intros o H; inversion H; subst.
  - exact HN'.
  - cbn [List.app cont]. split; [|apply IH; assumption].
    destruct H2 as [[K1 K2]|[m [E [D [M N]]]]]; [left; split; auto|right; split; [reflexivity|eauto 6]].
Qed.

Lemma accept_offer_ok matched r o :
  tidy (ses r) -> continues (ses r) (s_lines o) -> s_lines o <> [] -> assert_consistency o = true ->
  exists r' , accept_offer matched r o = (r', Some (as_sdp (ses r') [])) /\
    counter r' = counter r + 1 /\ tidy (ses r') /\
    session_lines (ses r') =
      target matched (bundle_mids o) true 0 (session_lines (ses r)) (s_lines o).
Proof.
  intros T C NE AC.
  pose proof (continues_cont _ _ T C) as HC. destruct C as [ND [UA _]].
  destruct (sync_add matched (bundle_mids o) true (ses r) (s_lines o) T ND UA HC)
    as [s1 [k [nl [s' [EP [H1 [H2 [H3 [H4 _]]]]]]]]].
  exists (mkRtc s' (counter r + 1)). unfold accept_offer, next_change_id. cbn [ses counter].
  destruct (s_lines o) as [|l ls] eqn:EL; [congruence|].
  rewrite AC. cbn [negb]. rewrite H1, H2. cbn [ses]. auto.
Qed.

Lemma as_sdp_lines s : s_lines (as_sdp s []) = map line_of (session_lines s).
Proof. unfold as_sdp. cbn. rewrite app_nil_r. reflexivity. Qed.

Lemma answer_mirrors matched r o :
  tidy (ses r) -> continues (ses r) (s_lines o) -> s_lines o <> [] -> assert_consistency o = true ->
  exists r' ans, accept_offer matched r o = (r', Some ans) /\
    shape (s_lines ans) = shape (s_lines o) /\ tidy (ses r').
Proof.
  intros T C NE AC. destruct (accept_offer_ok matched r o T C NE AC) as [r' [H1 [_ [H2 H3]]]].
  exists r', (as_sdp (ses r') []). split; [exact H1|]. split; [|exact H2].
  rewrite as_sdp_lines, H3. eapply target_shape; [apply incl_refl|apply continues_cont; assumption].
Qed.

(* ---------- direction of any accepted offer ---------- *)

Lemma is_rejected_spec o l : is_rejected (bundle_mids o) l = true <-> rejected o l.
Proof.
  unfold is_rejected, rejected. destruct (bundle_mids o) as [mids|].
  - rewrite andb_true_iff, negb_true_iff. split.
    + intros [H1 H2]. split; [exact H1|]. intros m E. injection E as <-. intro HI.
      assert (existsb (Z.eqb (l_mid l)) mids = true) by (apply existsb_exists; exists (l_mid l); rewrite Z.eqb_refl; auto).
      congruence.
    + intros [H1 H2]. split; [exact H1|]. destruct (existsb (Z.eqb (l_mid l)) mids) eqn:E; [|reflexivity].
      apply existsb_exists in E as [x [Hx1 Hx2]]. apply Z.eqb_eq in Hx2. subst x. exfalso. eapply H2; eauto.
  - cbn. rewrite andb_true_r. split; [intro H; split; [exact H|discriminate]|tauto].
Qed.

Lemma update_agreed matched o m l : agreed o (update_media matched (bundle_mids o) m l) l.
Proof.
  unfold agreed, update_media. destruct (is_rejected (bundle_mids o) l) eqn:R.
  - apply is_rejected_spec in R. split; [intros _; split; reflexivity|tauto].
  - assert (~ rejected o l) as NR by (rewrite <- is_rejected_spec; congruence).
    split; [tauto|]. intros _. destruct (_ && _ && _) eqn:D; cbn.
    + apply andb_true_iff in D as [D _]. apply andb_true_iff in D as [_ D]. apply dir_eqb_eq in D.
      rewrite D. apply compatible_inactive.
    + apply compatible_invert.
Qed.

Lemma in_swap_remove l pos m x : nth_error l pos = Some m -> In x (swap_remove l pos) -> In x l.
Proof.
  intros H I. eapply Permutation_in; [apply Permutation_sym, swap_remove_perm; exact H|right; exact I].
Qed.

Lemma NoDup_swap_remove l pos m : nth_error l pos = Some m ->
  NoDup (map m_mid l) -> NoDup (map m_mid (swap_remove l pos)).
Proof.
  intros H N. pose proof (swap_remove_perm _ _ _ H) as P. apply (Permutation_map m_mid) in P.
  eapply Permutation_NoDup in N; [|exact P]. inversion N; assumption.
Qed.


(* one step of sync_medias, by kind of line *)
Lemma sync_media_eq matched b io s idx l ls : is_media_t (l_type l) = true ->
  sync_medias matched b io s idx (l :: ls) =
  let new s :=
    match sync_medias matched b io s (idx + 1) ls with
    | (s', Some nl) => (s', Some ((idx, l) :: nl))
    | (s', None) => (s', None)
    end in
  match media_by_mid (medias s) (l_mid l) with
  | Some m =>
      if negb (idx =? m_index m) then (s, None)
      else sync_medias matched b io
             (mkSession (upd_mid (medias s) (l_mid l) (fun m => update_media matched b m l)) (app s))
             (idx + 1) ls
  | None =>
      match position_idx (medias s) idx with
      | Some pos =>
          if negb io then (s, None)
          else match nth_error (medias s) pos with
               | Some m => if negb (disabled m) then (s, None)
                           else new (mkSession (swap_remove (medias s) pos) (app s))
               | None => (s, None)
               end
      | None => new s
      end
  end.
Proof. intros H. cbn [sync_medias]. destruct (l_type l); try discriminate; reflexivity. Qed.

(* ways a successful step can go: (1) nothing changes, line new or not; (2) update; (3) recycle *)
Inductive step_kind (matched : line -> bool) (b : option (list Z)) (s : session) (idx : Z) (l : line)
  : session -> bool -> Prop :=
| SK_skip : is_media_t (l_type l) = false -> step_kind matched b s idx l s false
| SK_app : is_media_t (l_type l) = false -> step_kind matched b s idx l s true
| SK_new : is_media_t (l_type l) = true -> media_by_mid (medias s) (l_mid l) = None ->
    (forall m, In m (medias s) -> m_index m <> idx) ->
    step_kind matched b s idx l s true
| SK_upd m : is_media_t (l_type l) = true -> media_by_mid (medias s) (l_mid l) = Some m -> m_index m = idx ->
    step_kind matched b s idx l
      (mkSession (upd_mid (medias s) (l_mid l) (fun m => update_media matched b m l)) (app s)) false
| SK_rec pos m : is_media_t (l_type l) = true -> media_by_mid (medias s) (l_mid l) = None ->
    nth_error (medias s) pos = Some m -> m_index m = idx -> disabled m = true ->
    step_kind matched b s idx l (mkSession (swap_remove (medias s) pos) (app s)) true.

Lemma sync_step matched b io s idx l ls s' nl :
  sync_medias matched b io s idx (l :: ls) = (s', Some nl) ->
  exists s1 isnew nl1, step_kind matched b s idx l s1 isnew /\
    sync_medias matched b io s1 (idx + 1) ls = (s', Some nl1) /\
    nl = if isnew then (idx, l) :: nl1 else nl1.
Proof.
  destruct (is_media_t (l_type l)) eqn:M; intro H.
  - rewrite sync_media_eq in H by exact M. cbv zeta in H.
    destruct (media_by_mid (medias s) (l_mid l)) as [m|] eqn:B.
    + destruct (Z.eqb_spec idx (m_index m)) as [E|E]; [|discriminate]. cbn [negb] in H.
      eexists _, false, nl. split; [eapply SK_upd; eauto|]. split; [exact H|reflexivity].
    + pose proof (position_idx_spec (medias s) idx) as PS.
      destruct (position_idx (medias s) idx) as [pos|].
      * destruct (negb io); [discriminate|]. destruct PS as [m [PS1 PS2]]. rewrite PS1 in H.
        destruct (disabled m) eqn:D; [|discriminate]. cbn [negb] in H.
        destruct (sync_medias matched b io _ (idx + 1) ls) as [s2 [nl1|]] eqn:E in H; [|discriminate].
        injection H as <- <-. eexists _, true, nl1. split; [eapply SK_rec; eauto|]. split; [exact E|reflexivity].
      * destruct (sync_medias matched b io s (idx + 1) ls) as [s2 [nl1|]] eqn:E; [|discriminate].
        injection H as <- <-. eexists _, true, nl1. split; [eapply SK_new; eauto|]. split; [exact E|reflexivity].
  - cbn [sync_medias] in H. destruct (l_type l) eqn:TY; try discriminate M.
    + destruct (app s) as [[am i]|].
      * destruct (negb (idx =? i)); [discriminate|].
        exists s, false, nl. split; [apply SK_skip; rewrite TY; reflexivity|]. split; [exact H|reflexivity].
      * destruct (sync_medias matched b io s (idx + 1) ls) as [s2 [nl1|]] eqn:E; [|discriminate].
        injection H as <- <-. exists s, true, nl1.
        split; [apply SK_app; rewrite TY; reflexivity|]. split; [exact E|reflexivity].
    + exists s, false, nl. split; [apply SK_skip; rewrite TY; reflexivity|]. split; [exact H|reflexivity].
Qed.

Lemma step_mids matched b s idx l s1 isnew : step_kind matched b s idx l s1 isnew ->
  NoDup (map m_mid (medias s)) ->
  NoDup (map m_mid (medias s1)) /\
  (forall x, In x (map m_mid (medias s1)) -> In x (map m_mid (medias s))) /\
  (isnew = true -> is_media_t (l_type l) = true -> ~ In (l_mid l) (map m_mid (medias s1))).
Proof.
  intros K N. destruct K as [M|M|M B NI|m M B E|pos m M B P E D].
  - split; [exact N|]. split; [tauto|congruence].
  - split; [exact N|]. split; [tauto|congruence].
  - split; [exact N|]. split; [tauto|]. intros _ _. apply media_by_mid_None. exact B.
  - cbn [medias]. rewrite upd_mid_mids by (intro; apply update_mid). split; [exact N|]. split; [tauto|congruence].
  - assert (forall x, In x (map m_mid (swap_remove (medias s) pos)) -> In x (map m_mid (medias s))) as I.
    { intros x Hx. apply in_map_iff in Hx as [y [Hy1 Hy2]]. rewrite <- Hy1. apply in_map.
      eapply in_swap_remove; eauto. }
    cbn [medias]. split; [eapply NoDup_swap_remove; eauto|]. split; [exact I|].
    intros _ _ Hx. apply media_by_mid_None in B. apply B, I, Hx.
Qed.

(* a media whose mid is on no later line is not touched *)
Lemma sync_keep matched b io ls : forall s idx s' nl m',
  NoDup (map m_mid (medias s)) ->
  ~ In (m_mid m') (map l_mid ls) ->
  sync_medias matched b io s idx ls = (s', Some nl) -> In m' (medias s') -> In m' (medias s).
Proof.
  induction ls as [|l ls IH]; intros s idx s' nl m' N HN H Hm.
  - injection H as <- <-. exact Hm.
  - apply sync_step in H as [s1 [isnew [nl1 [K [H _]]]]].
    pose proof (step_mids _ _ _ _ _ _ _ K N) as [N1 _].
    cbn [map In] in HN. apply (IH _ _ _ _ m') in H; [|exact N1|tauto|exact Hm].
    destruct K as [M|M|M B NI|m M B E|pos m M B P E D]; try exact H.
    + cbn [medias] in H. rewrite upd_mid_map in H by exact N. apply in_map_iff in H as [y [Hy1 Hy2]].
      destruct (Z.eqb_spec (m_mid y) (l_mid l)) as [E1|E1]; [|congruence].
      exfalso. apply HN. left. rewrite <- Hy1, update_mid. auto.
    + eapply in_swap_remove; eauto.
Qed.

Lemma sync_agreed matched o io ls : forall s idx s' nl,
  NoDup (map m_mid (medias s)) -> NoDup (map l_mid ls) ->
  sync_medias matched (bundle_mids o) io s idx ls = (s', Some nl) ->
  NoDup (map m_mid (medias s')) /\
  (forall m', In m' (medias s') -> forall l, In l ls -> is_media_t (l_type l) = true -> l_mid l = m_mid m' ->
     agreed o m' l) /\
  (forall p, In p nl -> In (snd p) ls /\ (is_media_t (l_type (snd p)) = true -> ~ In (l_mid (snd p)) (map m_mid (medias s')))) /\
  (forall x, In x (map m_mid (medias s')) -> In x (map m_mid (medias s))) /\
  (forall l, In l ls -> is_media_t (l_type l) = true ->
     In (l_mid l) (map m_mid (medias s')) \/ exists i, In (i, l) nl).
Proof.
  induction ls as [|l ls IH]; intros s idx s' nl N NL H.
  - injection H as <- <-. split; [exact N|]. split; [intros ? ? ? []|]. split; [intros ? []|]. split; [tauto|intros ? []].
  - cbn [map] in NL. inversion NL as [|? ? NL1 NL2]; subst.
    apply sync_step in H as [s1 [isnew [nl1 [K [H EN]]]]].
    pose proof (step_mids _ _ _ _ _ _ _ K N) as [N1 [Sub Abs]].
    destruct (IH _ _ _ _ N1 NL2 H) as [A [B [C [D F]]]].
    split; [exact A|]. split; [|split; [|split]].
    + intros m' Hm l0 [<-|Hl0] M Emid; [|eapply B; eauto].
      pose proof (sync_keep _ _ _ _ _ _ _ _ m' N1 ltac:(rewrite <- Emid; exact NL1) H Hm) as Hm1.
      destruct K as [M'|M'|_ B' NI|m _ B' E|pos m _ B' P E D']; try congruence.
      * exfalso. apply (Abs eq_refl M). rewrite Emid. apply in_map. exact Hm1.
      * cbn [medias] in Hm1. rewrite upd_mid_map in Hm1 by exact N. apply in_map_iff in Hm1 as [y [Hy1 Hy2]].
        assert (m_mid y = l_mid l) as Ey.
        { rewrite Emid, <- Hy1. destruct (m_mid y =? l_mid l); [rewrite update_mid|]; reflexivity. }
        rewrite Ey, Z.eqb_refl in Hy1. rewrite <- Hy1. apply update_agreed.
      * exfalso. apply (Abs eq_refl M). rewrite Emid. apply in_map. exact Hm1.
    + intros p Hp.
      assert ((isnew = true /\ p = (idx, l)) \/ In p nl1) as [[Ei ->]|Hp'].
      { rewrite EN in Hp. destruct isnew; [destruct Hp; auto|auto]. }
      * split; [left; reflexivity|]. cbn [snd]. intros M HI. apply (Abs Ei M), D, HI.
      * destruct (C _ Hp') as [C1 C2]. split; [right; exact C1|exact C2].
    + auto.
    + intros l0 [<-|Hl0] M.
      * destruct K as [M'|M'|_ B' NI|m _ B' E|pos m _ B' P E D']; try congruence;
          try (right; exists idx; rewrite EN; left; reflexivity).
        left.
        (* updated: still there at the end *)
        apply media_by_mid_In in B' as [B1 B2].
        assert (forall ls s idx s' nl mid, NoDup (map m_mid (medias s)) -> In mid (map m_mid (medias s)) ->
           (forall m, In m (medias s) -> m_mid m = mid -> m_index m < idx) ->
           sync_medias matched (bundle_mids o) io s idx ls = (s', Some nl) -> In mid (map m_mid (medias s'))) as ST.
        { clear. induction ls as [|x ls IH]; intros s idx s' nl mid N HI HX H; [injection H as <- <-; exact HI|].
          apply sync_step in H as [s1 [isnew [nl1 [K [H EN]]]]].
          pose proof (step_mids _ _ _ _ _ _ _ K N) as [N1 _].
          apply (IH s1 _ _ _ mid N1) in H; [exact H| |].
          - destruct K as [M'|M'|_ B' NI|m _ B' E|pos m _ B' P E D']; try exact HI.
            + cbn [medias]. rewrite upd_mid_mids by (intro; apply update_mid). exact HI.
            + cbn [medias]. pose proof (Permutation_map m_mid (swap_remove_perm _ _ _ P)) as PP.
              eapply Permutation_in in HI; [|exact PP]. destruct HI as [HI|HI]; [|exact HI].
              exfalso. specialize (HX m ltac:(eapply nth_error_In; exact P) HI). lia.
          - intros m0 Hm0 Em0. destruct K as [M'|M'|_ B' NI|m _ B' E|pos m _ B' P E D'];
              try (specialize (HX _ Hm0 Em0); lia).
            + cbn [medias] in Hm0. rewrite upd_mid_map in Hm0 by exact N. apply in_map_iff in Hm0 as [y [Hy1 Hy2]].
              destruct (m_mid y =? l_mid x); subst m0; rewrite ?update_mid, ?update_index in *; specialize (HX _ Hy2 Em0); lia.
            + cbn [medias] in Hm0. apply (in_swap_remove _ _ _ _ P) in Hm0. specialize (HX _ Hm0 Em0). lia. }
        eapply ST; [exact N1| | |exact H].
        -- cbn [medias]. rewrite upd_mid_mids by (intro; apply update_mid). rewrite <- B2. apply in_map. exact B1.
        -- cbn [medias]. intros m0 Hm0 Em0. rewrite upd_mid_map in Hm0 by exact N. apply in_map_iff in Hm0 as [y [Hy1 Hy2]].
           assert (m_mid y = l_mid l /\ m_index y = m_index m0) as [E1 E2].
           { destruct (m_mid y =? l_mid l); subst m0; rewrite ?update_mid, ?update_index in *; auto. }
           assert (y = m) as -> by (apply (NoDup_map_inj m_mid (medias s)); auto; congruence). lia.
      * destruct (F _ Hl0 M) as [F1|[i F1]]; [left; exact F1|right]. exists i. rewrite EN.
        destruct isnew; [right|]; exact F1.
Qed.

Lemma add_agreed matched o io nl : forall s s',
  add_new_lines matched (bundle_mids o) io s nl = (s', true) ->
  forall m', In m' (medias s') ->
    In m' (medias s) \/ exists i l, In (i, l) nl /\ is_media_t (l_type l) = true /\ l_mid l = m_mid m' /\
      m_index m' = i /\ agreed o m' l.
Proof.
  induction nl as [|[i l] nl IH]; intros s s' H m' Hm; cbn [add_new_lines] in H.
  - injection H as <-. left. exact Hm.
  - destruct (is_media_t (l_type l)) eqn:M.
    + destruct (IH _ _ H _ Hm) as [I|[i' [l' [I1 I2]]]]; [|right; exists i', l'; split; [right; exact I1|exact I2]].
      cbn [medias] in I. apply in_app_or in I as [I|[<-|[]]]; [left; exact I|right].
      exists i, l. split; [left; reflexivity|]. split; [exact M|]. rewrite update_mid, update_index.
      split; [reflexivity|]. split; [reflexivity|]. apply update_agreed.
    + destruct (is_channel_t (l_type l)); [|discriminate].
      destruct (set_app s (l_mid l) i) as [s1 ok] eqn:E. destruct ok; [|discriminate].
      assert (medias s1 = medias s) as EM.
      { unfold set_app in E. destruct (app s) as [[x y]|]; [|injection E as <-; reflexivity].
        destruct (negb (x =? l_mid l)); [discriminate|]. destruct (negb (y =? i)); [discriminate|].
        injection E as <-. reflexivity. }
      destruct (IH _ _ H _ Hm) as [I|[i' [l' [I1 I2]]]]; [left; rewrite <- EM; exact I|].
      right. exists i', l'. split; [right; exact I1|exact I2].
Qed.

Lemma add_all matched o io nl : forall s s',
  add_new_lines matched (bundle_mids o) io s nl = (s', true) ->
  (forall m, In m (medias s) -> In m (medias s')) /\
  (forall i l, In (i, l) nl -> is_media_t (l_type l) = true -> In (l_mid l) (map m_mid (medias s'))).
Proof.
  induction nl as [|[i l] nl IH]; intros s s' H; cbn [add_new_lines] in H.
  - injection H as <-. split; [auto|intros ? ? []].
  - destruct (is_media_t (l_type l)) eqn:M.
    + destruct (IH _ _ H) as [I1 I2]. cbn [medias] in I1. split.
      * intros m Hm. apply I1, in_or_app. left. exact Hm.
      * intros i' l' [E|E] M'; [|eapply I2; eauto]. injection E as <- <-.
        match type of H with add_new_lines _ _ _ (mkSession (_ ++ [?mm]) _) _ = _ =>
          replace (l_mid l) with (m_mid mm) by (rewrite update_mid; reflexivity) end.
        apply in_map, I1, in_or_app. right. left. reflexivity.
    + destruct (is_channel_t (l_type l)); [|discriminate].
      destruct (set_app s (l_mid l) i) as [s1 ok] eqn:E. destruct ok; [|discriminate].
      assert (medias s1 = medias s) as EM.
      { unfold set_app in E. destruct (app s) as [[x y]|]; [|injection E as <-; reflexivity].
        destruct (negb (x =? l_mid l)); [discriminate|]. destruct (negb (y =? i)); [discriminate|].
        injection E as <-. reflexivity. }
      destruct (IH _ _ H) as [I1 I2]. rewrite EM in I1. split; [exact I1|].
      intros i' l' [E'|E'] M'; [injection E' as <- <-; congruence|eapply I2; eauto].
Qed.

(* every media line of an accepted SDP is answered for *)
Lemma accepted_agreed matched o io s s1 nl s' :
  NoDup (map m_mid (medias s)) -> NoDup (map l_mid (s_lines o)) ->
  sync_medias matched (bundle_mids o) io s 0 (s_lines o) = (s1, Some nl) ->
  add_new_lines matched (bundle_mids o) io s1 nl = (s', true) ->
  NoDup (map m_mid (medias s')) /\
  forall l, In l (s_lines o) -> is_media_t (l_type l) = true ->
    exists m, media_by_mid (medias s') (l_mid l) = Some m /\ agreed o m l.
Proof.
  intros N NL H1 H2. destruct (sync_agreed _ _ _ _ _ _ _ _ N NL H1) as [A [B [C [D F]]]].
  pose proof (add_agreed _ _ _ _ _ _ H2) as G. pose proof (add_all _ _ _ _ _ _ H2) as [J1 J2].
  split.
  - (* distinct mids *)
    assert (NoDup (map (fun p => l_mid (snd p)) nl)) as NN.
    { clear - H1 NL. revert NL H1. generalize (s_lines o) as ls, 0 as idx. intros ls.
      revert s nl. induction ls as [|l ls IH]; intros s nl idx NL H; [injection H as <- <-; constructor|].
      cbn [map] in NL. inversion NL as [|? ? NL1 NL2]; subst.
      apply sync_step in H as [sx [isnew [nl1 [K [H EN]]]]]. subst nl.
      assert (NoDup (map (fun p => l_mid (snd p)) nl1)) as N1 by (eapply IH; eauto).
      destruct isnew; [|exact N1]. cbn [map snd]. constructor; [|exact N1].
      intro HI. apply NL1. apply in_map_iff in HI as [p [Hp1 Hp2]]. rewrite <- Hp1. apply in_map.
      clear - H Hp2. revert H Hp2. generalize (idx + 1) as i. revert nl1 sx.
      induction ls as [|x ls IH]; intros nl1 sx i H Hp2; [injection H as <- <-; destruct Hp2|].
      apply sync_step in H as [sy [isnew [nl2 [K [H EN]]]]]. subst nl1.
      destruct isnew; [destruct Hp2 as [<-|Hp2]; [left; reflexivity|]|]; right; eapply IH; eauto. }
    assert (forall p, In p nl -> is_media_t (l_type (snd p)) = true -> ~ In (l_mid (snd p)) (map m_mid (medias s1))) as CC
      by (intros p Hp; apply C; exact Hp).
    clear - A NN CC H2. revert s1 A CC H2. induction nl as [|[i l] nl IH]; intros s1 A CC H; cbn [add_new_lines] in H.
    + injection H as <-. exact A.
    + cbn [map snd] in NN. inversion NN as [|? ? NN1 NN2]; subst.
      destruct (is_media_t (l_type l)) eqn:M.
      * eapply IH in H; [exact H|exact NN2| |].
        -- cbn [medias]. rewrite map_app. cbn [map]. rewrite update_mid. cbn [m_mid media_set_open from_remote].
           assert (Permutation (l_mid l :: map m_mid (medias s1)) (map m_mid (medias s1) ++ [l_mid l])) as P
             by apply Permutation_cons_append.
           eapply Permutation_NoDup; [exact P|]. constructor; [|exact A].
           apply (CC (i, l)); [left; reflexivity|exact M].
        -- intros p Hp Mp. cbn [medias]. rewrite map_app, in_app_iff. cbn [map]. rewrite update_mid.
           cbn [m_mid media_set_open from_remote]. intros [HI|[HI|[]]].
           ++ eapply CC; [right; exact Hp|exact Mp|exact HI].
           ++ apply NN1. rewrite HI. apply in_map_iff. exists p. auto.
      * destruct (is_channel_t (l_type l)); [|discriminate].
        destruct (set_app s1 (l_mid l) i) as [s2 ok] eqn:E. destruct ok; [|discriminate].
        assert (medias s2 = medias s1) as EM.
        { unfold set_app in E. destruct (app s1) as [[x y]|]; [|injection E as <-; reflexivity].
          destruct (negb (x =? l_mid l)); [discriminate|]. destruct (negb (y =? i)); [discriminate|].
          injection E as <-. reflexivity. }
        eapply IH in H; [exact H|exact NN2| |]; rewrite ?EM; [exact A|].
        intros p Hp Mp. rewrite ?EM. apply CC; [right; exact Hp|exact Mp].
  - intros l Hl M.
    assert (In (l_mid l) (map m_mid (medias s'))) as HI.
    { destruct (F _ Hl M) as [F1|[i F1]]; [|eapply J2; eauto].
      apply in_map_iff in F1 as [y [Hy1 Hy2]]. rewrite <- Hy1. apply in_map, J1, Hy2. }
    destruct (media_by_mid (medias s') (l_mid l)) as [m|] eqn:E; [|apply media_by_mid_None in E; contradiction].
    exists m. split; [reflexivity|]. apply media_by_mid_In in E as [E1 E2].
    destruct (G _ E1) as [I|[i [l' [I1 [I2 [I3 [I4 I5]]]]]]]; [eapply B; eauto|].
    destruct (C _ I1) as [C1 _]. cbn [snd] in C1.
    assert (l' = l) as <- by (apply (NoDup_map_inj l_mid (s_lines o)); auto; congruence). exact I5.
Qed.

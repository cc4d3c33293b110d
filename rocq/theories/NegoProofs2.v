From Coq Require Import List ZArith Bool Lia Permutation Sorted.
From Verif Require Import Base BaseFacts NegoModel NegoSpec NegoProofs.
Import ListNotations.
Open Scope Z_scope.

Section S.
Variable matched : line -> bool.
Variable bundle : option (list Z).
Variable is_offer : bool.

Definition upd_entry (e : entry) (l : line) : entry :=
  on_media (fun m => update_media matched bundle m l) e.

Definition new_entry (p : Z * line) : entry :=
  let (idx, l) := p in
  if is_media_t (l_type l)
  then EMedia (update_media matched bundle
                 (media_set_open (from_remote l idx is_offer) (is_offer && negb (is_rejected bundle l))) l)
  else EApp (l_mid l) idx.

Definition keepR (e : entry) (l : line) : Prop := l_mid l = e_mid e /\ l_type l = entry_type e.

Definition recycleR (S : list Z) (e : entry) (l : line) : Prop :=
  is_offer = true /\ exists m, e = EMedia m /\ disabled m = true /\ is_media_t (l_type l) = true /\
  ~ In (l_mid l) S.

Definition newR (S : list Z) (hasapp : bool) (l : line) : Prop :=
  (is_media_t (l_type l) = true /\ ~ In (l_mid l) S) \/ (l_type l = TApp /\ hasapp = false).

Fixpoint cont (S : list Z) (hasapp : bool) (Q : list entry) (ls : list line) : Prop :=
  match Q, ls with
  | [], _ => Forall (newR S hasapp) ls
  | q :: Q', l :: ls' => (keepR q l \/ recycleR S q l) /\ cont S hasapp Q' ls'
  | _ :: _, [] => False
  end.

Fixpoint plan (idx : Z) (Q : list entry) (ls : list line) : list entry * list (Z * line) :=
  match ls with
  | [] => ([], [])
  | l :: ls' =>
      match Q with
      | q :: Q' =>
          let (k, n) := plan (idx + 1) Q' ls' in
          if e_mid q =? l_mid l then (upd_entry q l :: k, n) else (k, (idx, l) :: n)
      | [] => let (k, n) := plan (idx + 1) [] ls' in (k, (idx, l) :: n)
      end
  end.

Fixpoint target (idx : Z) (Q : list entry) (ls : list line) : list entry :=
  match ls with
  | [] => []
  | l :: ls' =>
      match Q with
      | q :: Q' =>
          (if e_mid q =? l_mid l then upd_entry q l else new_entry (idx, l)) :: target (idx + 1) Q' ls'
      | [] => new_entry (idx, l) :: target (idx + 1) [] ls'
      end
  end.

Definition has_app (s : session) : bool := match app s with Some _ => true | None => false end.

Lemma update_mid m l : m_mid (update_media matched bundle m l) = m_mid m.
Proof.
  unfold update_media. destruct (is_rejected bundle l); [reflexivity|].
  destruct (_ && _); reflexivity.
Qed.

Lemma update_index m l : m_index (update_media matched bundle m l) = m_index m.
Proof.
  unfold update_media. destruct (is_rejected bundle l); [reflexivity|].
  destruct (_ && _); reflexivity.
Qed.

Lemma update_audio m l : m_audio (update_media matched bundle m l) = m_audio m.
Proof.
  unfold update_media. destruct (is_rejected bundle l); [reflexivity|].
  destruct (_ && _); reflexivity.
Qed.

Lemma upd_entry_mid e l : e_mid (upd_entry e l) = e_mid e.
Proof. destruct e; cbn; [reflexivity|apply update_mid]. Qed.

Lemma upd_entry_index e l : e_index (upd_entry e l) = e_index e.
Proof. destruct e; cbn; [reflexivity|apply update_index]. Qed.

Lemma new_entry_mid i l : e_mid (new_entry (i, l)) = l_mid l.
Proof. unfold new_entry. destruct (is_media_t (l_type l)); cbn; [rewrite update_mid|]; reflexivity. Qed.

Lemma new_entry_index i l : e_index (new_entry (i, l)) = i.
Proof. unfold new_entry. destruct (is_media_t (l_type l)); cbn; [rewrite update_index|]; reflexivity. Qed.

Lemma target_index ls : forall idx Q,
  map e_index Q = zseq idx (length Q) ->
  (length Q <= length ls)%nat ->
  map e_index (target idx Q ls) = zseq idx (length ls).
Proof.
  induction ls as [|l ls IH]; intros idx Q H L; [reflexivity|].
  destruct Q as [|q Q]; cbn [target map length zseq].
  - rewrite new_entry_index, IH; [reflexivity|reflexivity|cbn; lia].
  - cbn [map length zseq] in H. injection H as H1 H2.
    rewrite IH; [|exact H2|cbn in L; lia].
    destruct (e_mid q =? l_mid l); [rewrite upd_entry_index, H1|rewrite new_entry_index]; reflexivity.
Qed.

Lemma target_mids ls : forall idx Q, map e_mid (target idx Q ls) = map l_mid ls.
Proof.
  induction ls as [|l ls IH]; intros idx Q; [reflexivity|].
  destruct Q as [|q Q]; cbn [target map].
  - rewrite IH, new_entry_mid. reflexivity.
  - rewrite IH. destruct (Z.eqb_spec (e_mid q) (l_mid l)) as [E|E];
      [rewrite upd_entry_mid, E|rewrite new_entry_mid]; reflexivity.
Qed.

Lemma target_perm ls : forall idx Q k n,
  plan idx Q ls = (k, n) -> Permutation (k ++ map new_entry n) (target idx Q ls).
Proof.
  induction ls as [|l ls IH]; intros idx Q k n H; cbn [plan target] in *.
  - injection H as <- <-. constructor.
  - destruct Q as [|q Q].
    + destruct (plan (idx + 1) [] ls) as [k' n'] eqn:E. injection H as <- <-.
      cbn [map]. rewrite <- Permutation_middle. constructor. apply IH. exact E.
    + destruct (plan (idx + 1) Q ls) as [k' n'] eqn:E.
      destruct (e_mid q =? l_mid l); injection H as <- <-.
      * cbn [List.app]. constructor. apply IH. exact E.
      * cbn [map]. rewrite <- Permutation_middle. constructor. apply IH. exact E.
Qed.

Lemma sync_spec ls : forall s idx P Q S k nl,
  Permutation (entries s) (P ++ Q) ->
  NoDup (map e_mid (P ++ Q)) ->
  map e_index Q = zseq idx (length Q) ->
  Forall (fun e => e_index e < idx) P ->
  incl (map e_mid (P ++ Q)) S ->
  cont S (has_app s) Q ls ->
  plan idx Q ls = (k, nl) ->
  exists s', sync_medias matched bundle is_offer s idx ls = (s', Some nl) /\
    Permutation (entries s') (P ++ k) /\ app s' = app s.
Proof.
  induction ls as [|l ls IH]; intros s idx P Q S k nl HP HN HI HF HS HC HL.
  - destruct Q as [|q Q]; [|destruct HC].
    cbn [plan] in HL. injection HL as <- <-. exists s. cbn. split; [reflexivity|split; [exact HP|reflexivity]].
  - assert (NoDup (map m_mid (medias s))) as NM.
    { apply NoDup_medias. eapply Permutation_NoDup; [|exact HN].
      apply Permutation_map, Permutation_sym, HP. }
    destruct Q as [|q Q].
    + (* a new line *)
      cbn [cont] in HC. inversion HC as [|? ? HC1 HC2]; subst. cbn [plan] in HL.
      destruct (plan (idx + 1) [] ls) as [k' n'] eqn:EP. injection HL as <- <-.
      rewrite app_nil_r in HP.
      destruct (IH s (idx + 1) P [] S k' n') as [s' [H1 [H2 H3]]]; auto.
      * rewrite app_nil_r. exact HP.
      * eapply Forall_impl; [|exact HF]. cbn. intros. lia.
      * exists s'. split; [|split; assumption].
        assert (forall m, In m (medias s) -> m_index m <> idx) as NI.
        { intros m Hm. apply in_entries_media in Hm. eapply Permutation_in in Hm; [|exact HP].
          rewrite Forall_forall in HF. specialize (HF _ Hm). cbn in HF. lia. }
        destruct HC1 as [[M NS]|[M NA]].
        -- assert (media_by_mid (medias s) (l_mid l) = None) as B.
           { apply media_by_mid_None. intro HIn. apply NS. apply HS. rewrite app_nil_r.
             eapply Permutation_in; [apply Permutation_map; exact HP|].
             rewrite entries_mids. apply in_or_app. right. exact HIn. }
           assert (position_idx (medias s) idx = None) as PI.
           { pose proof (position_idx_spec (medias s) idx) as PS.
             destruct (position_idx (medias s) idx) as [pos|]; [|reflexivity].
             destruct PS as [m [PS1 PS2]]. exfalso. eapply NI; [eapply nth_error_In; exact PS1|exact PS2]. }
           cbn [sync_medias]. rewrite B, PI, H1.
           destruct (l_type l); try discriminate; reflexivity.
        -- cbn [sync_medias]. rewrite M. unfold has_app in NA.
           destruct (app s) as [p|]; [discriminate|]. rewrite H1. reflexivity.
    + cbn [cont] in HC. destruct HC as [HC1 HC2]. cbn [plan] in HL.
      destruct (plan (idx + 1) Q ls) as [k' n'] eqn:EP.
      cbn [map length zseq] in HI. injection HI as HI1 HI2.
      assert (Permutation (entries s) (q :: P ++ Q)) as HP'
        by (rewrite HP; apply Permutation_sym, Permutation_middle).
      destruct HC1 as [[K1 K2]|R].
      * (* the line of an existing m-line *)
        rewrite K1, Z.eqb_refl in HL. injection HL as <- <-.
        assert (exists s1, sync_medias matched bundle is_offer s idx (l :: ls) =
                           sync_medias matched bundle is_offer s1 (idx + 1) ls /\
                           Permutation (entries s1) ((P ++ [upd_entry q l]) ++ Q) /\ app s1 = app s) as [s1 [E1 [E2 E3]]].
        { destruct q as [mid i|m].
          - exists s. cbn in K2. cbn [sync_medias]. rewrite K2.
            assert (app s = Some (mid, i)) as EA.
            { apply in_entries_app. eapply Permutation_in; [apply Permutation_sym, HP'|left; reflexivity]. }
            rewrite EA. cbn in HI1. subst i. rewrite Z.eqb_refl. cbn [negb].
            split; [reflexivity|]. split; [|congruence].
            cbn [upd_entry on_media]. rewrite <- app_assoc. exact HP.
          - exists (mkSession (upd_mid (medias s) (l_mid l) (fun m => update_media matched bundle m l)) (app s)).
            cbn in K1. cbn in HI1.
            assert (media_by_mid (medias s) (l_mid l) = Some m) as B.
            { rewrite K1. apply media_by_mid_uniq; [exact NM|]. apply in_entries_media.
              eapply Permutation_in; [apply Permutation_sym, HP'|left; reflexivity]. }
            split; [|split; [|reflexivity]].
            + cbn [sync_medias]. rewrite B, HI1, Z.eqb_refl. cbn [negb].
              unfold entry_type in K2. cbn in K2. rewrite K2. destruct (m_audio m); reflexivity.
            + rewrite K1. rewrite (upd_entries s m (P ++ Q) _ NM HP').
              rewrite <- app_assoc. cbn [List.app]. apply Permutation_middle. }
        destruct (IH s1 (idx + 1) (P ++ [upd_entry q l]) Q S k' n') as [s' [H1 [H2 H3]]]; auto.
        -- rewrite <- app_assoc. rewrite map_app in *. cbn [List.app map] in *. rewrite upd_entry_mid. exact HN.
        -- apply Forall_app. split.
           ++ eapply Forall_impl; [|exact HF]. cbn. intros. lia.
           ++ constructor; [rewrite upd_entry_index; lia|constructor].
        -- rewrite <- app_assoc. rewrite map_app in *. cbn [List.app map] in *. rewrite upd_entry_mid. exact HS.
        -- unfold has_app in *. rewrite E3. exact HC2.
        -- exists s'. rewrite E1, H1, H3, E3. split; [reflexivity|split; [|reflexivity]].
           rewrite H2, <- app_assoc. apply Permutation_refl.
      * (* the place of a disabled media is reused *)
        destruct R as [RO [m [-> [RD [RT RN]]]]]. cbn [e_mid] in HL.
        assert (m_mid m <> l_mid l) as NE.
        { intro E. apply RN. rewrite <- E. apply HS. rewrite map_app. apply in_or_app. right. left. reflexivity. }
        destruct (Z.eqb_spec (m_mid m) (l_mid l)) as [E|_]; [contradiction|]. injection HL as <- <-.
        assert (media_by_mid (medias s) (l_mid l) = None) as B.
        { apply media_by_mid_None. intro HIn. apply RN. apply HS.
          eapply Permutation_in; [apply Permutation_map; exact HP|].
          rewrite entries_mids. apply in_or_app. right. exact HIn. }
        cbn [e_index] in HI1.
        pose proof (position_idx_spec (medias s) idx) as PS.
        destruct (position_idx (medias s) idx) as [pos|] eqn:EPos.
        2: { exfalso. apply (PS m); [|exact HI1]. apply in_entries_media.
             eapply Permutation_in; [apply Permutation_sym, HP'|left; reflexivity]. }
        destruct PS as [m0 [PS1 PS2]].
        assert (m0 = m) as ->.
        { assert (In (EMedia m0) (EMedia m :: P ++ Q)) as I.
          { eapply Permutation_in; [exact HP'|]. apply in_entries_media. eapply nth_error_In; exact PS1. }
          destruct I as [I|I]; [congruence|]. apply in_app_or in I as [I|I].
          - rewrite Forall_forall in HF. specialize (HF _ I). cbn in HF. lia.
          - assert (In (e_index (EMedia m0)) (zseq (idx + 1) (length Q))) as J by (rewrite <- HI2; apply in_map; exact I).
            apply zseq_in in J. cbn in J. lia. }
        set (s1 := mkSession (swap_remove (medias s) pos) (app s)).
        assert (Permutation (entries s1) (P ++ Q)) as E2.
        { destruct (entries_split _ _ _ HP') as [Lm [P1 P2]]. rewrite P2. unfold s1, entries. cbn [medias app].
          apply Permutation_app_head, Permutation_map.
          apply (Permutation_cons_inv (a := m)). rewrite <- P1. apply Permutation_sym, swap_remove_perm, PS1. }
        destruct (IH s1 (idx + 1) P Q S k' n') as [s' [H1 [H2 H3]]]; auto.
        -- rewrite map_app in *. cbn [map] in HN. eapply NoDup_remove_1; exact HN.
        -- eapply Forall_impl; [|exact HF]. cbn. intros. lia.
        -- intros x Hx. apply HS. rewrite map_app in *. cbn [map]. apply in_or_app.
           apply in_app_or in Hx as [Hx|Hx]; [left; exact Hx|right; right; exact Hx].
        -- exists s'. split; [|split; [exact H2|exact H3]].
           cbn [sync_medias]. rewrite B, EPos, RO. cbn [negb]. rewrite PS1, RD. cbn [negb].
           fold s1. rewrite <- RO, H1. destruct (l_type l); try discriminate; reflexivity.
Qed.

Lemma add_new_spec nl : forall s,
  Forall (fun p => is_media_t (l_type (snd p)) = true \/ l_type (snd p) = TApp) nl ->
  (forall i j p q, nth_error nl i = Some p -> nth_error nl j = Some q ->
     l_type (snd p) = TApp -> l_type (snd q) = TApp -> i = j) ->
  (forall p, In p nl -> l_type (snd p) = TApp -> app s = None) ->
  exists s', add_new_lines matched bundle is_offer s nl = (s', true) /\
    Permutation (entries s') (entries s ++ map new_entry nl).
Proof.
  induction nl as [|[idx l] nl IH]; intros s HT HU HA; cbn [add_new_lines map].
  - exists s. rewrite app_nil_r. split; [reflexivity|apply Permutation_refl].
  - inversion HT as [|? ? HT1 HT2]; subst. cbn [snd] in HT1.
    assert (forall i j p q, nth_error nl i = Some p -> nth_error nl j = Some q ->
     l_type (snd p) = TApp -> l_type (snd q) = TApp -> i = j) as HU'.
    { intros i j p q Hi Hj Tp Tq. specialize (HU (S i) (S j) p q Hi Hj Tp Tq). lia. }
    unfold new_entry at 1. destruct (is_media_t (l_type l)) eqn:M.
    + match goal with |- context [add_new_lines _ _ _ ?s1 nl] => destruct (IH s1) as [s' [H1 H2]] end; auto.
      { intros p Hp Tp. cbn. eapply HA; [right; exact Hp|exact Tp]. }
      exists s'. split; [exact H1|]. rewrite H2. unfold entries. cbn [medias app].
      rewrite map_app. cbn [map]. rewrite <- !app_assoc. cbn [List.app]. apply Permutation_refl.
    + destruct HT1 as [HT1|HT1]; [congruence|]. rewrite HT1. cbn [is_channel_t].
      assert (app s = None) as A by (eapply HA; [left; reflexivity|exact HT1]).
      unfold set_app. rewrite A.
      destruct (IH (mkSession (medias s) (Some (l_mid l, idx)))) as [s' [H1 H2]]; auto.
      { intros p Hp Tp. exfalso. apply In_nth_error in Hp as [j Hj].
        specialize (HU O (S j) (idx, l) p eq_refl Hj HT1 Tp). discriminate. }
      exists s'. split; [exact H1|]. rewrite H2. unfold entries. cbn [medias app]. rewrite A.
      cbn [List.app]. apply Permutation_middle.
Qed.

(* which lines are planned as new *)
Lemma plan_new ls : forall idx Q k nl p,
  plan idx Q ls = (k, nl) -> In p nl -> In (snd p) ls.
Proof.
  induction ls as [|l ls IH]; intros idx Q k nl p H HI; cbn [plan] in H; [injection H as <- <-; destruct HI|].
  destruct Q as [|q Q].
  - destruct (plan (idx + 1) [] ls) as [k' n'] eqn:E. injection H as <- <-.
    destruct HI as [<-|HI]; [left; reflexivity|right; eapply IH; eauto].
  - destruct (plan (idx + 1) Q ls) as [k' n'] eqn:E.
    destruct (e_mid q =? l_mid l); injection H as <- <-; [right; eapply IH; eauto|].
    destruct HI as [<-|HI]; [left; reflexivity|right; eapply IH; eauto].
Qed.

Lemma plan_NoDup ls : forall idx Q k nl,
  NoDup (map l_mid ls) -> plan idx Q ls = (k, nl) -> NoDup (map (fun p => l_mid (snd p)) nl).
Proof.
  induction ls as [|l ls IH]; intros idx Q k nl N H; cbn [plan] in H; [injection H as <- <-; constructor|].
  cbn [map] in N. inversion N as [|? ? N1 N2]; subst.
  assert (forall k' n', (exists Q', plan (idx + 1) Q' ls = (k', n')) ->
            NoDup (map (fun p => l_mid (snd p)) ((idx, l) :: n'))) as A.
  { intros k' n' [Q' E]. cbn [map snd]. constructor; [|eapply IH; eauto].
    intro HI. apply in_map_iff in HI as [p [Hp1 Hp2]]. apply N1. rewrite <- Hp1.
    apply in_map. eapply plan_new; eauto. }
  destruct Q as [|q Q].
  - destruct (plan (idx + 1) [] ls) as [k' n'] eqn:E. injection H as <- <-. apply (A k'). eauto.
  - destruct (plan (idx + 1) Q ls) as [k' n'] eqn:E.
    destruct (e_mid q =? l_mid l); injection H as <- <-; [eapply IH; eauto|apply (A k'); eauto].
Qed.

Lemma plan_new_type ls : forall idx Q S ha k nl p,
  incl (map e_mid Q) S ->
  cont S ha Q ls -> plan idx Q ls = (k, nl) -> In p nl ->
  (is_media_t (l_type (snd p)) = true /\ ~ In (l_mid (snd p)) S) \/ (l_type (snd p) = TApp /\ ha = false).
Proof.
  induction ls as [|l ls IH]; intros idx Q S ha k nl p HS HC H HI; cbn [plan] in H; [injection H as <- <-; destruct HI|].
  destruct Q as [|q Q].
  - destruct (plan (idx + 1) [] ls) as [k' n'] eqn:E. injection H as <- <-.
    cbn [cont] in HC. inversion HC as [|? ? HC1 HC2]; subst.
    destruct HI as [<-|HI]; [exact HC1|eapply IH; eauto].
  - destruct (plan (idx + 1) Q ls) as [k' n'] eqn:E. cbn [cont] in HC. destruct HC as [HC1 HC2].
    assert (incl (map e_mid Q) S) as HS' by (intros x Hx; apply HS; right; exact Hx).
    destruct (Z.eqb_spec (e_mid q) (l_mid l)) as [E1|E1]; injection H as <- <-; [eapply IH; eauto|].
    destruct HI as [<-|HI]; [|eapply IH; eauto]. left. cbn [snd].
    destruct HC1 as [[K _]|[_ [m [_ [_ [T N]]]]]]; [congruence|auto].
Qed.

Lemma cont_length S ha : forall Q ls, cont S ha Q ls -> (length Q <= length ls)%nat.
Proof.
  induction Q as [|q Q IH]; intros ls H; [cbn; lia|]. destruct ls as [|l ls]; [destruct H|].
  destruct H as [_ H]. apply IH in H. cbn. lia.
Qed.

(* the two steps together: the session's lines become [target] *)
Lemma sync_add s ls :
  tidy s -> NoDup (map l_mid ls) ->
  (forall l l', In l ls -> In l' ls -> l_type l = TApp -> l_type l' = TApp -> l = l') ->
  cont (map e_mid (session_lines s)) (has_app s) (session_lines s) ls ->
  exists s1 k nl s', plan 0 (session_lines s) ls = (k, nl) /\
    sync_medias matched bundle is_offer s 0 ls = (s1, Some nl) /\
    add_new_lines matched bundle is_offer s1 nl = (s', true) /\
    session_lines s' = target 0 (session_lines s) ls /\ tidy s' /\
    Permutation (entries s') (target 0 (session_lines s) ls).
Proof.
  intros [T1 T2] ND UA HC.
  destruct (plan 0 (session_lines s) ls) as [k nl] eqn:EP.
  destruct (sync_spec ls s 0 [] (session_lines s) (map e_mid (session_lines s)) k nl) as [s1 [H1 [H2 H3]]]; auto.
  - cbn. apply lines_perm.
  - cbn. apply incl_refl.
  - cbn [List.app] in H2.
    destruct (add_new_spec nl s1) as [s' [H4 H5]].
    + apply Forall_forall. intros p Hp.
      destruct (plan_new_type _ _ _ _ _ _ _ _ (incl_refl _) HC EP Hp) as [[? ?]|[? ?]]; auto.
    + intros i j p q Hi Hj Tp Tq.
      assert (snd p = snd q) as E.
      { apply UA; auto; eapply plan_new; eauto; eapply nth_error_In; eauto. }
      pose proof (plan_NoDup _ _ _ _ _ ND EP) as N.
      rewrite NoDup_nth_error in N. apply N.
      * rewrite map_length. apply nth_error_Some. congruence.
      * erewrite !map_nth_error by eauto. rewrite E. reflexivity.
    + intros p Hp Tp. rewrite H3.
      destruct (plan_new_type _ _ _ _ _ _ _ _ (incl_refl _) HC EP Hp) as [[X ?]|[_ X]].
      * rewrite Tp in X. discriminate.
      * unfold has_app in X. destruct (app s); [discriminate|reflexivity].
    + assert (Permutation (entries s') (target 0 (session_lines s) ls)) as HP.
      { rewrite H5, H2. eapply target_perm; exact EP. }
      assert (is_seq (target 0 (session_lines s) ls)) as HQ.
      { unfold is_seq. rewrite target_index; [|exact T1|eapply cont_length; exact HC].
        f_equal. rewrite <- (map_length e_mid), target_mids, map_length. reflexivity. }
      pose proof (lines_eq _ _ HP HQ) as EL.
      exists s1, k, nl, s'. split; [reflexivity|]. split; [exact H1|]. split; [exact H4|].
      split; [exact EL|]. split; [|exact HP].
      unfold tidy. rewrite EL. split; [exact HQ|]. rewrite target_mids. exact ND.
Qed.

Lemma line_type_upd e l : l_type (line_of (upd_entry e l)) = l_type (line_of e).
Proof. destruct e as [|m]; cbn; [reflexivity|]. rewrite update_audio. reflexivity. Qed.

Lemma new_entry_type i l : is_media_t (l_type l) = true \/ l_type l = TApp ->
  l_type (line_of (new_entry (i, l))) = l_type l.
Proof.
  intros [M|M]; unfold new_entry.
  - rewrite M. cbn. rewrite update_audio. cbn. destruct (l_type l); try discriminate; reflexivity.
  - rewrite M. reflexivity.
Qed.

Lemma line_of_mid e : l_mid (line_of e) = e_mid e.
Proof. destruct e; reflexivity. Qed.

Lemma target_shape ls : forall idx Q S ha, incl (map e_mid Q) S -> cont S ha Q ls ->
  shape (map line_of (target idx Q ls)) = shape ls.
Proof.
  unfold shape. induction ls as [|l ls IH]; intros idx Q S ha HS HC; [reflexivity|].
  destruct Q as [|q Q]; cbn [target map].
  - cbn [cont] in HC. inversion HC as [|? ? HC1 HC2]; subst.
    rewrite (IH (idx + 1) [] S ha); [|exact HS|exact HC2]. rewrite line_of_mid, new_entry_mid.
    rewrite new_entry_type; [reflexivity|]. destruct HC1 as [[? _]|[? _]]; auto.
  - cbn [cont] in HC. destruct HC as [HC1 HC2].
    assert (incl (map e_mid Q) S) as HS' by (intros x Hx; apply HS; right; exact Hx).
    rewrite (IH (idx + 1) Q S ha HS' HC2). f_equal.
    destruct (Z.eqb_spec (e_mid q) (l_mid l)) as [E|E].
    + rewrite line_of_mid, upd_entry_mid, E, line_type_upd.
      destruct HC1 as [[_ K]|[_ [m [Em [_ [_ RN]]]]]]; [unfold entry_type in K; rewrite K; reflexivity|].
      exfalso. apply RN. apply HS. rewrite <- E. left. reflexivity.
    + rewrite line_of_mid, new_entry_mid, new_entry_type; [reflexivity|].
      destruct HC1 as [[K _]|[_ [m [Em [_ [T RN]]]]]]; [congruence|left; exact T].
Qed.
End S.

From Coq Require Import List ZArith Bool Lia Permutation Sorted.
From Verif Require Import Base BaseFacts NegoModel NegoSpec.
Import ListNotations.
Open Scope Z_scope.

(* ---------- directions ---------- *)
Lemma dir_eqb_eq a b : dir_eqb a b = true <-> a = b.
Proof. destruct a, b; cbn; split; intro; congruence. Qed.

Lemma invert_inv d : invert (invert d) = d.
Proof. destruct d; reflexivity. Qed.

Lemma compatible_invert d : compatible (invert d) d.
Proof. destruct d; cbv; intuition congruence. Qed.

Lemma compatible_inactive d : compatible Inactive d.
Proof. cbv; intuition congruence. Qed.

(* ---------- sorting ---------- *)
Definition ilt (a b : entry) : Prop := e_index a < e_index b.

Lemma insert_perm e l : Permutation (insert_entry e l) (e :: l).
Proof.
  induction l as [|x l IH]; cbn; [apply Permutation_refl|].
  destruct (e_index e <=? e_index x); [apply Permutation_refl|].
  rewrite IH. apply perm_swap.
Qed.

Lemma sort_perm l : Permutation (sort_entries l) l.
Proof.
  induction l as [|e l IH]; cbn; [constructor|].
  rewrite insert_perm. constructor. exact IH.
Qed.

Definition ile (a b : entry) : Prop := e_index a <= e_index b.

Lemma insert_sorted e l : StronglySorted ile l -> StronglySorted ile (insert_entry e l).
Proof.
  induction l as [|x l IH]; intros H; cbn.
  - constructor; constructor.
  - inversion H as [|? ? H1 H2]; subst.
    destruct (Z.leb_spec (e_index e) (e_index x)).
    + constructor; [constructor; assumption|]. constructor; [exact H0|].
      eapply Forall_impl; [|exact H2]. intros a Ha. unfold ile in *. lia.
    + constructor; [apply IH; exact H1|].
      rewrite insert_perm. constructor; [unfold ile; lia|exact H2].
Qed.

Lemma sort_sorted l : StronglySorted ile (sort_entries l).
Proof. induction l as [|e l IH]; cbn; [constructor|apply insert_sorted; exact IH]. Qed.

Lemma sorted_perm_eq l l' :
  StronglySorted ile l -> StronglySorted ilt l' -> Permutation l l' -> l = l'.
Proof.
  revert l'. induction l as [|e l IH]; intros l' H H' P.
  - apply Permutation_nil in P. congruence.
  - destruct l' as [|e' l']; [apply Permutation_sym, Permutation_nil in P; congruence|].
    inversion H as [|? ? H1 H2]; subst. inversion H' as [|? ? H1' H2']; subst.
    assert (e = e') as ->.
    { assert (In e (e' :: l')) as I by (eapply Permutation_in; [exact P|left; reflexivity]).
      destruct I as [I|I]; [congruence|].
      assert (In e' (e :: l)) as I' by (eapply Permutation_in; [apply Permutation_sym, P|left; reflexivity]).
      destruct I' as [I'|I']; [congruence|].
      rewrite Forall_forall in H2, H2'. specialize (H2 _ I'). specialize (H2' _ I).
      unfold ile, ilt in *. lia. }
    f_equal. apply IH; [exact H1|exact H1'|]. eapply Permutation_cons_inv; exact P.
Qed.

Lemma sort_eq l l' : Permutation l l' -> StronglySorted ilt l' -> sort_entries l = l'.
Proof.
  intros P H. apply sorted_perm_eq; [apply sort_sorted|exact H|].
  rewrite sort_perm. exact P.
Qed.

Lemma zseq_sorted l : forall a, map e_index l = zseq a (length l) -> StronglySorted ilt l.
Proof.
  induction l as [|e l IH]; intros a H; [constructor|].
  cbn [map length zseq] in H. injection H as He Hl.
  constructor; [apply (IH _ Hl)|].
  apply Forall_forall. intros x Hx. unfold ilt.
  assert (In (e_index x) (zseq (a + 1) (length l))) as I by (rewrite <- Hl; apply in_map; exact Hx).
  apply zseq_in in I. lia.
Qed.

(* ---------- a session is its sorted lines ---------- *)
Definition is_seq (E : list entry) : Prop := map e_index E = zseq 0 (length E).

Lemma lines_eq s E : Permutation (entries s) E -> is_seq E -> session_lines s = E.
Proof. intros P H. apply sort_eq; [exact P|eapply zseq_sorted; exact H]. Qed.

Lemma lines_perm s : Permutation (entries s) (session_lines s).
Proof. apply Permutation_sym, sort_perm. Qed.

Definition on_media (f : media -> media) (e : entry) : entry :=
  match e with EMedia m => EMedia (f m) | _ => e end.

Lemma in_entries_media s m : In (EMedia m) (entries s) <-> In m (medias s).
Proof.
  unfold entries. rewrite in_app_iff, in_map_iff. split.
  - intros [H|[x [H1 H2]]]; [destruct (app s) as [[? ?]|]; cbn in H; intuition congruence|].
    injection H1 as ->. exact H2.
  - intros H. right. exists m. auto.
Qed.

Lemma in_entries_app s mid i : In (EApp mid i) (entries s) <-> app s = Some (mid, i).
Proof.
  unfold entries. rewrite in_app_iff, in_map_iff. split.
  - intros [H|[x [H1 H2]]]; [|congruence].
    destruct (app s) as [[? ?]|]; cbn in H; [|tauto]. destruct H as [H|[]]. congruence.
  - intros H. left. rewrite H. left. reflexivity.
Qed.

Lemma entries_mids s : map e_mid (entries s) =
  match app s with Some (mid, _) => [mid] | None => [] end ++ map m_mid (medias s).
Proof.
  unfold entries. rewrite map_app, map_map. f_equal. destruct (app s) as [[? ?]|]; reflexivity.
Qed.

Lemma media_by_mid_In l mid m : media_by_mid l mid = Some m -> In m l /\ m_mid m = mid.
Proof. intro H. apply find_some in H. rewrite Z.eqb_eq in H. exact H. Qed.

Lemma media_by_mid_None l mid : media_by_mid l mid = None <-> ~ In mid (map m_mid l).
Proof.
  unfold media_by_mid. induction l as [|m l IH]; cbn; [tauto|].
  destruct (Z.eqb_spec (m_mid m) mid); [split; intro H; [congruence|exfalso; apply H; auto]|].
  rewrite IH. tauto.
Qed.

Lemma NoDup_map_inj {A B} (f : A -> B) l x y :
  NoDup (map f l) -> In x l -> In y l -> f x = f y -> x = y.
Proof.
  induction l as [|a l IH]; cbn; intros N Hx Hy E; [tauto|].
  inversion N as [|? ? N1 N2]; subst.
  destruct Hx as [->|Hx], Hy as [->|Hy]; auto.
  - exfalso. apply N1. rewrite E. apply in_map. exact Hy.
  - exfalso. apply N1. rewrite <- E. apply in_map. exact Hx.
Qed.

Lemma media_by_mid_uniq l m :
  NoDup (map m_mid l) -> In m l -> media_by_mid l (m_mid m) = Some m.
Proof.
  intros N I. destruct (media_by_mid l (m_mid m)) as [m'|] eqn:E.
  - apply media_by_mid_In in E as [I' E]. f_equal. eapply NoDup_map_inj; eauto.
  - apply media_by_mid_None in E. exfalso. apply E. apply in_map. exact I.
Qed.

Lemma upd_mid_map l mid f :
  NoDup (map m_mid l) -> upd_mid l mid f = map (fun m => if m_mid m =? mid then f m else m) l.
Proof.
  induction l as [|m l IH]; cbn; intros N; [reflexivity|].
  inversion N as [|? ? N1 N2]; subst.
  destruct (Z.eqb_spec (m_mid m) mid) as [E|E].
  - f_equal. rewrite <- (map_id l) at 1. apply map_ext_in. intros x Hx.
    destruct (Z.eqb_spec (m_mid x) mid); [|reflexivity].
    exfalso. apply N1. rewrite E, <- e. apply in_map. exact Hx.
  - f_equal. apply IH. exact N2.
Qed.

Lemma upd_mid_mids l mid f :
  (forall m, m_mid (f m) = m_mid m) -> map m_mid (upd_mid l mid f) = map m_mid l.
Proof.
  intro H. induction l as [|m l IH]; cbn; [reflexivity|].
  destruct (m_mid m =? mid); cbn; [rewrite H; reflexivity|rewrite IH; reflexivity].
Qed.

Lemma upd_mid_perm_one m l1 f L :
  NoDup (map m_mid l1) -> Permutation l1 (m :: L) ->
  Permutation (upd_mid l1 (m_mid m) f) (f m :: L).
Proof.
  intros N P. rewrite upd_mid_map by exact N.
  rewrite (Permutation_map _ P). cbn. rewrite Z.eqb_refl. constructor.
  assert (map (fun m0 => if m_mid m0 =? m_mid m then f m0 else m0) L = L) as ->; [|apply Permutation_refl].
  rewrite <- (map_id L) at 2. apply map_ext_in. intros x Hx.
  destruct (Z.eqb_spec (m_mid x) (m_mid m)) as [E|E]; [|reflexivity].
  assert (NoDup (map m_mid (m :: L))) as N' by (eapply Permutation_NoDup; [apply Permutation_map, P|exact N]).
  cbn in N'. inversion N' as [|? ? N1 N2]; subst. exfalso. apply N1. rewrite <- E. apply in_map. exact Hx.
Qed.

(* Permutation of entries, in terms of medias *)
Lemma entries_split s m L :
  Permutation (entries s) (EMedia m :: L) ->
  exists Lm, Permutation (medias s) (m :: Lm) /\
    Permutation L (match app s with Some (mid, i) => [EApp mid i] | None => [] end ++ map EMedia Lm).
Proof.
  intros P.
  assert (In m (medias s)) as I.
  { apply in_entries_media. eapply Permutation_in; [apply Permutation_sym, P|left; reflexivity]. }
  apply in_split in I as [l1 [l2 E]].
  exists (l1 ++ l2). split; [rewrite E; apply Permutation_sym, Permutation_middle|].
  apply (Permutation_cons_inv (a := EMedia m)). rewrite <- P.
  unfold entries. rewrite E, !map_app. cbn [map]. rewrite !app_assoc.
  apply Permutation_sym, Permutation_middle.
Qed.

Lemma upd_entries s m L f :
  NoDup (map m_mid (medias s)) ->
  Permutation (entries s) (EMedia m :: L) ->
  Permutation (entries (mkSession (upd_mid (medias s) (m_mid m) f) (app s))) (EMedia (f m) :: L).
Proof.
  intros N P. destruct (entries_split _ _ _ P) as [Lm [P1 P2]].
  unfold entries. cbn [medias app]. rewrite (Permutation_map EMedia (upd_mid_perm_one m _ f Lm N P1)).
  cbn [map]. rewrite P2. apply Permutation_sym, Permutation_middle.
Qed.

Lemma NoDup_medias s : NoDup (map e_mid (entries s)) -> NoDup (map m_mid (medias s)).
Proof.
  rewrite entries_mids. destruct (app s) as [[? ?]|]; cbn; [inversion 1; assumption|tauto].
Qed.

(* ---------- swap_remove ---------- *)
Lemma removelast_last_perm {A} (l : list A) x r : rev l = x :: r -> l = removelast l ++ [x].
Proof.
  intro H. assert (l <> []) as N by (intro E; subst; discriminate).
  assert (l = rev r ++ [x]) as E by (rewrite <- (rev_involutive l), H; reflexivity).
  rewrite E. rewrite removelast_last. reflexivity.
Qed.

Lemma swap_remove_perm l pos m :
  nth_error l pos = Some m -> Permutation l (m :: swap_remove l pos).
Proof.
  intro H. unfold swap_remove. destruct (rev l) as [|x r] eqn:R.
  - assert (l = []) as -> by (rewrite <- (rev_involutive l), R; reflexivity).
    destruct pos; discriminate.
  - pose proof (removelast_last_perm l x r R) as E.
    apply nth_error_split in H as [l1 [l2 [El Hl]]].
    destruct (Nat.eqb_spec (S pos) (length l)) as [L|L].
    + assert (l2 = []) as ->.
      { rewrite El, app_length in L. cbn in L. destruct l2; [reflexivity|cbn in L; lia]. }
      rewrite El. rewrite removelast_last. apply Permutation_sym, Permutation_cons_append.
    + subst pos. assert (skipn (S (length l1)) l = l2) as ->.
      { rewrite El. replace (S (length l1)) with (length (l1 ++ [m])) by (rewrite app_length; cbn; lia).
        replace (l1 ++ m :: l2) with ((l1 ++ [m]) ++ l2) by (rewrite <- app_assoc; reflexivity).
        rewrite skipn_app, skipn_all, Nat.sub_diag. reflexivity. }
      assert (firstn (length l1) l = l1) as ->.
      { rewrite El, firstn_app, firstn_all, Nat.sub_diag. cbn. apply app_nil_r. }
      assert (l2 = removelast l2 ++ [x]) as E2.
      { destruct l2 as [|y l2']; [rewrite El, app_length in L; cbn in L; lia|].
        rewrite El in R. rewrite rev_app_distr in R. cbn [rev] in R.
        destruct (rev l2' ++ [y]) as [|z r'] eqn:R2; [destruct (rev l2'); discriminate|].
        cbn in R. injection R as -> _.
        eapply (removelast_last_perm (y :: l2') x r'). cbn [rev]. exact R2. }
      rewrite El. rewrite E2 at 1.
      rewrite <- Permutation_middle. constructor. apply Permutation_app_head.
      cbn. apply Permutation_sym, Permutation_cons_append.
Qed.

Lemma position_idx_spec l idx :
  match position_idx l idx with
  | Some pos => exists m, nth_error l pos = Some m /\ m_index m = idx
  | None => forall m, In m l -> m_index m <> idx
  end.
Proof.
  induction l as [|m l IH]; cbn; [tauto|].
  destruct (Z.eqb_spec (m_index m) idx) as [E|E]; [exists m; auto|].
  destruct (position_idx l idx) as [pos|].
  - destruct IH as [x Hx]. exists x. exact Hx.
  - intros x [->|Hx]; [exact E|apply IH; exact Hx].
Qed.

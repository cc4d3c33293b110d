(** The invariant of the ICE agent and the primitive steps that keep it. *)
From Verif Require Import Base BaseFacts PrioModel PrioSpec PrioProofs IceModel IceSpec IceProofs.
From Coq Require Import Sorted Permutation.

Definition tids (ps : list pair) : list Z := flat_map (fun p => map t_id p.(p_att)) ps.

Definition pair_ok (k : cfg) (ru : option Z) (p : pair) : Prop :=
  (p.(p_att) <> [] -> ru <> None) /\ (length p.(p_att) <= k.(k_max_retr))%nat /\
  (p.(p_state) = Succeeded <-> 1 <= p.(p_resp)) /\ (p.(p_state) = Waiting -> p.(p_att) = []) /\ 0 <= p.(p_resp).

Definition conn_of (ls rs : list icand) (p : pair) (x : option (cproto * addr * addr)) : Prop :=
  exists l r, nth_error ls p.(p_local) = Some l /\ nth_error rs p.(p_remote) = Some r
              /\ x = Some (l.(i_proto), base l, r.(i_addr)).

Record INV (k : cfg) (ru : option Z) (ls rs : list icand) (ps : list pair) (fr : Z)
           (ns : option Z) (send : option (cproto * addr * addr)) : Prop := mkINV {
  iv_live : Forall (live ls rs) ps;
  iv_ids : NoDup (map p_id ps);
  iv_ids_lt : Forall (fun i => i < fr) (map p_id ps);
  iv_tids : NoDup (tids ps);
  iv_tids_lt : Forall (fun i => i < fr) (tids ps);
  iv_ok : Forall (pair_ok k ru) ps;
  iv_ns_lt : match ns with Some i => i < fr | None => True end;
  iv_ns : forall p, In p ps -> ns = Some p.(p_id) -> is_nominated p = true /\ conn_of ls rs p send }.

Lemma tids_app a b : tids (a ++ b) = tids a ++ tids b.
Proof. apply flat_map_app. Qed.
Lemma tids_perm a b : Permutation a b -> Permutation (tids a) (tids b).
Proof. apply Permutation_flat_map. Qed.
Lemma In_tids x ps : In x (tids ps) <-> exists p, In p ps /\ In x (map t_id p.(p_att)).
Proof. apply in_flat_map. Qed.

Lemma inv_perm k ru ls rs ps ps' fr ns sd : Permutation ps ps' -> INV k ru ls rs ps fr ns sd -> INV k ru ls rs ps' fr ns sd.
Proof.
  intros P [A B C D E F G H]. constructor.
  - rewrite <- P. exact A.
  - eapply Permutation_NoDup; [apply Permutation_map; exact P|exact B].
  - rewrite <- P. exact C.
  - eapply Permutation_NoDup; [apply tids_perm; exact P|exact D].
  - rewrite <- (tids_perm _ _ P). exact E.
  - rewrite <- P. exact F.
  - exact G.
  - intros p IN. apply H. rewrite P. exact IN.
Qed.

Lemma inv_app_l k ru ls rs ps qs fr ns sd : INV k ru ls rs (ps ++ qs) fr ns sd -> INV k ru ls rs ps fr ns sd.
Proof.
  intros [A B C D E F G H]. rewrite tids_app, map_app in *. rewrite Forall_app in *.
  constructor; try tauto.
  - eapply NoDup_app_l; eauto.
  - eapply NoDup_app_l; eauto.
  - intros p IN. apply H. apply in_or_app; auto.
Qed.

Lemma filter_perm {A} (f : A -> bool) (l : list A) : Permutation (filter f l ++ filter (fun x => negb (f x)) l) l.
Proof.
  induction l as [|a l IH]; cbn; [reflexivity|]. destruct (f a); cbn.
  - rewrite IH. reflexivity.
  - rewrite <- Permutation_middle. rewrite IH. reflexivity.
Qed.
Lemma inv_filter k ru ls rs ps fr ns sd f : INV k ru ls rs ps fr ns sd -> INV k ru ls rs (filter f ps) fr ns sd.
Proof.
  intro H. eapply inv_app_l with (qs := filter (fun x => negb (f x)) ps). eapply inv_perm; [|exact H].
  symmetry. apply filter_perm.
Qed.
Lemma inv_firstn k ru ls rs ps fr ns sd n : INV k ru ls rs ps fr ns sd -> INV k ru ls rs (firstn n ps) fr ns sd.
Proof. intro H. apply inv_app_l with (qs := skipn n ps). rewrite firstn_skipn. exact H. Qed.

Lemma inv_fresh k ru ls rs ps fr ns sd : INV k ru ls rs ps fr ns sd -> INV k ru ls rs ps (fr + 1) ns sd.
Proof.
  intros [A B C D E F G H]. constructor; auto.
  - eapply Forall_impl; [|exact C]. cbn; intros; lia.
  - eapply Forall_impl; [|exact E]. cbn; intros; lia.
  - destruct ns; [lia|exact I].
Qed.

(** An in-place update that keeps identity and candidates; the attempts' ids
    come from the old ones or are the fresh id. *)
Lemma inv_upd k ru ls rs ps fr ns sd i p p' : INV k ru ls rs ps fr ns sd ->
  nth_error ps i = Some p -> p_id p' = p_id p -> p_local p' = p_local p -> p_remote p' = p_remote p ->
  NoDup (map t_id (p_att p')) -> (forall x, In x (map t_id (p_att p')) -> In x (map t_id (p_att p)) \/ x = fr) ->
  pair_ok k ru p' -> (is_nominated p = true -> is_nominated p' = true) ->
  INV k ru ls rs (upd i p' ps) (fr + 1) ns sd.
Proof.
  intros IV N EI EL ER ND SUB OK NM. destruct (upd_split ps i p N) as (l1 & l2 & -> & _ & U). rewrite U.
  destruct IV as [A B C D E F G H].
  assert (LV : live ls rs p').
  { rewrite Forall_forall in A. specialize (A p (in_elt _ _ _)). unfold live in *. rewrite EL, ER. exact A. }
  constructor.
  - apply Forall_app in A. destruct A as [A1 A2]. inversion A2; subst. apply Forall_app. split; auto.
  - rewrite map_app in *. cbn [map] in *. rewrite EI. exact B.
  - rewrite map_app in *. cbn [map] in *. rewrite EI. eapply Forall_impl; [|exact C]. cbn; intros; lia.
  - rewrite tids_app in *. cbn [tids flat_map] in *. fold (tids l2) in *.
    apply NoDup_app_inv in D. destruct D as (D1 & D2 & D3). apply NoDup_app_inv in D2. destruct D2 as (D2 & D4 & D5).
    apply Forall_app in E. destruct E as [E1 E2]. apply Forall_app in E2. destruct E2 as [E2 E3].
    rewrite Forall_forall in E1, E3.
    apply NoDup_app_intro; [exact D1|apply NoDup_app_intro; [exact ND|exact D4|]|].
    + intros x X1 X2. destruct (SUB x X1) as [S|S]; [apply (D5 x S X2)|]. apply E3 in X2. lia.
    + intros x X1 X2. apply in_app_or in X2. destruct X2 as [X2|X2].
      * destruct (SUB x X2) as [S|S]; [apply (D3 x X1), in_or_app; auto|]. apply E1 in X1. lia.
      * apply (D3 x X1), in_or_app; auto.
  - rewrite tids_app in *. cbn [tids flat_map] in *. fold (tids l2) in *.
    rewrite !Forall_app in *. destruct E as (E1 & E2 & E3). split; [|split].
    + eapply Forall_impl; [|exact E1]. cbn; intros; lia.
    + rewrite Forall_forall in *. intros x X. destruct (SUB x X) as [S|S]; [apply E2 in S; lia|lia].
    + eapply Forall_impl; [|exact E3]. cbn; intros; lia.
  - apply Forall_app in F. destruct F as [F1 F2]. inversion F2; subst. apply Forall_app. split; auto.
  - destruct ns; [lia|exact I].
  - intros q IN EQ. apply in_app_or in IN. destruct IN as [IN|[IN|IN]].
    + apply H; [apply in_or_app; auto|exact EQ].
    + subst q. rewrite EI in EQ. destruct (H p (in_elt _ _ _) EQ) as [H1 H2]. split; [auto|].
      unfold conn_of in *. rewrite EL, ER. exact H2.
    + apply H; [apply in_or_app; right; right; auto|exact EQ].
Qed.
(** the same without a new attempt *)
Lemma inv_upd0 k ru ls rs ps fr ns sd i p p' : INV k ru ls rs ps fr ns sd ->
  nth_error ps i = Some p -> p_id p' = p_id p -> p_local p' = p_local p -> p_remote p' = p_remote p ->
  map t_id (p_att p') = map t_id (p_att p) ->
  pair_ok k ru p' -> (is_nominated p = true -> is_nominated p' = true) ->
  INV k ru ls rs (upd i p' ps) fr ns sd.
Proof.
  intros IV N EI EL ER EA OK NM. destruct (upd_split ps i p N) as (l1 & l2 & -> & _ & U). rewrite U.
  destruct IV as [A B C D E F G H].
  assert (TE : tids (l1 ++ p' :: l2) = tids (l1 ++ p :: l2)).
  { rewrite !tids_app. cbn [tids flat_map]. rewrite EA. reflexivity. }
  assert (IE : map p_id (l1 ++ p' :: l2) = map p_id (l1 ++ p :: l2)).
  { rewrite !map_app. cbn [map]. rewrite EI. reflexivity. }
  assert (LV : live ls rs p').
  { rewrite Forall_forall in A. specialize (A p (in_elt _ _ _)). unfold live in *. rewrite EL, ER. exact A. }
  constructor; rewrite ?TE, ?IE; auto.
  - apply Forall_app in A. destruct A as [A1 A2]. inversion A2; subst. apply Forall_app. split; auto.
  - apply Forall_app in F. destruct F as [F1 F2]. inversion F2; subst. apply Forall_app. split; auto.
  - intros q IN EQ. apply in_app_or in IN. destruct IN as [IN|[IN|IN]].
    + apply H; [apply in_or_app; auto|exact EQ].
    + subst q. rewrite EI in EQ. destruct (H p (in_elt _ _ _) EQ) as [H1 H2]. split; [auto|].
      unfold conn_of in *. rewrite EL, ER. exact H2.
    + apply H; [apply in_or_app; right; right; auto|exact EQ].
Qed.

(** A map that changes nothing the invariant looks at but [pair_ok]. *)
Lemma inv_map k ru ls rs ps fr ns sd (g : pair -> pair) : INV k ru ls rs ps fr ns sd ->
  (forall p, p_id (g p) = p_id p /\ p_local (g p) = p_local p /\ p_remote (g p) = p_remote p
             /\ p_att (g p) = p_att p /\ p_state (g p) = p_state p /\ p_resp (g p) = p_resp p /\ p_nom (g p) = p_nom p) ->
  INV k ru ls rs (map g ps) fr ns sd.
Proof.
  intros [A B C D E F G H] Q.
  assert (TE : tids (map g ps) = tids ps).
  { unfold tids. rewrite flat_map_concat_map, map_map, <- flat_map_concat_map. apply flat_map_ext. intro p.
    destruct (Q p) as (_ & _ & _ & -> & _). reflexivity. }
  assert (IE : map p_id (map g ps) = map p_id ps).
  { rewrite map_map. apply map_ext. intro p. apply Q. }
  constructor; rewrite ?TE, ?IE; auto.
  - apply Forall_map. eapply Forall_impl; [|exact A]. intros p L. unfold live in *. destruct (Q p) as (_ & -> & -> & _). exact L.
  - apply Forall_map. eapply Forall_impl; [|exact F]. intros p L. unfold pair_ok in *.
    destruct (Q p) as (_ & _ & _ & -> & -> & -> & _). exact L.
  - intros q IN EQ. apply in_map_iff in IN. destruct IN as (p & <- & IN). destruct (Q p) as (Q1 & Q2 & Q3 & _ & _ & _ & Q4).
    rewrite Q1 in EQ. destruct (H p IN EQ) as [H1 H2]. unfold is_nominated, conn_of in *. rewrite Q2, Q3, Q4. auto.
Qed.

(** A fresh pair appended, or put in the place of another one. *)
Definition fresh_pair (fr : Z) (p : pair) : Prop :=
  p.(p_id) = fr /\ p.(p_att) = [] /\ p.(p_state) = Waiting /\ p.(p_resp) = 0.
Lemma fresh_ok k ru fr p : fresh_pair fr p -> pair_ok k ru p.
Proof.
  intros (_ & A & S & R). unfold pair_ok. rewrite A, S, R. repeat split; try congruence; cbn; try lia.
Qed.
Lemma inv_push k ru ls rs ps fr ns sd p : INV k ru ls rs ps fr ns sd -> fresh_pair fr p -> live ls rs p ->
  INV k ru ls rs (ps ++ [p]) (fr + 1) ns sd.
Proof.
  intros IV FP LV. pose proof (fresh_ok k ru fr p FP) as OK. destruct FP as (EI & EA & _).
  pose proof (iv_ns_lt _ _ _ _ _ _ _ _ IV) as NSL. pose proof (iv_ids_lt _ _ _ _ _ _ _ _ IV) as IL.
  apply inv_fresh in IV. destruct IV as [A B C D E F G H]. constructor; auto.
  - apply Forall_app; auto.
  - rewrite map_app. apply NoDup_app_intro; [exact B|repeat constructor; auto|]. intros x X [Y|[]]. subst x.
    rewrite Forall_forall in IL. apply IL in X. lia.
  - rewrite map_app. apply Forall_app. split; [exact C|]. repeat constructor. cbn. lia.
  - rewrite tids_app. unfold tids at 2. cbn [flat_map]. rewrite EA. cbn [map]. rewrite !app_nil_r. exact D.
  - rewrite tids_app. unfold tids at 2. cbn [flat_map]. rewrite EA. cbn [map]. rewrite !app_nil_r. exact E.
  - apply Forall_app; auto.
  - intros q IN EQ. apply in_app_or in IN. destruct IN as [IN|[<-|[]]]; [auto|]. rewrite EQ in NSL. lia.
Qed.
Lemma inv_replace k ru ls rs ps fr ns sd i p : INV k ru ls rs ps fr ns sd -> fresh_pair fr p -> live ls rs p ->
  INV k ru ls rs (upd i p ps) (fr + 1) ns sd.
Proof.
  intros IV FP LV. destruct (nth_error ps i) as [q|] eqn:N; [|rewrite upd_none by exact N; apply inv_fresh; exact IV].
  destruct (upd_split ps i q N) as (l1 & l2 & -> & _ & U). rewrite U.
  apply (inv_perm _ _ _ _ ((l1 ++ l2) ++ [p])).
  { rewrite <- app_assoc. apply Permutation_app_head. symmetry. apply Permutation_cons_append. }
  apply inv_push; [|exact FP|exact LV]. eapply inv_app_l with (qs := [q]). eapply inv_perm; [|exact IV].
  rewrite <- app_assoc. apply Permutation_app_head. apply Permutation_cons_append.
Qed.

(** Candidate lists that keep every pair live and connected as before. *)
Lemma inv_cands k ru ls rs ls' rs' ps fr ns sd : INV k ru ls rs ps fr ns sd ->
  (forall p, In p ps -> live ls rs p -> live ls' rs' p) ->
  (forall p x, In p ps -> conn_of ls rs p x -> conn_of ls' rs' p x) ->
  INV k ru ls' rs' ps fr ns sd.
Proof.
  intros [A B C D E F G H] L X. constructor; auto.
  - rewrite Forall_forall in *. intros p IN. apply L; auto.
  - intros p IN EQ. destruct (H p IN EQ). split; auto.
Qed.
Lemma inv_ru k ru u ls rs ps fr ns sd : INV k ru ls rs ps fr ns sd -> INV k (Some u) ls rs ps fr ns sd.
Proof.
  intros [A B C D E F G H]. constructor; auto. eapply Forall_impl; [|exact F]. unfold pair_ok. intros p OK.
  split; [discriminate|]. apply OK.
Qed.
Lemma inv_nil k ru ls rs fr ns sd : match ns with Some i => i < fr | None => True end -> INV k ru ls rs [] fr ns sd.
Proof. intro. constructor; cbn; auto; try (constructor; fail); tauto. Qed.

(** Ways the candidate lists change. *)
Lemma live_push_l ls rs c p : live ls rs p -> live (ls ++ [c]) rs p.
Proof.
  intros (l & r & A & B & C). exists l, r. repeat split; try tauto. rewrite nth_error_app1; [exact A|]. apply nth_error_Some. congruence.
Qed.
Lemma live_push_r ls rs c p : live ls rs p -> live ls (rs ++ [c]) p.
Proof.
  intros (l & r & A & B & C). exists l, r. repeat split; try tauto. rewrite nth_error_app1; [exact B|]. apply nth_error_Some. congruence.
Qed.
Lemma conn_push_l ls rs c p x : conn_of ls rs p x -> conn_of (ls ++ [c]) rs p x.
Proof.
  intros (l & r & A & B & C). exists l, r. repeat split; try tauto. rewrite nth_error_app1; [exact A|]. apply nth_error_Some. congruence.
Qed.
Lemma conn_push_r ls rs c p x : conn_of ls rs p x -> conn_of ls (rs ++ [c]) p x.
Proof.
  intros (l & r & A & B & C). exists l, r. repeat split; try tauto. rewrite nth_error_app1; [exact B|]. apply nth_error_Some. congruence.
Qed.
Lemma live_upd_l ls rs i c p : live ls rs p -> (p_local p <> i \/ i_disc c = false) -> live (upd i c ls) rs p.
Proof.
  intros (l & r & A & B & C & D) H. destruct (Nat.eq_dec i (p_local p)) as [E|E].
  - exists c, r. rewrite nth_upd, (proj2 (Nat.eqb_eq _ _) E), A. repeat split; auto. destruct H; congruence.
  - exists l, r. rewrite nth_upd, (proj2 (Nat.eqb_neq _ _) E). auto.
Qed.
Lemma live_upd_r ls rs i c p : live ls rs p -> (p_remote p <> i \/ i_disc c = false) -> live ls (upd i c rs) p.
Proof.
  intros (l & r & A & B & C & D) H. destruct (Nat.eq_dec i (p_remote p)) as [E|E].
  - exists l, c. rewrite nth_upd, (proj2 (Nat.eqb_eq _ _) E), B. repeat split; auto. destruct H; congruence.
  - exists l, r. rewrite nth_upd, (proj2 (Nat.eqb_neq _ _) E). auto.
Qed.
Lemma conn_upd_l ls rs i o c p x : conn_of ls rs p x -> nth_error ls i = Some o ->
  i_proto c = i_proto o -> base c = base o -> conn_of (upd i c ls) rs p x.
Proof.
  intros (l & r & A & B & C) N E1 E2. destruct (Nat.eq_dec i (p_local p)) as [E|E].
  - exists c, r. rewrite nth_upd, (proj2 (Nat.eqb_eq _ _) E), A. subst i. assert (o = l) as -> by congruence. rewrite E1, E2. auto.
  - exists l, r. rewrite nth_upd, (proj2 (Nat.eqb_neq _ _) E). auto.
Qed.
Lemma conn_upd_r ls rs i o c p x : conn_of ls rs p x -> nth_error rs i = Some o ->
  i_addr c = i_addr o -> conn_of ls (upd i c rs) p x.
Proof.
  intros (l & r & A & B & C) N E1. destruct (Nat.eq_dec i (p_remote p)) as [E|E].
  - exists l, c. rewrite nth_upd, (proj2 (Nat.eqb_eq _ _) E), B. subst i. assert (o = r) as -> by congruence. rewrite E1. auto.
  - exists l, r. rewrite nth_upd, (proj2 (Nat.eqb_neq _ _) E). auto.
Qed.
Lemma conn_map_l ls rs g p x : (forall c, i_proto (g c) = i_proto c /\ base (g c) = base c) ->
  conn_of ls rs p x -> conn_of (map g ls) rs p x.
Proof.
  intros Q (l & r & A & B & C). exists (g l), r. rewrite nth_error_map, A. destruct (Q l) as [-> ->]. auto.
Qed.

(** *** The agent *)
Definition disc_ok (log : list event) (d : list (cproto * addr)) : Prop :=
  NoDup (discovered_of_events log []) /\ incl (discovered_of_events log []) d.
Record Inv0 (a : agent) : Prop := mkInv0 {
  i0_inv : INV a.(a_cfg) a.(a_rufrag) a.(a_locals) a.(a_remotes) a.(a_pairs) a.(a_fresh) a.(a_nsend) (send_of_events a.(a_log) None);
  i0_state : state_of_events a.(a_log) New = a.(a_state);
  i0_disc : disc_ok a.(a_log) a.(a_disc) }.
Record Inv (a : agent) : Prop := mkInv { inv_0 : Inv0 a; inv_sorted : sorted_pairs a.(a_pairs) }.

Lemma state_app l m s : state_of_events (l ++ m) s = state_of_events m (state_of_events l s).
Proof. revert s. induction l as [|e t IH]; intro s; cbn; [reflexivity|]. destruct e; apply IH. Qed.
Lemma send_app l m s : send_of_events (l ++ m) s = send_of_events m (send_of_events l s).
Proof. revert s. induction l as [|e t IH]; intro s; cbn; [reflexivity|]. destruct e; apply IH. Qed.
Lemma disc_app l m s : discovered_of_events (l ++ m) s = discovered_of_events m (discovered_of_events l s).
Proof. revert s. induction l as [|e t IH]; intro s; cbn; [reflexivity|]. destruct e; apply IH. Qed.

Lemma disc_mem_In p s l : disc_mem p s l = true <-> In (p, s) l.
Proof.
  unfold disc_mem. rewrite existsb_exists. split.
  - intros ([q t] & IN & E). cbn in E. apply andb_true_iff in E. destruct E as [E1 E2].
    apply cproto_eqb_eq in E1. apply addr_eqb_eq in E2. subst. exact IN.
  - intro IN. exists (p, s). split; [exact IN|]. cbn. apply andb_true_iff. split; [apply cproto_eqb_eq|apply addr_eqb_eq]; reflexivity.
Qed.

Lemma inv0_discovered a p s : Inv0 a -> Inv0 (emit_event a (EvDiscovered p s)).
Proof.
  intros [A B [C D]]. unfold emit_event. destruct (disc_mem p s (a_disc a)) eqn:E; [constructor; [auto|auto|split; auto]|].
  assert (N : ~ In (p, s) (a_disc a)) by (rewrite <- disc_mem_In, E; discriminate).
  constructor; unfold push_event, set_disc_recv;
    cbn [a_cfg a_rufrag a_locals a_remotes a_pairs a_fresh a_nsend a_log a_state a_disc].
  - rewrite send_app. exact A.
  - rewrite state_app. exact B.
  - unfold disc_ok. rewrite disc_app. cbn [discovered_of_events]. split.
    + apply NoDup_app_intro; [exact C|repeat constructor; auto|]. intros x X [<-|[]]. apply N, D, X.
    + intros x X. apply in_app_or in X. destruct X as [X|[<-|[]]]; [right; apply D, X|left; reflexivity].
Qed.
Lemma inv0_conn a c : Inv0 a -> Inv0 (set_conn a c).
Proof.
  intros [A B [C D]]. unfold set_conn. destruct (conn_eqb (a_state a) c); [constructor; [auto|auto|split; auto]|].
  constructor; unfold emit_event, push_event, set_state;
    cbn [a_cfg a_rufrag a_locals a_remotes a_pairs a_fresh a_nsend a_log a_state a_disc].
  - rewrite send_app. exact A.
  - rewrite state_app. reflexivity.
  - unfold disc_ok. rewrite disc_app. split; auto.
Qed.
Lemma pairs_conn a c : a_pairs (set_conn a c) = a_pairs a.
Proof. unfold set_conn. destruct (conn_eqb _ _); reflexivity. Qed.
Lemma inv_conn a c : Inv a -> Inv (set_conn a c).
Proof. intros [A B]. constructor; [apply inv0_conn; exact A|rewrite pairs_conn; exact B]. Qed.
Lemma inv_state a now : Inv a -> Inv (evaluate_state a now).
Proof.
  intro H. unfold evaluate_state. cbn zeta. destruct (a_state a), (any_nominated (a_pairs a)), (any_possible a now), (a_lite a);
    cbn [negb andb]; try apply inv_conn; exact H.
Qed.
Lemma pairs_emit a e : a_pairs (emit_event a e) = a_pairs a.
Proof. unfold emit_event. destruct e; try reflexivity. destruct (disc_mem _ _ _); reflexivity. Qed.
Lemma inv_discovered a p s : Inv a -> Inv (emit_event a (EvDiscovered p s)).
Proof. intros [A B]. constructor; [apply inv0_discovered; exact A|rewrite pairs_emit; exact B]. Qed.

(** Setters outside the invariant. *)
Lemma inv_same a a' : Inv a -> a_cfg a' = a_cfg a -> a_rufrag a' = a_rufrag a -> a_locals a' = a_locals a ->
  a_remotes a' = a_remotes a -> a_pairs a' = a_pairs a -> a_fresh a' = a_fresh a -> a_nsend a' = a_nsend a ->
  a_log a' = a_log a -> a_state a' = a_state a -> a_disc a' = a_disc a -> Inv a'.
Proof.
  intros [[A B C] D] E1 E2 E3 E4 E5 E6 E7 E8 E9 E10. constructor; [constructor|]; rewrite ?E1, ?E2, ?E3, ?E4, ?E5, ?E6, ?E7, ?E8, ?E9, ?E10; assumption.
Qed.
Lemma inv0_pairs a ps fr : Inv0 a ->
  INV a.(a_cfg) a.(a_rufrag) a.(a_locals) a.(a_remotes) ps fr a.(a_nsend) (send_of_events a.(a_log) None) ->
  Inv0 (set_fresh (set_pairs a ps) fr).
Proof. intros [A B C] H. constructor; auto. Qed.
Lemma inv0_pairs' a ps : Inv0 a ->
  INV a.(a_cfg) a.(a_rufrag) a.(a_locals) a.(a_remotes) ps a.(a_fresh) a.(a_nsend) (send_of_events a.(a_log) None) ->
  Inv0 (set_pairs a ps).
Proof. intros [A B C] H. constructor; auto. Qed.

(** No call of the ICE agent panics, continued: the public calls. *)
From Verif Require Import Base BaseFacts PrioModel PrioSpec PrioProofs PrioProps IceModel IceSpec IceProofs IceProofs2 IceProofs3 IceProofs4.
From Coq Require Import Sorted Permutation.

Lemma safe_fresh o : op_safe o -> op_fresh o.
Proof. destruct o; cbn; tauto. Qed.

(** *** PR under the updates *)
Lemma lprio_disc c b : lprio_ok c -> lprio_ok (set_disc c b).
Proof. exact (fun H => H). Qed.
Lemma rprio_disc c b : rprio_ok c -> rprio_ok (set_disc c b).
Proof. exact (fun H => H). Qed.
Lemma filter_upd {A} (f : A -> bool) l i x y : nth_error l i = Some x -> f y = f x -> length (filter f (upd i y l)) = length (filter f l).
Proof.
  intros N F. destruct (upd_split l i x N) as (l1 & l2 & -> & _ & U). rewrite U, !filter_app. cbn [filter]. rewrite F.
  destruct (f x); rewrite !app_length; reflexivity.
Qed.
Lemma PR_push_l a n c : PR a n -> lprio_ok c -> PR (set_locals a (a_locals a ++ [c])) (n + 1).
Proof.
  intros [A B C D] H. constructor; flds; auto.
  - apply Forall_app. auto.
  - rewrite filter_app. unfold zlen in *. rewrite app_length. cbn [filter]. destruct (own_kind c); cbn [length]; lia.
Qed.
Lemma PR_push_prflx a n c : PR a n -> lprio_ok c -> own_kind c = false -> PR (set_locals a (a_locals a ++ [c])) n.
Proof.
  intros [A B C D] H O. constructor; flds; auto.
  - apply Forall_app. auto.
  - rewrite filter_app. unfold zlen in *. rewrite app_length. cbn [filter]. rewrite O. cbn [length]; lia.
Qed.
Lemma PR_upd_l a n i o b : PR a n -> nth_error (a_locals a) i = Some o -> PR (set_locals a (upd i (set_disc o b) (a_locals a))) n.
Proof.
  intros [A B C D] N. constructor; flds; auto.
  - apply Forall_upd; [exact A|]. apply lprio_disc. eapply Forall_nth; eauto.
  - unfold zlen in *. rewrite (filter_upd _ _ _ o) by (exact N || reflexivity). exact D.
Qed.
Lemma PR_upd_r a n i c : PR a n -> rprio_ok c -> PR (set_remotes a (upd i c (a_remotes a))) n.
Proof. intros [A B C D] N. constructor; flds; auto. apply Forall_upd; auto. Qed.
Lemma PR_push_r a n c : PR a n -> rprio_ok c -> PR (set_remotes a (a_remotes a ++ [c])) n.
Proof. intros [A B C D] N. constructor; flds; auto. apply Forall_app. auto. Qed.
Lemma PR_mono a n m : PR a n -> n <= m -> PR a m.
Proof. intros [A B C D] H. constructor; auto. lia. Qed.
Lemma PR_queue a n q : PR a n -> Forall (fun q => 0 <= q_prio q < 2 ^ 32) q -> PR (set_queue a q) n.
Proof. intros [A B C D] H. constructor; auto. Qed.

(** *** add_local *)
Lemma same_kind_le a c : own_kind c = true -> 0 <= same_kind a c <= zlen (filter own_kind (a_locals a)).
Proof.
  intro O. unfold same_kind, same_kind_count. split; [unfold zlen; lia|]. unfold own_kind in *. unfold zlen.
  cbn [pc c_kind c_addr6]. induction (a_locals a) as [|x l IH]; [cbn; lia|]. cbn [map filter pc c_kind c_addr6].
  destruct (ckind_eqb (i_kind x) (i_kind c)) eqn:E; cbn [andb].
  - assert (ckind_eqb (i_kind x) PeerReflexive = false) as ->.
    { destruct (i_kind x), (i_kind c); cbn in *; congruence. }
    destruct (Bool.eqb _ _); cbn [negb length] in *; cbn [pc c_kind c_addr6] in *; lia.
  - destruct (ckind_eqb (i_kind x) PeerReflexive); cbn [negb length] in *; lia.
Qed.
Lemma dlp_total c m : 0 <= m <= 7691 -> exists p, default_local_preference c m = Ok p /\ 0 <= p <= 65535.
Proof.
  intro M. unfold default_local_preference. cbn zeta.
  destruct (c_kind c), (c_addr6 c), (c_local6 c); cbn [counter_base ckind_eqb xorb];
    repeat match goal with |- context[if ?x <? ?y then _ else _] => destruct (Z.ltb_spec x y); [lia|] end;
    (eexists; split; [reflexivity|lia]).
Qed.
Lemma place_local_total a n c : Inv a -> PR a n -> i_disc c = false -> lprio_ok c -> exists x, place_local a c = Ok x.
Proof.
  intros I P D L. unfold place_local. cbn zeta. destruct (position _ _) as [i|] eqn:E; [|eauto].
  apply position_some in E. destruct E as (o & N & _). rewrite (get_nth _ _ _ N). cbn [bind]. destruct (_ && _ && _); [eauto|].
  destruct (lprio_spec c false L) as (cp & C1 & _). destruct (lprio_spec o false (Forall_nth _ _ _ _ (pr_l _ _ P) N)) as (q & Q1 & _).
  unfold iprio, prio. rewrite C1. cbn [bind]. rewrite Q1. cbn [bind]. destruct (_ <? _); eauto.
Qed.
Lemma place_local_PR a n c a' i : PR a n -> lprio_ok c -> place_local a c = Ok (Some (a', i)) -> PR a' (n + 1).
Proof.
  intros P L H. unfold place_local in H. cbn zeta in H. destruct (position _ _) as [j|] eqn:E.
  - apply position_some in E. destruct E as (o & N & _). bok H x X. apply get_ok in X. assert (x = o) as -> by congruence.
    match type of H with (if ?c then _ else _) = _ => destruct c end.
    + assert (a' = set_locals a (upd j (set_disc o false) (a_locals a))) as -> by congruence.
      eapply PR_mono; [eapply PR_upd_l; eauto|lia].
    + bok H cp C1. bok H q Q1. destruct (_ <? _); [discriminate|].
      match type of H with Ok (Some (set_locals ?b (a_locals ?b ++ [c]), _)) = _ => assert (a' = set_locals b (a_locals b ++ [c])) as -> by congruence end.
      apply PR_push_l; [|exact L]. eapply env_PR; [apply env_pairs|]. eapply PR_upd_l; eauto.
  - assert (a' = set_locals a (a_locals a ++ [c])) as -> by congruence. apply PR_push_l; auto.
Qed.
Lemma place_local_idx a c a' i : place_local a c = Ok (Some (a', i)) -> (i < length (a_locals a'))%nat.
Proof.
  intro H. unfold place_local in H. cbn zeta in H. destruct (position _ _) as [j|] eqn:E.
  - apply position_some in E. destruct E as (o & N & _). bok H x X. assert (J : (j < length (a_locals a))%nat) by (apply nth_error_Some; congruence).
    match type of H with (if ?c then _ else _) = _ => destruct c end.
    + assert (a' = set_locals a (upd j (set_disc x false) (a_locals a)) /\ i = j) as [-> ->] by (split; congruence).
      flds. rewrite upd_length. exact J.
    + bok H cp C1. bok H q Q1. destruct (_ <? _); [discriminate|].
      match type of H with Ok (Some (set_locals ?b (a_locals ?b ++ [c]), ?k)) = _ => assert (a' = set_locals b (a_locals b ++ [c]) /\ i = k) as [-> ->] by (split; congruence) end.
      cbn [a_locals set_locals]. rewrite app_length. cbn [length]. lia.
  - assert (a' = set_locals a (a_locals a ++ [c]) /\ i = length (a_locals a)) as [-> ->] by (split; congruence).
    cbn [a_locals set_locals]. rewrite app_length. cbn [length]. lia.
Qed.
Lemma lprio_pref c p u : match i_prio c with Some p => 0 <= p < 2 ^ 32 - 1 | None => i_comp c = 1 end -> 0 <= p <= 65535 ->
  lprio_ok (set_ufrag (set_lpref c p) u).
Proof. unfold lprio_ok. cbn. destruct (i_prio c); auto. Qed.

Lemma add_local_total a n c : Inv a -> PR a n -> n <= 7691 -> op_safe (OAddLocal c) -> exists a', add_local a c = Ok a' /\ PR a' (n + 1).
Proof.
  intros I P NB (D & O & K). unfold add_local. destruct (_ && _); [exists a; split; [reflexivity|eapply PR_mono; [exact P|lia]]|].
  pose proof (same_kind_le a c O) as SK. pose proof (pr_n _ _ P) as PN.
  destruct (dlp_total (pc c) (same_kind a c)) as (p & -> & PB); [lia|]. cbn [bind]. cbn zeta.
  pose proof (lprio_pref c p (Some (a_lufrag a)) K PB) as L.
  destruct (place_local_total a n (set_ufrag (set_lpref c p) (Some (a_lufrag a))) I P D L) as [x X]. rewrite X. cbn [bind].
  destruct x as [[a1 i]|]; [|exists a; split; [reflexivity|eapply PR_mono; [exact P|lia]]].
  pose proof (place_local_PR _ _ _ _ _ P L X) as P1.
  pose proof (place_local_inv a (set_ufrag (set_lpref c p) (Some (a_lufrag a))) a1 i I D X) as PI.
  assert (I0 : Inv0 a1) by apply PI.
  match goal with |- context[form_pairs a1 [i] ?rs] => destruct (form_pairs_total a1 (n + 1) [i] rs I0 P1) as [a2 E] end.
  - intros l [<-|[]]. destruct (get_total (a_locals a1) i (place_local_idx _ _ _ _ X)) as (y & _ & Y). exists y. split; [exact Y|]. apply PI. exact Y.
  - apply positions_nondisc. intros v V. apply andb_true_iff in V. destruct V as [V _]. destruct (i_disc v); [discriminate|reflexivity].
  - exists a2. split; [exact E|]. eapply env_PR; [eapply env_form_pairs; exact E|exact P1].
Qed.

(** *** add_remote *)
Lemma find_eq_total a c ps : Forall (live (a_locals a) (a_remotes a)) ps ->
  exists x, find_equivalent a c ps = Ok x /\ match x with Some i => (i < length (a_remotes a))%nat | None => True end.
Proof.
  induction ps as [|p t IH]; intro F; cbn [find_equivalent]; [exists None; auto|]. inversion F as [|? ? (x & y & X & Y & _) F']; subst.
  rewrite (get_nth _ _ _ Y). cbn [bind]. destruct (_ && _).
  - eexists; split; [reflexivity|]. cbn. apply nth_error_Some. congruence.
  - apply IH. exact F'.
Qed.
Lemma place_remote_total a n c ex : PR a n -> rprio_ok c -> match ex with Some i => (i < length (a_remotes a))%nat | None => True end ->
  exists a' i, place_remote a c ex = Ok (a', i) /\ PR a' n /\ (i < length (a_remotes a'))%nat.
Proof.
  intros P R X. unfold place_remote. cbn zeta. destruct (position _ _) as [i|] eqn:E.
  - do 2 eexists. split; [reflexivity|]. split; [apply PR_upd_r; auto|]. cbn [a_remotes set_remotes]. rewrite upd_length.
    apply position_some in E. destruct E as (o & N & _). apply nth_error_Some. congruence.
  - assert (Q : exists a' i, Ok (set_remotes a (a_remotes a ++ [c]), length (a_remotes a)) = Ok (a', i) /\ PR a' n /\ (i < length (a_remotes a'))%nat).
    { do 2 eexists. split; [reflexivity|]. split; [apply PR_push_r; auto|]. cbn [a_remotes set_remotes]. rewrite app_length. cbn [length]. lia. }
    destruct ex as [i|]; [|exact Q]. destruct (get_total _ _ X) as (o & -> & N). cbn [bind]. destruct (i_disc o); [|exact Q].
    do 2 eexists. split; [reflexivity|]. split.
    + apply PR_upd_r; [exact P|]. apply rprio_disc. eapply Forall_nth; [apply (pr_r _ _ P)|exact N].
    + cbn [a_remotes set_remotes]. rewrite upd_length. exact X.
Qed.
Lemma add_remote_total a n c : Inv a -> PR a n -> op_safe (OAddRemote c) -> exists a', add_remote a c = Ok a' /\ PR a' n.
Proof.
  intros I P (D & K). unfold add_remote. destruct (negb _); [eauto|].
  match goal with |- context[if ?b then Ok a else _] => destruct b end; [eauto|]. cbn zeta.
  pose proof I as [[A _ _] _].
  destruct (find_eq_total a (set_ufrag c None) (a_pairs a) (iv_live _ _ _ _ _ _ _ _ A)) as (x & -> & X). cbn [bind].
  assert (Q : exists e, match x with None => Ok (Some None) | Some i => do o <- get (a_remotes a) i; Ok (if i_disc o then Some (Some i) else None) end = Ok e
      /\ match e with Some (Some i) => (i < length (a_remotes a))%nat | _ => True end).
  { destruct x as [i|]; [|exists (Some None); auto]. destruct (get_total _ _ X) as (o & -> & _). cbn [bind].
    eexists; split; [reflexivity|]. destruct (i_disc o); cbn; auto. }
  destruct Q as (e & -> & EB). cbn [bind]. destruct e as [ex1|]; [|eauto].
  assert (R : rprio_ok (set_ufrag c None)) by (unfold rprio_ok; cbn; exact K).
  destruct (place_remote_total a n (set_ufrag c None) ex1 P R EB) as (a1 & i & E1 & P1 & IB). rewrite E1. cbn [bind].
  pose proof (place_remote_inv a (set_ufrag c None) ex1 a1 i I D E1) as PI.
  assert (I0 : Inv0 a1) by apply PI.
  match goal with |- context[form_pairs a1 ?ls [i]] => destruct (form_pairs_total a1 n ls [i] I0 P1) as [a2 E] end.
  - apply positions_nondisc. intros v V. apply andb_true_iff in V. destruct V as [V _]. destruct (i_disc v); [discriminate|reflexivity].
  - intros l [<-|[]]. destruct (get_total (a_remotes a1) i IB) as (y & _ & Y). exists y. split; [exact Y|]. apply PI. exact Y.
  - exists a2. split; [exact E|]. eapply env_PR; [eapply env_form_pairs; exact E|exact P1].
Qed.

(** *** invalidate, restart, recreate *)
Lemma invalidate_total a n c : PR a n -> exists a' b, invalidate a c = Ok (a', b) /\ PR a' n.
Proof.
  intro P.
  assert (R : exists a' b, invalidate_remote a c = Ok (a', b) /\ PR a' n).
  { unfold invalidate_remote. destruct (position _ _) as [i|] eqn:E; [|eauto]. apply position_some in E. destruct E as (o & N & _).
    rewrite (get_nth _ _ _ N). cbn [bind]. destruct (negb _); [|eauto]. do 2 eexists. split; [reflexivity|].
    eapply env_PR; [apply env_pairs|]. apply PR_upd_r; [exact P|]. apply rprio_disc. eapply Forall_nth; [apply (pr_r _ _ P)|exact N]. }
  unfold invalidate. destruct (position _ _) as [i|] eqn:E; [|exact R]. apply position_some in E. destruct E as (o & N & _).
  rewrite (get_nth _ _ _ N). cbn [bind]. destruct (negb _); [|exact R]. do 2 eexists. split; [reflexivity|].
  eapply env_PR; [apply env_pairs|]. apply PR_upd_l; auto.
Qed.
Lemma restart_PR a n u k : PR a n -> 0 <= n -> PR (ice_restart a u k) n.
Proof.
  intros [A B C D] N. unfold ice_restart. cbn zeta. eapply env_PR; [apply env_conn|]. eapply env_PR; [apply env_emit|].
  constructor; flds; auto.
  - destruct k; [|constructor]. apply Forall_map. exact A.
  - destruct k; [|cbn; exact N]. unfold zlen in *.
    replace (length (filter own_kind (map (fun c => set_ufrag c (Some u)) (a_locals a)))) with (length (filter own_kind (a_locals a))); [exact D|].
    clear. induction (a_locals a) as [|c l IH]; [reflexivity|]. cbn [map filter]. change (own_kind (set_ufrag c (Some u))) with (own_kind c).
    destruct (own_kind c); cbn [length]; congruence.
Qed.
Lemma inv_nopairs a : Inv a -> Inv (set_pairs a []).
Proof. intro I. pose proof (inv_filter_pairs a (fun _ => false) I) as H. replace (filter (fun _ => false) (a_pairs a)) with (@nil pair) in H; [exact H|]. clear. induction (a_pairs a); auto. Qed.
Lemma recreate_total a n : Inv a -> PR a n -> exists a', recreate a = Ok a' /\ PR a' n.
Proof.
  intros I P. unfold recreate. cbn zeta. pose proof (inv_nopairs a I) as [I0 _].
  assert (P0 : PR (set_pairs a []) n) by (eapply env_PR; [apply env_pairs|exact P]).
  match goal with |- context[form_pairs ?b ?ls ?rs] => destruct (form_pairs_total b n ls rs I0 P0) as [a2 E] end.
  - apply positions_nondisc. intros v V. destruct (i_disc v); [discriminate|reflexivity].
  - apply positions_nondisc. intros v V. destruct (i_disc v); [discriminate|reflexivity].
  - rewrite E. cbn [bind]. eexists; split; [reflexivity|]. eapply env_PR; [apply env_conn|]. eapply env_PR; [eapply env_form_pairs; exact E|exact P0].
Qed.

(** *** requests *)
Lemma request_at_PR a q li a' n : PR a n -> 0 <= q_prio q < 2 ^ 32 -> handle_request_at a q li = Ok a' -> PR a' n.
Proof.
  intros P Q H. unfold handle_request_at in H. destruct (_ && _); [okinj H; exact P|]. bok H rr RR. destruct rr as [[a1 ri]|]; [|okinj H; exact P].
  assert (P1 : PR a1 n).
  { unfold request_remote in RR. cbn zeta in RR. bok RR f E. destruct f as [[i z]|].
    - assert (a1 = a) as -> by congruence. exact P.
    - destruct (existsb _ _); [discriminate|].
      assert (a1 = set_remotes a (a_remotes a ++ [peer_reflexive (q_proto q) (q_src q) (q_src q) (q_prio q) true (a_lufrag a)])) as -> by congruence.
      apply PR_push_r; [exact P|]. exact Q. }
  bok H rp RP. destruct rp as [a2|]; [|okinj H; exact P1].
  eapply env_PR; [eapply env_finish; exact H|]. eapply env_PR; [eapply env_request_pair; exact RP|exact P1].
Qed.
Lemma handle_request_total a q n : Inv a -> PR a n -> a_rufrag a <> None -> 0 <= q_prio q < 2 ^ 32 -> exists a', handle_request a q = Ok a' /\ PR a' n.
Proof.
  intros I P RU Q. unfold handle_request. destruct (a_rufrag a) as [ru|] eqn:ER; [|congruence].
  destruct (negb _); [eauto|]. destruct (position _ _) as [li|] eqn:E; [|eauto]. apply position_some in E. destruct E as (l & N & _).
  assert (G : forall b, Inv b -> PR b n -> a_locals b = a_locals a -> exists a', handle_request_at b q li = Ok a' /\ PR a' n).
  { intros b IB PB EB. destruct (lock_total b q li l n IB PB Q) as [a' E]; [rewrite EB; exact N|]. exists a'. split; [exact E|]. eapply request_at_PR; eauto. }
  destruct (conflict _ _).
  - destruct (_ <=? _); [eexists; split; [reflexivity|]; eapply env_PR; [|exact P]; repeat split|].
    destruct (switch_total a n (negb (a_ctrl a)) I P) as [a1 E1]. rewrite E1. cbn [bind]. pose proof (env_switch _ _ _ E1) as EV. apply G.
    + eapply inv_switch_role; eauto.
    + eapply env_PR; eauto.
    + apply EV.
  - apply G; auto.
Qed.
Lemma lastn_In {A} n (l : list A) x : In x (lastn n l) -> In x l.
Proof. apply skipn_incl. Qed.
Lemma server_total a q n : Inv a -> PR a n -> 0 <= q_prio q < 2 ^ 32 -> exists a', server_message a q = Ok a' /\ PR a' n.
Proof.
  intros I P Q. unfold server_message. destruct (a_rufrag a) eqn:E; [apply handle_request_total; auto; congruence|].
  eexists; split; [reflexivity|]. apply PR_queue; [exact P|]. apply Forall_forall. intros x X. apply lastn_In in X.
  apply in_app_or in X. destruct X as [X|[<-|[]]]; [|exact Q]. pose proof (pr_q _ _ P) as F. rewrite Forall_forall in F. apply F. exact X.
Qed.

(** *** answers *)
Lemma handle_error_total a t c n : Inv a -> PR a n -> exists a', handle_error a t c = Ok a' /\ PR a' n.
Proof.
  intros I P. unfold handle_error. destruct c as [c|]; [|eauto]. destruct (negb _); [eauto|]. destruct (find_attempt _ _); [|eauto]. destruct (negb _); [eauto|].
  destruct (switch_total a n (negb (a_ctrl a)) I P) as [a1 E1]. exists a1. split; [exact E1|]. eapply env_PR; [eapply env_switch; exact E1|exact P].
Qed.
Lemma answer_some l tid now b : find (fun b => t_id b =? tid) l = Some b -> exists x, answer l tid now = Some x.
Proof.
  induction l as [|c l IH]; cbn; [discriminate|]. destruct (_ =? _); [eauto|]. intro H. destruct (IH H) as [[y z] ->]. eauto.
Qed.
Lemma lprio_prflx p a b pr t u : 0 <= pr < 2 ^ 32 - 1 -> lprio_ok (peer_reflexive p a b pr t u).
Proof. exact (fun H => H). Qed.
Lemma inv_record a1 i p p1 now tid : Inv a1 -> nth_error (a_pairs a1) i = Some p -> record_response p now tid = Ok p1 ->
  Inv (set_pairs a1 (upd i p1 (a_pairs a1))).
Proof.
  intros I1 E1 E3. apply record_shape in E3.
  destruct E3 as (Q1 & Q2 & Q3 & Q4 & Q5 & Q6 & Q7 & Q8 & Q9 & Q10 & _).
  destruct I1 as [[A1 B1 C1] D1].
  pose proof (Forall_nth _ _ _ _ (iv_ok _ _ _ _ _ _ _ _ A1) E1) as OK.
  constructor; [constructor|]; flds; auto; [|eapply upd_sorted; eauto].
  eapply inv_upd0; eauto.
  destruct OK as (O1 & O2 & O3 & O4 & O5). unfold pair_ok. rewrite Q5, Q6, Q8.
  assert (ST : p_state p <> Waiting) by (intro X; apply Q9; auto).
  repeat split; auto; try lia.
  - intro X. destruct (p_state p); congruence.
  - intro X. destruct (p_state p); congruence.
Qed.
Definition learn_local (a : agent) (p : pair) (m : addr) : res agent :=
  match position (fun c => addr_eqb (i_addr c) m) (a_locals a) with
  | Some _ => Ok a
  | None => do l <- get (a_locals a) (p_local p); do pr <- prio_prflx (pc l);
            Ok (set_locals a (a_locals a ++ [peer_reflexive (i_proto l) m (base l) pr false (a_lufrag a)]))
  end.
Lemma learn_total a p m n i : Inv a -> PR a n -> nth_error (a_pairs a) i = Some p ->
  exists a1, learn_local a p m = Ok a1 /\ PR a1 n /\ Inv a1 /\ a_pairs a1 = a_pairs a /\ a_cfg a1 = a_cfg a /\ a_rufrag a1 = a_rufrag a.
Proof.
  intros I P N. unfold learn_local. destruct (position _ _); [exists a; spl; auto|]. pose proof I as [[A B C] D].
  destruct (Forall_nth _ _ _ _ (iv_live _ _ _ _ _ _ _ _ A) N) as (x & y & X & Y & _).
  rewrite (get_nth _ _ _ X). cbn [bind]. destruct (lprio_spec x true (Forall_nth _ _ _ _ (pr_l _ _ P) X)) as (pr & E1 & PB).
  unfold prio_prflx. rewrite E1. cbn [bind]. eexists. split; [reflexivity|]. spl.
  - apply PR_push_prflx; [exact P|apply lprio_prflx; exact PB|reflexivity].
  - constructor; [constructor|]; flds; auto. eapply inv_cands; [exact A| |].
    + intros z _ L. apply live_push_l. exact L.
    + intros z w _ L. apply conn_push_l. exact L.
  - reflexivity.
  - reflexivity.
  - reflexivity.
Qed.
Lemma handle_response_total a now tid m n : Inv a -> PR a n -> exists a', handle_response a now tid m = Ok a' /\ PR a' n.
Proof.
  intros I P. unfold handle_response. destruct (position (owns tid) (a_pairs a)) as [i|] eqn:E; [|eauto].
  apply position_some in E. destruct E as (p & N & O). rewrite (get_nth _ _ _ N). cbn [bind].
  destruct (learn_total a p m n i I P N) as (a1 & E1 & P1 & I1 & EP & EC & ER). unfold learn_local in E1. rewrite E1. cbn [bind].
  unfold owns, binding_attempt in O. destruct (find _ _) as [b|] eqn:FB; [|discriminate].
  assert (RR : exists p', record_response p now tid = Ok p').
  { unfold record_response. destruct (answer_some _ _ now _ FB) as [[x y] ->]. eauto. }
  destruct RR as [p' RR]. rewrite RR. cbn [bind]. cbn zeta. rewrite <- EP in N.
  pose proof (inv_record _ _ _ _ _ _ I1 N RR) as I2. cbn [a_ctrl set_pairs]. rewrite EP in *.
  destruct (a_ctrl a1).
  - destruct (evalnom_total _ I2) as [a3 E3]. rewrite E3. cbn [bind]. eexists; split; [reflexivity|]. eapply env_PR; [apply env_state|].
    eapply env_PR; [eapply env_evalnom; exact E3|]. eapply env_PR; [apply env_pairs|exact P1].
  - cbn [bind]. eexists; split; [reflexivity|]. eapply env_PR; [apply env_state|]. eapply env_PR; [apply env_pairs|exact P1].
Qed.

(** *** packets *)
Lemma accepts_total a m : Inv a -> exists b, accepts a m = Ok b.
Proof.
  intros [[A _ _] _].
  assert (R : forall tid (ok : bool), exists b, (if negb (existsb (owns tid) (a_pairs a)) then Ok false else match a_rufrag a with Some _ => Ok ok | None => Panic end) = Ok b).
  { intros tid ok. destruct (existsb _ _) eqn:E; cbn [negb]; [|eauto]. apply existsb_exists in E. destruct E as (p & IN & O).
    pose proof (iv_ok _ _ _ _ _ _ _ _ A) as OK. rewrite Forall_forall in OK. destruct (OK p IN) as (O1 & _).
    destruct (a_rufrag a); [eauto|]. exfalso. apply O1; [|reflexivity]. unfold owns, binding_attempt in O. destruct (p_att p); discriminate. }
  destruct m; cbn [accepts]; eauto.
  destruct (negb _); [eauto|]. destruct (match a_rufrag a with Some _ => _ | None => _ end); eauto.
Qed.
Lemma packet_total a now pr src m n : Inv a -> PR a n -> op_safe (OPacket now pr src m) -> exists a', handle_packet a now pr src m = Ok a' /\ PR a' n.
Proof.
  intros I P S. unfold handle_packet. destruct (accepts_total a m I) as [b ->]. cbn [bind]. destruct (negb b); [eauto|].
  assert (Q : exists a1, match m with MRequest _ q _ => server_message a q | MSuccess tid mapped _ => handle_response a now tid mapped
      | MFailure tid code _ => handle_error a tid code | MOther => Ok a end = Ok a1 /\ PR a1 n).
  { destruct m; eauto using server_total, handle_response_total, handle_error_total. }
  destruct Q as (a1 & -> & P1). cbn [bind]. eexists; split; [reflexivity|]. eapply env_PR; [apply env_emit|exact P1].
Qed.

(** *** the timer *)
Lemma binding_total a now i n : Inv a -> PR a n -> (1 <= k_max_retr (a_cfg a))%nat -> a_rufrag a <> None -> (i < length (a_pairs a))%nat ->
  exists a', binding_request a now i = Ok a'.
Proof.
  intros [[A _ _] _] P K RU L. unfold binding_request. destruct (a_rufrag a); [|congruence]. destruct (get_total _ _ L) as (p & -> & N). cbn [bind].
  destruct (Forall_nth _ _ _ _ (iv_live _ _ _ _ _ _ _ _ A) N) as (x & y & X & Y & _).
  rewrite (get_nth _ _ _ X), (get_nth _ _ _ Y). cbn [bind]. destruct (lprio_spec x true (Forall_nth _ _ _ _ (pr_l _ _ P) X)) as (pr & E1 & PB).
  unfold prio_prflx. rewrite E1. cbn [bind]. cbn zeta.
  assert (NA : exists p', new_attempt (a_cfg a) p now (a_fresh a) (a_ctrl a) = Ok p').
  { unfold new_attempt. cbn zeta. match goal with |- context[match skipn ?m ?l with _ => _ end] => destruct (skipn m l) eqn:E end; [|eauto].
    apply (f_equal (@length _)) in E. rewrite skipn_length, !app_length in E. cbn [length] in E. lia. }
  destruct NA as [p' ->]. cbn [bind]. eauto.
Qed.
Lemma min_from_idx l i d : min_from l 0 None = Some (i, d) -> (i < length l)%nat.
Proof.
  intro H. assert (G : forall l i0 cur j d, min_from l i0 cur = Some (j, d) -> (i0 <= j < i0 + length l)%nat \/ cur = Some (j, d)).
  { clear. induction l as [|t r IH]; intros i0 cur j d H; cbn [min_from] in H; [auto|]. apply IH in H. cbn [length]. destruct H as [H|H]; [left; lia|].
    destruct cur as [[k c]|]; [destruct (t <? c)|]; auto; left; assert (j = i0) as -> by congruence; lia. }
  destruct (G _ _ _ _ _ H) as [X|X]; [lia|discriminate].
Qed.
Lemma timeout_checks_total a now n : Inv a -> PR a n -> (1 <= k_max_retr (a_cfg a))%nat -> exists a', timeout_checks a now = Ok a' /\ PR a' n.
Proof.
  intros I P K. assert (X : exists a', timeout_checks a now = Ok a').
  2:{ destruct X as [a' E]. exists a'. split; [exact E|]. eapply env_PR; [eapply env_timeout_checks; exact E|exact P]. }
  unfold timeout_checks. cbn zeta.
  assert (I0 : Inv (set_last_now a (Some now))) by (eapply inv_same; [exact I|reflexivity..]).
  destruct (evalnom_total _ I0) as [a1 E1]. rewrite E1. cbn [bind]. pose proof (inv_evalnom _ _ I0 E1) as I1. pose proof (env_evalnom _ _ E1) as V1.
  pose proof (inv_filter_pairs a1 (keep a1 now) I1) as I2.
  match goal with |- context[if negb (?x =? ?y)%nat then _ else _] => set (c := negb (x =? y)%nat) end.
  assert (Q : exists a3, (if c then do b <- evaluate_nomination (set_pairs a1 (filter (keep a1 now) (a_pairs a1))); Ok (evaluate_state b now) else Ok (set_pairs a1 (filter (keep a1 now) (a_pairs a1)))) = Ok a3
      /\ Inv a3 /\ same_env a a3).
  { assert (V0 : same_env a (set_pairs a1 (filter (keep a1 now) (a_pairs a1)))).
    { eapply env_trans; [|apply env_pairs]. eapply env_trans; [|exact V1]. repeat split. }
    destruct c.
    - destruct (evalnom_total _ I2) as [b E2]. rewrite E2. cbn [bind]. eexists; split; [reflexivity|]. split; [apply inv_state; eapply inv_evalnom; eauto|].
      eapply env_trans; [exact V0|]. eapply env_trans; [eapply env_evalnom; exact E2|apply env_state].
    - eexists; split; [reflexivity|]. auto. }
  destruct Q as (a3 & -> & I3 & V3). cbn [bind]. destruct (a_rufrag a3) as [u|] eqn:RU; [|eauto]. destruct (a_lite a3); [eauto|].
  destruct (deadlines (a_cfg a3) now (a_pairs a3)) as [ps ds] eqn:DL.
  destruct (min_from ds 0 None) as [[i d]|] eqn:MF; [|eauto]. destruct (d <=? now); [|eauto].
  pose proof (inv_deadlines a3 now I3) as I4. rewrite DL in I4. cbn [fst] in I4.
  eapply binding_total with (n := n); [exact I4| | |flds; congruence|].
  - eapply env_PR; [apply env_pairs|]. eapply env_PR; [exact V3|exact P].
  - flds. destruct V3 as (-> & _). exact K.
  - flds. apply min_from_idx in MF. unfold deadlines in DL. assert (ps = map (fun p => fst (next_attempt (a_cfg a3) p now)) (a_pairs a3) /\ ds = map (fun p => snd (next_attempt (a_cfg a3) p now)) (a_pairs a3)) as [-> ->] by (split; congruence).
    rewrite map_length in *. exact MF.
Qed.
Lemma drop_old_In k now l x : In x (drop_old k now l) -> In x l.
Proof. induction l as [|q t IH]; cbn; [auto|]. destruct (_ <=? _); [auto|]. auto. Qed.
Lemma timeout_total a now n : Inv a -> PR a n -> (1 <= k_max_retr (a_cfg a))%nat -> exists a', handle_timeout a now = Ok a' /\ PR a' n.
Proof.
  intros I P K. unfold handle_timeout. cbn zeta.
  match goal with |- context[evaluate_state ?b now] => set (a0 := b); assert (V0 : same_env a a0 /\ Inv a0) end.
  { subst a0. destruct (conn_eqb _ _); [|split; [apply env_refl|exact I]]. split; [apply env_emit|apply inv_emit_restart; exact I]. }
  destruct V0 as [V0 I0]. pose proof (env_trans _ _ _ V0 (env_state a0 now)) as V1. pose proof (inv_state a0 now I0) as I1.
  set (a1 := evaluate_state a0 now) in *. clearbody a1. clear a0 V0 I0.
  pose proof (env_PR _ _ _ V1 P) as P1. assert (K1 : (1 <= k_max_retr (a_cfg a1))%nat) by (destruct V1 as (-> & _); exact K).
  destruct (a_rufrag a1) as [u|] eqn:RU; [|apply timeout_checks_total; auto].
  destruct (drop_old (a_cfg a1) now (a_queue a1)) as [|q t] eqn:DO.
  - apply timeout_checks_total; auto; [eapply inv_same; [exact I1|reflexivity..]|apply PR_queue; auto].
  - assert (F : Forall (fun q => 0 <= q_prio q < 2 ^ 32) (q :: t)).
    { apply Forall_forall. intros x X. rewrite <- DO in X. apply drop_old_In in X. pose proof (pr_q _ _ P1) as F. rewrite Forall_forall in F. apply F. exact X. }
    inversion F; subst. apply handle_request_total; auto; [eapply inv_same; [exact I1|reflexivity..]|apply PR_queue; auto|flds; congruence].
Qed.

(** *** whole runs *)
Lemma step_total a o n : Inv a -> PR a n -> 0 <= n -> op_safe o -> n + adds o <= 7692 -> (1 <= k_max_retr (a_cfg a))%nat ->
  exists a', step a o = Ok a' /\ PR a' (n + adds o).
Proof.
  intros I P N S B K. destruct o; cbn [step adds] in *; try (rewrite Z.add_0_r).
  - eexists; split; [reflexivity|]. destruct P; constructor; auto.
  - apply add_local_total; auto. lia.
  - eapply add_remote_total; eauto.
  - destruct (invalidate_total a n c P) as (a' & b & E & P'). rewrite E. cbn [bind]. eauto.
  - eexists; split; [reflexivity|]. apply restart_PR; auto.
  - eapply recreate_total; eauto.
  - eapply packet_total; eauto.
  - eapply timeout_total; eauto.
  - eexists; split; [reflexivity|]. destruct P; constructor; auto.
  - eexists; split; [reflexivity|]. destruct P; constructor; auto.
  - eexists; split; [reflexivity|]. unfold poll_timeout. destruct (a_last_now a); [|exact P]. destruct (a_queue a) eqn:Q, (a_transmit a); try exact P.
    destruct (a_lite a); [exact P|]. destruct (deadlines _ _ _). cbn [fst]. eapply env_PR; [apply env_pairs|exact P].
Qed.
Lemma env_cfg a a' : same_env a a' -> a_cfg a' = a_cfg a.
Proof. intros (H & _). exact H. Qed.
Lemma cfg_request a q a' : handle_request a q = Ok a' -> a_cfg a' = a_cfg a.
Proof.
  assert (AT : forall b li b', handle_request_at b q li = Ok b' -> a_cfg b' = a_cfg b).
  { intros b li b' H. unfold handle_request_at in H. destruct (_ && _); [okinj H; reflexivity|]. bok H rr RR. destruct rr as [[b1 ri]|]; [|okinj H; reflexivity].
    assert (E1 : a_cfg b1 = a_cfg b).
    { unfold request_remote in RR. cbn zeta in RR. bok RR f E. destruct f as [[i z]|]; [congruence|]. destruct (existsb _ _); [discriminate|].
      match type of RR with Ok (Some (?x, _)) = _ => assert (b1 = x) as -> by congruence end. reflexivity. }
    bok H rp RP. destruct rp as [b2|]; [|okinj H; exact E1].
    rewrite (env_cfg _ _ (env_finish _ _ _ _ _ H)), (env_cfg _ _ (env_request_pair _ _ _ _ RP)). exact E1. }
  intro H. unfold handle_request in H. destruct (a_rufrag a); [|discriminate]. destruct (negb _); [okinj H; reflexivity|].
  destruct (position _ _) as [li|]; [|okinj H; reflexivity]. destruct (conflict _ _).
  - destruct (_ <=? _); [okinj H; reflexivity|]. bok H a1 E. rewrite (AT _ _ _ H). apply env_cfg, (env_switch _ _ _ E).
  - apply (AT _ _ _ H).
Qed.
Lemma cfg_step a o a' : step a o = Ok a' -> a_cfg a' = a_cfg a.
Proof.
  intro H. destruct o; cbn [step] in H.
  - okinj H. reflexivity.
  - unfold add_local in H. destruct (_ && _); [okinj H; reflexivity|]. bok H p E1. cbn zeta in H. bok H pl E2. destruct pl as [[a1 i]|]; [|okinj H; reflexivity].
    rewrite (env_cfg _ _ (env_form_pairs _ _ _ _ H)). unfold place_local in E2. cbn zeta in E2. destruct (position _ _).
    + bok E2 x X. match type of E2 with (if ?c then _ else _) = _ => destruct c end.
      * match type of E2 with Ok (Some (?y, _)) = _ => assert (a1 = y) as -> by congruence end. reflexivity.
      * bok E2 cp C1. bok E2 q Q1. destruct (_ <? _); [discriminate|].
        match type of E2 with Ok (Some (?y, _)) = _ => assert (a1 = y) as -> by congruence end. reflexivity.
    + match type of E2 with Ok (Some (?y, _)) = _ => assert (a1 = y) as -> by congruence end. reflexivity.
  - unfold add_remote in H. destruct (negb _); [okinj H; reflexivity|]. match type of H with (if ?c then _ else _) = _ => destruct c end; [okinj H; reflexivity|].
    cbn zeta in H. bok H x X. bok H e1 EX. destruct e1; [|okinj H; reflexivity]. bok H y Y. destruct y as [a1 i].
    rewrite (env_cfg _ _ (env_form_pairs _ _ _ _ H)). unfold place_remote in Y. cbn zeta in Y. destruct (position _ _).
    + match type of Y with Ok (?z, _) = _ => assert (a1 = z) as -> by congruence end. reflexivity.
    + destruct o as [j|].
      * bok Y w W. destruct (i_disc w); match type of Y with Ok (?z, _) = _ => assert (a1 = z) as -> by congruence end; reflexivity.
      * match type of Y with Ok (?z, _) = _ => assert (a1 = z) as -> by congruence end. reflexivity.
  - bok H x X. destruct x as [a1 b]. okinj H.
    assert (R : forall a1 b, invalidate_remote a c = Ok (a1, b) -> a_cfg a1 = a_cfg a).
    { intros a2 b2 Q. unfold invalidate_remote in Q. destruct (position _ _); [|congruence]. bok Q o0 OO. destruct (negb _); [|congruence].
      match type of Q with Ok (?z, _) = _ => assert (a2 = z) as -> by congruence end. reflexivity. }
    unfold invalidate in X. destruct (position _ _); [|eauto]. bok X o0 OO. destruct (negb _); [|eauto].
    match type of X with Ok (?z, _) = _ => assert (a1 = z) as -> by congruence end. reflexivity.
  - okinj H. unfold ice_restart. cbn zeta. rewrite (env_cfg _ _ (env_conn _ _)). reflexivity.
  - unfold recreate in H. cbn zeta in H. bok H a1 E. okinj H. rewrite (env_cfg _ _ (env_conn _ _)), (env_cfg _ _ (env_form_pairs _ _ _ _ E)). reflexivity.
  - unfold handle_packet in H. bok H b B. destruct (negb b); [okinj H; reflexivity|]. bok H a1 E. okinj H. rewrite (env_cfg _ _ (env_emit _ _)).
    destruct m.
    + unfold server_message in E. destruct (a_rufrag a); [eapply cfg_request; eauto|]. okinj E. reflexivity.
    + unfold handle_response in E. destruct (position _ _); [|okinj E; reflexivity]. bok E p P. bok E a2 A2. bok E p' P'. cbn zeta in E. bok E a3 A3. okinj E.
      rewrite (env_cfg _ _ (env_state _ _)).
      assert (C2 : a_cfg a2 = a_cfg a).
      { destruct (position _ _); [congruence|]. bok A2 l L. bok A2 pr PRR. okinj A2. reflexivity. }
      rewrite <- C2. match type of A3 with (if ?c then _ else _) = _ => destruct c end; [|okinj A3; reflexivity].
      rewrite (env_cfg _ _ (env_evalnom _ _ A3)). reflexivity.
    + unfold handle_error in E. destruct code as [z|]; [|okinj E; reflexivity]. destruct (negb _); [okinj E; reflexivity|].
      destruct (find_attempt _ _); [|okinj E; reflexivity]. destruct (negb _); [okinj E; reflexivity|]. apply env_cfg, (env_switch _ _ _ E).
    + okinj E. reflexivity.
  - unfold handle_timeout in H. cbn zeta in H.
    match type of H with context[evaluate_state ?b now] => set (a0 := evaluate_state b now) in *; assert (V0 : a_cfg a0 = a_cfg a) end.
    { subst a0. rewrite (env_cfg _ _ (env_state _ _)). destruct (conn_eqb _ _); [apply env_cfg, env_emit|reflexivity]. }
    destruct (a_rufrag a0).
    + destruct (drop_old _ _ _).
      * rewrite (env_cfg _ _ (env_timeout_checks _ _ _ H)). exact V0.
      * rewrite (cfg_request _ _ _ H). exact V0.
    + rewrite (env_cfg _ _ (env_timeout_checks _ _ _ H)). exact V0.
  - okinj H. reflexivity.
  - okinj H. reflexivity.
  - okinj H. unfold poll_timeout. destruct (a_last_now a); [|reflexivity]. destruct (a_queue a), (a_transmit a); try reflexivity.
    destruct (a_lite a); [reflexivity|]. destruct (deadlines _ _ _). reflexivity.
Qed.
Lemma adds_nonneg o : 0 <= adds o. Proof. destruct o; cbn; lia. Qed.
Lemma total_nonneg os : 0 <= total_adds os. Proof. induction os as [|o t IH]; cbn; [lia|]. pose proof (adds_nonneg o). lia. Qed.
Lemma run_total os : forall a n, Inv a -> PR a n -> 0 <= n -> Forall op_safe os -> n + total_adds os <= 7692 -> (1 <= k_max_retr (a_cfg a))%nat ->
  exists a', run a os = Ok a'.
Proof.
  induction os as [|o t IH]; intros a n I P N F B K; cbn [run]; [eauto|]. inversion F; subst. cbn [total_adds] in B.
  pose proof (adds_nonneg o). pose proof (total_nonneg t).
  destruct (step_total a o n I P N) as (a1 & E & P1); auto; [lia|]. rewrite E. cbn [bind]. eapply (IH a1 (n + adds o)); auto; try lia.
  - eapply inv_step with (o := o); [exact I|apply safe_fresh; assumption|exact E].
  - rewrite (cfg_step _ _ _ E). exact K.
Qed.

(** Histories of the frame API. *)
From Verif Require Import Base BaseFacts SeqModel MtimeModel SendQueueModel EvictModel Vp8Model ExtModel HeaderModel NackModel
  TxModel TxSpec TxProofs TxProofs2 TxProofs3 TxProofs4 WrModel WrSpec WrProofs WrProofs2.

Lemma id_eq_true a b : id_eq a b = true -> a = b. Proof. destruct (id_eq_spec a b); congruence. Qed.
Lemma rid_eq_true a b : rid_eq a b = true -> a = b. Proof. destruct (rid_eq_spec a b); congruence. Qed.

(** * reading a longer history *)
Lemma acts_app h1 h2 : acts (h1 ++ h2) = acts h1 ++ acts h2. Proof. apply flat_map_app. Qed.
Lemma accepted_app m h1 h2 : accepted m (h1 ++ h2) = accepted m h1 ++ accepted m h2. Proof. apply flat_map_app. Qed.
Lemma taken_app m a b : taken m (a ++ b) = taken m a ++ taken m b. Proof. apply flat_map_app. Qed.
Lemma cut_log_app m pt r a b : cut_log m pt r (a ++ b) = cut_log m pt r a ++ cut_log m pt r b. Proof. apply flat_map_app. Qed.
Lemma packets_app a b : packets (a ++ b) = packets a ++ packets b. Proof. apply flat_map_app. Qed.
Lemma out_app k h1 h2 : out k (h1 ++ h2) = out k h1 ++ out k h2.
Proof. unfold out. rewrite flat_map_app. apply packets_app. Qed.

Section M.
Variables (P : Type) (fresh : codec -> P) (cut : P -> Z -> list Z -> P * option (list (list Z))).
Variables (ps : list wparam) (kinds : list (list Z * bool)) (decl : decls) (mtu : Z).
Hypotheses (REAL : Forall (fun p => real (wp_codec p)) ps) (MTU : 16 <= mtu).
Notation pay_media := (pay_media P fresh cut). Notation pay_all := (pay_all P fresh cut).

Inductive cuts_to : P -> list (list Z * option (list (list Z))) -> P -> Prop :=
| ct_nil : forall st, cuts_to st [] st
| ct_snoc : forall st st1 st2 l data r, cuts_to st l st1 -> cut st1 (align mtu) data = (st2, r) -> cuts_to st (l ++ [(data, r)]) st2.
Lemma cuts_snoc st l : cuts cut (align mtu) st l -> forall st1 st2 data r, cuts_to st l st1 -> cut st1 (align mtu) data = (st2, r) ->
  cuts cut (align mtu) st (l ++ [(data, r)]).
Proof.
  intros _ st1 st2 data r H E.
  assert (forall st l st1, cuts_to st l st1 -> forall tl, cuts cut (align mtu) st1 tl -> cuts cut (align mtu) st (l ++ tl)) as X.
  { clear. intros st l st1 H. induction H as [st|st s1 s2 l data r H IH E]; intros tl HT; [exact HT|]. rewrite <- app_assoc. apply IH.
    cbn [app]. econstructor; eassumption. }
  eapply X; [exact H|]. econstructor; [exact E|constructor].
Qed.
Lemma cuts_to_cuts st l st1 : cuts_to st l st1 -> cuts cut (align mtu) st l.
Proof. intro H. induction H; [constructor|]. eapply cuts_snoc; eassumption. Qed.

(** One medium: what was accepted is what was taken and what waits; its packetizers made what was cut. *)
Record MI (d : media P) (acc : list sample) (A : list act) : Prop := {
  mi_fifo : acc = taken (d_mid d) A ++ d_wait d;
  mi_len : zlen (d_wait d) <= 101;
  mi_checked : Forall (checked ps) (d_wait d);
  mi_pay : forall pt r, match get_pay P (d_pay d) (pt, r) with
           | Some st => exists p, In p ps /\ wp_pt p = pt /\ cuts_to (fresh (wp_codec p)) (cut_log (d_mid d) pt r A) st
           | None => cut_log (d_mid d) pt r A = [] end }.

Lemma not_taken m a : Forall (fun x => media_of x <> m) a -> taken m a = [] /\ forall pt r, cut_log m pt r a = [].
Proof.
  induction 1 as [|x a H _ [IH1 IH2]]; [split; reflexivity|]. unfold taken, cut_log in *. cbn [flat_map].
  destruct (id_eq_spec (media_of x) m); [contradiction|]. cbn [andb app]. split; [exact IH1|exact IH2].
Qed.
Lemma MI_other d acc A a : MI d acc A -> Forall (fun x => media_of x <> d_mid d) a -> MI d acc (A ++ a).
Proof.
  intros [F L C S] H. destruct (not_taken _ _ H) as [T K]. constructor; try assumption.
  - rewrite taken_app, T, app_nil_r. exact F.
  - intros pt r. rewrite cut_log_app, K, app_nil_r. apply S.
Qed.
Lemma get_put l k v k' : get_pay P (put_pay P l k v) k' = if key_eq k k' then Some v else get_pay P l k'.
Proof.
  induction l as [|[k1 v1] l IH]; cbn [put_pay get_pay]; [reflexivity|].
  destruct (key_eq_spec k1 k) as [->|N]; cbn [get_pay].
  - destruct (key_eq k k'); reflexivity.
  - rewrite IH. destruct (key_eq_spec k1 k') as [->|N1]; [|reflexivity]. destruct (key_eq_spec k k') as [->|]; [contradiction|reflexivity].
Qed.

Definition same_media (d d' : media P) : Prop := d_mid d' = d_mid d /\ d_audio d' = d_audio d.
(** What one medium did. *)
Definition did (d : media P) (a : list act) (e : option werr) : Prop :=
  match d_wait d, e with
  | [], None => a = []
  | s :: _, None => exists k n cs, a = [Sent (d_mid d) s k n cs]
  | s :: _, Some er => a = [Dropped (d_mid d) s er]
  | _, _ => False
  end.

Lemma pay_media_MI d xs acc A d' xs' a e : MI d acc A -> pay_media ps mtu d xs = Ok (d', xs', a, e) ->
  MI d' acc (A ++ a) /\ same_media d d' /\ did d a e.
Proof.
  intros [F L C S] H. unfold WrModel.pay_media in H. unfold did. destruct (d_wait d) as [|s rest] eqn:EW.
  { injection H as <- <- <- <-. rewrite app_nil_r. split; [constructor; [rewrite EW; exact F|rewrite EW; exact L|rewrite EW; exact C|exact S]|]. split; [split; reflexivity|reflexivity]. }
  rewrite zlen_cons in L. inversion C as [|? ? C1 C2]; subst.
  assert (forall x, media_of x = d_mid d -> sample_of x = s -> taken (d_mid d) (A ++ [x]) ++ rest = taken (d_mid d) A ++ s :: rest) as TK.
  { intros x E1 E2. rewrite taken_app, <- app_assoc. unfold taken at 2. cbn [flat_map]. rewrite E1, id_eq_refl, E2. reflexivity. }
  cbv zeta in H. change (d_mid (set_wait P d rest)) with (d_mid d) in H. change (d_audio (set_wait P d rest)) with (d_audio d) in H.
  change (d_pay (set_wait P d rest)) with (d_pay d) in H.
  destruct (find_tx xs (d_mid d) (m_rid s)) as [k|].
  2:{ injection H as <- <- <- <-. split; [|split; [split; reflexivity|reflexivity]]. constructor; cbn [set_wait d_wait d_mid d_pay].
      - symmetry. apply TK; reflexivity.
      - lia.
      - exact C2.
      - intros pt r. rewrite cut_log_app. unfold cut_log at 2 4. cbn [flat_map media_of sample_of app].
        destruct (_ && _); rewrite app_nil_r; apply S. }
  destruct (find_par ps (m_pt s)) as [p|] eqn:FP; [|discriminate]. destruct (nth_error xs k) as [x|]; [|discriminate].
  destruct (find_par_some _ _ _ FP) as [IN PT].
  destruct (match get_pay P (d_pay d) (m_pt s, m_rid s) with Some st => Ok st | None => _ end) as [st| |] eqn:ES; cbn [bind] in H; try discriminate.
  assert (exists p, In p ps /\ wp_pt p = m_pt s /\ cuts_to (fresh (wp_codec p)) (cut_log (d_mid d) (m_pt s) (m_rid s) A) st) as ST.
  { pose proof (S (m_pt s) (m_rid s)) as S1. destruct (get_pay P (d_pay d) (m_pt s, m_rid s)) as [st1|].
    - injection ES as <-. exact S1.
    - destruct (can_start _); [|discriminate]. injection ES as <-. exists p. rewrite S1. split; [exact IN|]. split; [exact PT|constructor]. }
  destruct (mtu <? 16); [discriminate|]. destruct (cut st (align mtu) (m_data s)) as [st' o] eqn:EC.
  assert (forall x, media_of x = d_mid d -> sample_of x = s -> (forall pt r, cut_log (d_mid d) pt r [x] =
      if (m_pt s =? pt) && rid_eq (m_rid s) r then [(m_data s, o)] else []) ->
    MI (set_pay P (set_wait P d rest) (put_pay P (d_pay d) (m_pt s, m_rid s) st')) (taken (d_mid d) A ++ s :: rest) (A ++ [x])) as MK.
  { intros y Y1 Y2 Y3. constructor; cbn [set_pay set_wait d_wait d_mid d_pay].
    - symmetry. apply TK; assumption.
    - lia.
    - exact C2.
    - intros pt r. rewrite get_put, cut_log_app, Y3. unfold key_eq. cbn [fst snd].
      destruct ((m_pt s =? pt) && rid_eq (m_rid s) r) eqn:EK; [|rewrite app_nil_r; apply S].
      apply andb_prop in EK as [EK1 EK2]. assert (pt = m_pt s) as -> by lia. apply rid_eq_true in EK2 as <-.
      destruct ST as (p1 & I1 & I2 & I3). exists p1. split; [exact I1|]. split; [exact I2|]. eapply ct_snoc; eassumption. }
  destruct o as [cs|].
  - destruct (push_chunks _ _ s true cs x) as [x'| |]; cbn [bind] in H; try discriminate. injection H as <- <- <- <-.
    split; [|split; [split; reflexivity|eauto]]. apply MK; try reflexivity. intros pt r. unfold cut_log. cbn [flat_map media_of sample_of].
    rewrite id_eq_refl, app_nil_r. reflexivity.
  - injection H as <- <- <- <-. split; [|split; [split; reflexivity|reflexivity]]. apply MK; try reflexivity. intros pt r. unfold cut_log. cbn [flat_map media_of sample_of].
    rewrite id_eq_refl, app_nil_r. reflexivity.
Qed.

Definition key (a : act) : list Z * sample := (media_of a, sample_of a).
Definition heads (ds : list (media P)) : list (list Z * sample) :=
  flat_map (fun d => match d_wait d with s :: _ => [(d_mid d, s)] | [] => [] end) ds.

Lemma did_media d a e : did d a e -> Forall (fun x => media_of x = d_mid d) a /\
  match e with
  | None => map key a = heads [d] /\ forallb is_sent a = true
  | Some er => exists s, map key a = heads [d] /\ a = [Dropped (d_mid d) s er]
  end.
Proof.
  unfold did, heads. cbn [flat_map]. destruct (d_wait d) as [|s r], e as [er|]; try contradiction.
  - intros ->. repeat constructor.
  - intros ->. split; [repeat constructor|]. exists s. split; reflexivity.
  - intros (k & n & cs & ->). split; [repeat constructor|]. split; reflexivity.
Qed.

Lemma pay_all_MI ds : forall xs A (f : list Z -> list sample) ds' xs' a e, NoDup (map d_mid ds) ->
  Forall (fun d => MI d (f (d_mid d)) A) ds -> pay_all ps mtu ds xs = Ok (ds', xs', a, e) ->
  Forall (fun d => MI d (f (d_mid d)) (A ++ a)) ds' /\ Forall2 same_media ds ds' /\ Forall (fun x => In (media_of x) (map d_mid ds)) a /\
  exists rest, map key a ++ rest = heads ds /\
    match e with None => rest = [] /\ forallb is_sent a = true
               | Some er => exists a0 m s, a = a0 ++ [Dropped m s er] /\ forallb is_sent a0 = true end.
Proof.
  induction ds as [|d ds IH]; intros xs A f ds' xs' a e ND HD H; cbn [WrModel.pay_all] in H.
  { injection H as <- <- <- <-. split; [constructor|]. split; [constructor|]. split; [constructor|]. exists []. split; [reflexivity|split; reflexivity]. }
  inversion HD as [|? ? D1 D2]; subst. cbn [map] in ND. inversion ND as [|? ? N1 N2]; subst.
  destruct (pay_media ps mtu d xs) as [[[[d1 x1] a1] e1]| |] eqn:E; cbn [bind] in H; try discriminate.
  destruct (pay_media_MI _ _ _ _ _ _ _ _ D1 E) as (M1 & [M2 M3] & M4). destruct (did_media _ _ _ M4) as [W1 W2].
  assert (Forall (fun d => MI d (f (d_mid d)) (A ++ a1)) ds) as D3.
  { rewrite Forall_forall in D2 |- *. intros d0 H0. apply MI_other; [apply D2, H0|]. eapply Forall_impl; [|exact W1]. cbn. intros x -> EQ.
    apply N1. rewrite EQ. apply in_map, H0. }
  destruct e1 as [er|].
  - injection H as <- <- <- <-. split; [constructor; [rewrite M2; exact M1|exact D3]|]. split; [constructor; [split; assumption|]; clear; induction ds; constructor; [split; reflexivity|assumption]|].
    split; [eapply Forall_impl; [|exact W1]; cbn; intros x ->; left; reflexivity|].
    destruct W2 as (s & W2 & W3). exists (heads ds). split; [rewrite W2; unfold heads; cbn [flat_map]; rewrite app_nil_r; reflexivity|].
    exists [], (d_mid d), s. split; [exact W3|reflexivity].
  - destruct (pay_all ps mtu ds x1) as [[[[d2 x2] a2] e2]| |] eqn:E2; cbn [bind] in H; try discriminate. injection H as <- <- <- <-.
    destruct (IH _ _ _ _ _ _ _ N2 D3 E2) as (I1 & I2 & I3 & rest & I4 & I5). destruct W2 as [W2 W3].
    split; [constructor|].
    { rewrite M2, app_assoc. apply MI_other; [exact M1|]. rewrite M2. eapply Forall_impl; [|exact I3]. cbn. intros x Hx EQ. rewrite EQ in Hx. contradiction. }
    { rewrite app_assoc. exact I1. }
    split; [constructor; [split; assumption|exact I2]|]. split.
    { apply Forall_app. split; [eapply Forall_impl; [|exact W1]; cbn; intros x ->; left; reflexivity|eapply Forall_impl; [|exact I3]; cbn; auto]. }
    exists rest. split; [rewrite map_app, W2, <- app_assoc, I4; unfold heads; cbn [flat_map]; rewrite app_nil_r; reflexivity|].
    destruct e2 as [er|].
    + destruct I5 as (a0 & m & s & -> & J). exists (a1 ++ a0), m, s. split; [apply app_assoc|]. rewrite forallb_app, W3, J. reflexivity.
    + destruct I5 as [J1 J2]. split; [exact J1|]. rewrite forallb_app, W3, J2. reflexivity.
Qed.

(** Each frame goes to a stream of its medium, and of its RID if it names one. *)
Definition right (a : act) : Prop :=
  match a with
  | Sent m s k n cs => exists ss rtx r q0, nth_error decl k = Some (ss, rtx, m, r, q0) /\ (m_rid s = None \/ m_rid s = r)
  | Dropped _ _ _ => True
  end.
(** The declared MIDs and RIDs. *)
Definition placed (xs : list tx) : Prop :=
  forall k x, nth_error xs k = Some x -> exists ss rtx q0, nth_error decl k = Some (ss, rtx, x_mid x, x_rid x, q0).
Lemma push_same p audio s cs : forall f x x', push_chunks p audio s f cs x = Ok x' -> x_mid x' = x_mid x /\ x_rid x' = x_rid x.
Proof.
  induction cs as [|b cs IH]; intros f x x'; cbn [push_chunks]; [intros [= ->]; split; reflexivity|].
  destruct (is_marker _ _); cbn [bind]; try discriminate. intro H. destruct (IH _ _ _ H) as [-> ->]. split; reflexivity.
Qed.
Lemma pay_media_right d xs d' xs' a e : placed xs -> pay_media ps mtu d xs = Ok (d', xs', a, e) -> placed xs' /\ Forall right a.
Proof.
  intros HP H. unfold WrModel.pay_media in H. destruct (d_wait d) as [|s rest]; [injection H as <- <- <- <-; split; [exact HP|constructor]|].
  cbv zeta in H. change (d_mid (set_wait P d rest)) with (d_mid d) in H.
  destruct (find_tx xs (d_mid d) (m_rid s)) as [k|] eqn:FT; [|injection H as <- <- <- <-; split; [exact HP|repeat constructor]].
  destruct (find_par ps (m_pt s)) as [p|]; [|discriminate]. destruct (find_tx_some _ _ _ _ FT) as (x & NX & FX). rewrite NX in H.
  destruct (match get_pay P _ _ with Some st => Ok st | None => _ end) as [st| |]; cbn [bind] in H; try discriminate.
  destruct (mtu <? 16); [discriminate|]. destruct (cut st (align mtu) (m_data s)) as [st' [cs|]]; [|injection H as <- <- <- <-; split; [exact HP|repeat constructor]].
  destruct (push_chunks p _ s true cs x) as [x'| |] eqn:PC; cbn [bind] in H; try discriminate. injection H as <- <- <- <-.
  destruct (push_same _ _ _ _ _ _ _ PC) as [P1 P2]. split.
  - intros j y. rewrite nth_upd. destruct (Nat.eqb_spec j k) as [->|NJ]; [|apply HP]. destruct (Nat.ltb _ _); [|discriminate]. intros [= <-].
    rewrite P1, P2. apply HP, NX.
  - constructor; [|constructor]. destruct (HP _ _ NX) as (ss & rtx & q0 & D). unfold fits in FX. apply andb_prop in FX as [F1 F2].
    apply id_eq_true in F1 as EM. exists ss, rtx, (x_rid x), q0. change (d_mid (set_pay P _ _)) with (d_mid d).
    rewrite EM. split; [exact D|]. destruct (m_rid s) as [rr|]; [|left; reflexivity]. right. exact (rid_eq_true _ _ F2).
Qed.
Lemma pay_all_right ds : forall xs ds' xs' a e, placed xs -> pay_all ps mtu ds xs = Ok (ds', xs', a, e) -> placed xs' /\ Forall right a.
Proof.
  induction ds as [|d ds IH]; intros xs ds' xs' a e HP H; cbn [WrModel.pay_all] in H; [injection H as <- <- <- <-; split; [exact HP|constructor]|].
  destruct (pay_media ps mtu d xs) as [[[[d1 x1] a1] e1]| |] eqn:E; cbn [bind] in H; try discriminate.
  destruct (pay_media_right _ _ _ _ _ _ HP E) as [H1 H2]. destruct e1.
  - injection H as <- <- <- <-. auto.
  - destruct (pay_all ps mtu ds x1) as [[[[d2 x2] a2] e2]| |] eqn:E2; cbn [bind] in H; try discriminate. injection H as <- <- <- <-.
    destruct (IH _ _ _ _ _ H1 E2). split; [assumption|]. apply Forall_app; auto.
Qed.
Lemma SSI_placed xs tw A Of cl : SSI ps kinds decl xs tw A Of cl -> placed xs.
Proof.
  intros H k x E. destruct (SSI_at _ _ _ _ _ _ _ _ _ _ H E) as (ss & rtx & m & r & q0 & rs & W & D & _ & S & _).
  destruct S as [-> -> _ _ _ _]. eauto.
Qed.
End M.

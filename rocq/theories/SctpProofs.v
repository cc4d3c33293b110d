(** Lemmas about one SCTP poll (C48). *)
From Coq Require Import Sorting.Sorted.
From Verif Require Import Base BaseFacts DcepModel SctpModel.
From Verif Require ChanModel ChanProps.

Section P.
Context {A : Type} (P : proto A).

(** ** Lookup in the sorted entries *)
Definition ids (es : list entry) : list Z := map e_id es.
Definition sorted (es : list entry) : Prop := StronglySorted Z.lt (ids es).

Lemma sorted_cons e r : sorted (e :: r) <-> sorted r /\ forall x, In x r -> e_id e < e_id x.
Proof.
  unfold sorted, ids. cbn [map]. split.
  - intro H. inversion H; subst. split; [assumption|]. intros x Hx. rewrite Forall_forall in H3. apply H3, in_map, Hx.
  - intros [H1 H2]. constructor; [exact H1|]. apply Forall_forall. intros y Hy. apply in_map_iff in Hy as [x [<- Hx]]. auto.
Qed.

Lemma look_in es id e : entry_by_id es id = Some e -> In e es /\ e_id e = id.
Proof. intro H. apply find_some in H as [H1 H2]. apply Z.eqb_eq in H2. auto. Qed.
Lemma look_of es e : sorted es -> In e es -> entry_by_id es (e_id e) = Some e.
Proof.
  induction es as [|x r IH]; intros S H; [destruct H|]. apply sorted_cons in S as [S1 S2]. unfold entry_by_id. cbn [find].
  destruct H as [->|H]; [rewrite Z.eqb_refl; reflexivity|].
  pose proof (S2 e H). destruct (Z.eqb_spec (e_id x) (e_id e)); [lia|]. apply IH; assumption.
Qed.
Lemma look_none es id : entry_by_id es id = None -> forall e, In e es -> e_id e <> id.
Proof. intros H e He E. apply find_none with (x := e) in H; [|exact He]. apply Z.eqb_neq in H. contradiction. Qed.

Lemma look_cons e r id : entry_by_id (e :: r) id = if e_id e =? id then Some e else entry_by_id r id.
Proof. reflexivity. Qed.

Lemma upd_ids es id f : (forall e, e_id (f e) = e_id e) -> ids (upd_entry es id f) = ids es.
Proof.
  intro F. unfold ids. induction es as [|e r IH]; [reflexivity|]. cbn [upd_entry]. destruct (e_id e =? id); cbn [map]; rewrite ?F, ?IH; reflexivity.
Qed.
Lemma upd_sorted es id f : (forall e, e_id (f e) = e_id e) -> sorted es -> sorted (upd_entry es id f).
Proof. unfold sorted. intros F S. rewrite upd_ids; assumption. Qed.
Lemma look_upd es id f id' : (forall e, e_id (f e) = e_id e) ->
  entry_by_id (upd_entry es id f) id' = if id' =? id then option_map f (entry_by_id es id) else entry_by_id es id'.
Proof.
  intro F. induction es as [|e r IH]; [destruct (id' =? id); reflexivity|]. cbn [upd_entry].
  destruct (Z.eqb_spec (e_id e) id) as [E|E].
  - rewrite !look_cons, F. destruct (Z.eqb_spec id' id) as [->|N].
    + rewrite (proj2 (Z.eqb_eq _ _) E). reflexivity.
    + destruct (Z.eqb_spec (e_id e) id'); [congruence|reflexivity].
  - rewrite !look_cons, IH. destruct (Z.eqb_spec id' id) as [->|N].
    + rewrite (proj2 (Z.eqb_neq _ _) E). reflexivity.
    + reflexivity.
Qed.
Lemma in_upd es id f x : In x (upd_entry es id f) -> In x es \/ exists e, In e es /\ e_id e = id /\ x = f e.
Proof.
  induction es as [|e r IH]; [intros []|]. cbn [upd_entry]. destruct (Z.eqb_spec (e_id e) id).
  - intros [<-|H]; [right; exists e; cbn; auto|left; right; exact H].
  - intros [<-|H]; [left; left; reflexivity|]. destruct (IH H) as [K|[y [K1 K2]]]; [left; right; exact K|right; exists y; cbn; tauto].
Qed.

Lemma ins_in es n x : In x (insert_entry es n) <-> x = n \/ In x es.
Proof.
  induction es as [|e r IH]; cbn [insert_entry]; [cbn; intuition congruence|].
  destruct (e_id n <? e_id e); cbn [In]; [intuition congruence|]. rewrite IH. intuition congruence.
Qed.
Lemma ins_sorted es n : sorted es -> entry_by_id es (e_id n) = None -> sorted (insert_entry es n).
Proof.
  induction es as [|e r IH]; intros S H; cbn [insert_entry].
  - apply sorted_cons. split; [exact S|intros x []].
  - rewrite look_cons in H. destruct (Z.eqb_spec (e_id e) (e_id n)) as [E|E]; [discriminate|].
    destruct (Z.ltb_spec (e_id n) (e_id e)).
    + apply sorted_cons. split; [exact S|]. intros x [<-|Hx]; [assumption|]. apply sorted_cons in S as [_ S]. specialize (S x Hx). lia.
    + apply sorted_cons in S as [S1 S2]. apply sorted_cons. split; [apply IH; assumption|].
      intros x Hx. apply ins_in in Hx as [->|Hx]; [lia|apply S2, Hx].
Qed.

Lemma stream_entry_sorted es id st : sorted es -> sorted (stream_entry es id st).
Proof. intro S. unfold stream_entry. destruct (entry_by_id es id) eqn:L; [exact S|]. apply ins_sorted; assumption. Qed.
Lemma stream_entry_look es id st id' : sorted es -> entry_by_id (stream_entry es id st) id' =
  match entry_by_id es id' with
  | Some e => Some e
  | None => if id' =? id then Some (mkEntry id None st false None Unconfigured) else None
  end.
Proof.
  intro S. pose proof (stream_entry_sorted es id st S) as S'. unfold stream_entry in *.
  destruct (entry_by_id es id) as [e0|] eqn:L.
  - destruct (entry_by_id es id') eqn:L'; [reflexivity|]. destruct (Z.eqb_spec id' id); [congruence|reflexivity].
  - set (n := mkEntry id None st false None Unconfigured) in *.
    destruct (entry_by_id es id') as [e|] eqn:L'.
    + apply look_in in L' as [I E]. rewrite <- E. apply look_of; [exact S'|]. apply ins_in. right. exact I.
    + destruct (Z.eqb_spec id' id) as [->|N].
      * apply (look_of _ n); [exact S'|]. apply ins_in. left. reflexivity.
      * destruct (entry_by_id (insert_entry es n) id') as [e|] eqn:L2; [|reflexivity]. exfalso.
        apply look_in in L2 as [I E]. apply ins_in in I as [->|I]; [cbn in E; congruence|].
        eapply look_none; eauto.
Qed.

Lemma filter_sorted f es : sorted es -> sorted (filter f es).
Proof.
  induction es as [|e r IH]; intro S; [exact S|]. apply sorted_cons in S as [S1 S2]. cbn [filter].
  destruct (f e); [|auto]. apply sorted_cons. split; [auto|]. intros x Hx. apply filter_In in Hx as [Hx _]. auto.
Qed.
Definition live (es : list entry) : list entry := filter (fun e => negb (estate_eqb (e_state e) EClosed)) es.
Lemma estate_eqb_eq a b : estate_eqb a b = true <-> a = b.
Proof. destruct a, b; cbn; intuition congruence. Qed.
Lemma live_in es e : In e (live es) <-> In e es /\ e_state e <> EClosed.
Proof.
  unfold live. rewrite filter_In. destruct (estate_eqb (e_state e) EClosed) eqn:E; cbn.
  - apply estate_eqb_eq in E. intuition congruence.
  - assert (e_state e <> EClosed) by (intro K; apply estate_eqb_eq in K; congruence). tauto.
Qed.
Lemma live_look es id : sorted es -> entry_by_id (live es) id =
  match entry_by_id es id with Some e => if estate_eqb (e_state e) EClosed then None else Some e | None => None end.
Proof.
  intro S. pose proof (filter_sorted (fun e => negb (estate_eqb (e_state e) EClosed)) es S) as S'. fold (live es) in S'.
  destruct (entry_by_id (live es) id) as [e|] eqn:L.
  - apply look_in in L as [I E]. apply live_in in I as [I N]. subst id. rewrite (look_of es e S I).
    destruct (estate_eqb (e_state e) EClosed) eqn:K; [apply estate_eqb_eq in K; contradiction|reflexivity].
  - destruct (entry_by_id es id) as [e|] eqn:L'; [|reflexivity]. destruct (estate_eqb (e_state e) EClosed) eqn:K; [reflexivity|].
    apply look_in in L' as [I E]. exfalso. eapply look_none; [exact L| |exact E]. apply live_in. split; [exact I|].
    intro X. apply estate_eqb_eq in X. congruence.
Qed.

(** ** What entries satisfy between steps *)
Section Inv.
Context (h : ChanModel.handler) (confs : list (Z * config)) (op : Z -> Prop).

Definition owned (e : entry) (cf : config) : Prop :=
  exists c, ChanModel.channel_by_stream h (e_id e) = Some c /\ conf_of confs c = Some cf /\ e_conf e = Some cf.

Definition eok (e : entry) : Prop :=
  match e_state e with
  | AwaitOpen => exists cf, owned e cf
  | AwaitDcepAck => exists cf, owned e cf /\ in_band cf = true
  | AwaitConfig => e_conf e <> None -> e_close e = true
  | EOpen => e_conf e <> None /\ exists c, ChanModel.channel_by_stream h (e_id e) = Some c /\
             (op c \/ exists cf, conf_of confs c = Some cf /\ in_band cf = false)
  | EClosed => ChanModel.channel_by_stream h (e_id e) = None
  end.

(** An entry that goes on without an event. *)
Record moves (e e' : entry) : Prop := {
  m_id : e_id e' = e_id e;
  m_close : e_close e = true -> e_close e' = true;
  m_open : e_state e = EOpen -> e_state e' = EOpen;
  m_closed : e_state e' = EClosed -> e_state e = EClosed;
  m_wait : e_state e' = AwaitOpen -> e_state e = AwaitOpen /\ e_conf e' = e_conf e /\
           (forall d, e_deadline e = Some d -> e_deadline e' = Some d)
}.
Lemma moves_refl e : moves e e.
Proof. split; auto. Qed.
Lemma moves_trans a b c : moves a b -> moves b c -> moves a c.
Proof.
  intros [A1 A2 A3 A4 A5] [B1 B2 B3 B4 B5]. split; auto; try congruence. intro W. destruct (B5 W) as (B6 & B7 & B8). destruct (A5 B6) as (A6 & A7 & A8).
  split; [exact A6|]. split; [congruence|auto].
Qed.

(** Ways an event comes out of a visit. *)
Definition params_of (c : config) := let d := dcep_of_config c in (d_unordered d, d_type d, d_param d).
Definition rel_act (id : Z) (c : config) : act :=
  ARel id (d_unordered (dcep_of_config c)) (d_type (dcep_of_config c)) (d_param (dcep_of_config c)).

Inductive how_open (e : entry) (label : list Z) (t : list act) : Prop :=
| HLocal cf : e_state e = AwaitOpen -> e_conf e = Some cf -> in_band cf = false -> label = c_label cf ->
    (t = [AOpened (e_id e); rel_act (e_id e) cf] \/ t = [rel_act (e_id e) cf]) -> how_open e label t
| HAck cf buf : e_state e = AwaitDcepAck -> e_conf e = Some cf -> ack_read buf = Ok tt -> label = c_label cf ->
    t = [ARead (e_id e) PDcep buf] -> how_open e label t
| HRemote d buf : e_state e = AwaitConfig -> e_conf e = None -> open_read buf = Ok d -> label = d_label d ->
    t = [ARead (e_id e) PDcep buf; rel_act (e_id e) (config_of_dcep d); AWrite (e_id e) PDcep [2]] -> how_open e label t.

Definition is_data (p : ppi) : bool := match p with PDcep | POther => false | _ => true end.

(** no user data is read in [t], and the only messages written are the DCEP ones *)
Definition quiet_act (e : entry) (t : list act) : Prop :=
  (forall id p buf, In (ARead id p buf) t -> is_data p = false) /\
  (forall id p buf, In (AWrite id p buf) t ->
     id = e_id e /\ p = PDcep /\
     ((e_state e = AwaitOpen /\ exists cf, e_conf e = Some cf /\ in_band cf = true /\ send_open cf = Ok buf /\
        t = [AOpened id; rel_act id cf; AWrite id PDcep buf]) \/
      (e_state e = AwaitConfig /\ buf = [2] /\ exists m d, open_read m = Ok d /\ t = [ARead id PDcep m; rel_act id (config_of_dcep d); AWrite id PDcep buf]))).

Definition visited (now : Z) (e : entry) (v : @vres A) : Prop :=
  match v_out v with
  | Cont => moves e (v_e v) /\ eok (v_e v) /\ quiet_act e (v_acts v) /\
            (e_close e = true -> e_state e = AwaitOpen \/ e_state e = EClosed) /\
            (e_state (v_e v) = AwaitOpen -> exists d, e_deadline (v_e v) = Some d /\ now < d /\
               d = match e_deadline e with Some d' => d' | None => now + OPEN_TIMEOUT end)
  | Restart => moves e (v_e v) /\ eok (v_e v) /\ quiet_act e (v_acts v) /\ e_state e = AwaitOpen /\ e_state (v_e v) = AwaitDcepAck
  | Emit (SClose id _) => id = e_id e /\ e_id (v_e v) = id /\ e_state (v_e v) = EClosed /\ e_state e <> EClosed /\ quiet_act e (v_acts v)
  | Emit (SOpen id label) => id = e_id e /\ e_id (v_e v) = id /\ e_state (v_e v) = EOpen /\ e_conf (v_e v) <> None /\
      (e_close e = true -> e_close (v_e v) = true) /\ how_open e label (v_acts v) /\ quiet_act e (v_acts v)
  | Emit (SData id b d) => id = e_id e /\ e_close e = false /\ e_close (v_e v) = false /\ e_state (v_e v) = e_state e /\ e_state e <> AwaitOpen /\
      moves e (v_e v) /\ eok (v_e v) /\ exists p buf, is_data p = true /\ v_acts v = [ARead id p buf] /\ b = is_binary p /\ d = adjust p buf
  | Emit _ => False
  end.

Ltac ex := cbn [e_id e_conf e_state e_close e_deadline e_thr e_set_state e_set_close e_set_conf e_set_deadline e_set_thr
  v_e v_w v_rp v_out v_acts] in *.

Lemma quiet_none e t : (forall a, In a t -> match a with AWrite _ _ _ => False | ARead _ p _ => is_data p = false | _ => True end) -> quiet_act e t.
Proof.
  intro H. split.
  - intros id p buf I. apply (H _ I).
  - intros id p buf I. destruct (H _ I).
Qed.
Lemma quiet_nil e : quiet_act e [].
Proof. apply quiet_none. intros a []. Qed.

Lemma propagate_acts b w rp id x w' rp' t : propagate_close P b w rp id = (x, w', rp', t) -> t = [] \/ t = [AClose id].
Proof.
  unfold propagate_close. destruct (b && p_stream P w id).
  - destruct (p_close P w id) as [ok w1]. intro H. injection H as <- <- <- <-. right. reflexivity.
  - intro H. injection H as <- <- <- <-. left. reflexivity.
Qed.

Lemma shut_visited now e e1 w rp t : e_state e <> EClosed -> e_id e1 = e_id e ->
  (forall a, In a t -> match a with AWrite _ _ _ => False | ARead _ p _ => is_data p = false | _ => True end) ->
  visited now e (shut P w rp e1 t).
Proof.
  intros N I H. unfold shut. destruct (propagate_close P true w rp (e_id e1)) as [[[x w'] rp'] t'] eqn:E. unfold visited. ex.
  repeat split; auto; try congruence.
  - intros id p buf K. apply in_app_or in K as [K|K]; [apply (H _ K)|].
    apply propagate_acts in E as [->| ->]; [destruct K|destruct K as [K|[]]; discriminate].
  - intros. exfalso. apply in_app_or in H0 as [K|K]; [apply (H _ K)|].
    apply propagate_acts in E as [->| ->]; [destruct K|destruct K as [K|[]]; discriminate].
  - exfalso. apply in_app_or in H0 as [K|K]; [apply (H _ K)|].
    apply propagate_acts in E as [->| ->]; [destruct K|destruct K as [K|[]]; discriminate].
  - exfalso. apply in_app_or in H0 as [K|K]; [apply (H _ K)|].
    apply propagate_acts in E as [->| ->]; [destruct K|destruct K as [K|[]]; discriminate].
Qed.

Lemma configure_spec w e ok w1 e1 t : configure P w e = Ok (ok, w1, e1, t) ->
  exists cf, e_conf e = Some cf /\ e1 = (if ok then e else e_set_close e) /\ t = [rel_act (e_id e) cf].
Proof.
  unfold configure. destruct (e_conf e) as [cf|]; [|discriminate].
  destruct (p_rel P w (e_id e) _ _ _) as [ok' w']. intro H. injection H as -> <- <- <-. exists cf. auto.
Qed.

Ltac acts := intros ? K; cbn [In app] in K;
  repeat (let K' := fresh in destruct K as [K'|K]; [subst; try exact I; try reflexivity; try discriminate|]); try contradiction.

Lemma visit_open_spec now w rp e v : e_state e = AwaitOpen -> eok e -> visit_open P now w rp e = Ok v -> visited now e v.
Proof.
  intros ST OK H. unfold eok in OK. rewrite ST in OK. destruct OK as [cf OW]. assert (e_conf e = Some cf) as CF by (destruct OW as (c & _ & _ & X); exact X).
  unfold visit_open in H. destruct (p_open P w (e_id e)) as [r w0]. destruct r.
  - destruct (configure P w0 (e_set_deadline e None)) as [[[[ok w1] e1] t]| |] eqn:C; try discriminate. cbn [bind] in H.
    apply configure_spec in C as (cf' & C1 & C2 & C3). ex. rewrite CF in C1. injection C1 as <-.
    destruct ok; cbn [negb] in H; subst e1 t.
    + cbn [e_set_deadline e_conf] in H. rewrite CF in H. destruct (in_band cf) eqn:IB.
      * destruct (send_open cf) as [buf| |] eqn:SO; try discriminate. cbn [bind] in H.
        destruct (p_write P w1 (e_id e) PDcep buf) as [wok w2]. destruct wok; injection H as <-.
        -- unfold visited. ex. split; [|split; [|split; [|split]]]; auto.
           ++ split; ex; intros; congruence.
           ++ unfold eok. ex. exists cf. split; [|exact IB]. destruct OW as (c & O1 & O2 & O3). exists c. auto.
           ++ split.
              ** intros id p b K. cbn in K. destruct K as [K|[K|[K|[]]]]; discriminate.
              ** intros id p b K. cbn in K. destruct K as [K|[K|[K|[]]]]; try discriminate. injection K as <- <- <-.
                 split; [reflexivity|]. split; [reflexivity|]. left. split; [exact ST|]. exists cf. auto.
        -- apply shut_visited; [congruence|reflexivity|]. acts.
      * unfold opened_out_of_band in H. ex. rewrite CF, IB in H. injection H as <-.
        unfold visited. ex. repeat split; auto; try congruence.
        -- eapply HLocal; eauto.
        -- intros id p b K. cbn in K. destruct K as [K|[K|[]]]; discriminate.
        -- cbn in H. destruct H as [K|[K|[]]]; discriminate.
        -- cbn in H. destruct H as [K|[K|[]]]; discriminate.
        -- cbn in H. destruct H as [K|[K|[]]]; discriminate.
    + injection H as <-. apply shut_visited; [congruence|reflexivity|]. acts.
  - rewrite CF in H. cbn [negb andb orb] in H. rewrite orb_false_r in H.
    destruct (in_band cf || p_stream P w0 (e_id e) && negb (p_live P w0 (e_id e))) eqn:B.
    + set (dl := match e_deadline e with Some d => d | None => now + OPEN_TIMEOUT end) in *. destruct (Z.ltb_spec now dl) as [L|L]; injection H as <-.
      * unfold visited. ex. split; [|split; [|split; [|split]]]; auto.
        -- split; ex; auto. intro. split; [auto|]. split; [reflexivity|]. intros d D. unfold dl. rewrite D. reflexivity.
        -- unfold eok. ex. rewrite ST. exists cf. destruct OW as (c & O1 & O2 & O3). exists c. auto.
        -- apply quiet_nil.
        -- intros _. exists dl. auto.
      * apply shut_visited; [congruence|reflexivity|]. intros a [].
    + apply orb_false_iff in B as [IB B]. destruct (p_stream P w0 (e_id e)) eqn:PS; cbn [negb] in H; [|discriminate].
      destruct (configure P w0 e) as [[[[ok w1] e1] t]| |] eqn:C; try discriminate. cbn [bind] in H.
      apply configure_spec in C as (cf' & C1 & C2 & C3). rewrite CF in C1. injection C1 as <-.
      destruct ok; cbn [negb] in H; subst e1 t.
      * unfold opened_out_of_band in H. rewrite CF, IB in H. injection H as <-.
        unfold visited. ex. repeat split; auto; try congruence.
        -- eapply HLocal; eauto.
        -- intros id p b K. cbn in K. destruct K as [K|[]]; discriminate.
        -- cbn in H. destruct H as [K|[]]; discriminate.
        -- cbn in H. destruct H as [K|[]]; discriminate.
        -- cbn in H. destruct H as [K|[]]; discriminate.
      * injection H as <-. apply shut_visited; [congruence|reflexivity|]. acts.
  - rewrite CF in H. rewrite orb_true_r in H.
    set (dl := match e_deadline e with Some d => d | None => now + OPEN_TIMEOUT end) in *. destruct (Z.ltb_spec now dl) as [L|L]; injection H as <-.
      * unfold visited. ex. split; [|split; [|split; [|split]]]; auto.
        -- split; ex; auto. intro. split; [auto|]. split; [reflexivity|]. intros d D. unfold dl. rewrite D. reflexivity.
        -- unfold eok. ex. rewrite ST. exists cf. destruct OW as (c & O1 & O2 & O3). exists c. auto.
        -- apply quiet_nil.
        -- intros _. exists dl. auto.
      * apply shut_visited; [congruence|reflexivity|]. intros a [].
  - injection H as <-. apply shut_visited; [congruence|reflexivity|]. intros a [].
Qed.

Lemma eok_close e : eok e -> eok (e_set_close e).
Proof. unfold eok, owned. ex. destruct (e_state e); auto. Qed.
Lemma eok_thr e t : eok e -> eok (e_set_thr e t).
Proof. unfold eok, owned. ex. destruct (e_state e); auto. Qed.
Lemma moves_close e : moves e (e_set_close e).
Proof. split; ex; auto. Qed.

(** the entry is not AwaitOpen and not to be closed (or is a closed one) *)
Lemma visit_read_spec now w rp e v : e_state e <> AwaitOpen -> e_state e <> EClosed -> e_close e = false -> eok e ->
  visit_read P w rp e = Ok v -> visited now e v.
Proof.
  intros ST SC CL OK H. unfold visit_read in H. destruct (p_read P w (e_id e)) as [r w1]. destruct r as [| |p buf].
  - injection H as <-. unfold visited. ex. split; [apply moves_refl|]. split; [exact OK|]. split; [apply quiet_nil|]. split; congruence.
  - injection H as <-. unfold visited. ex. split; [apply moves_close|]. split; [apply eok_close; exact OK|]. split; [apply quiet_nil|]. split; congruence.
  - destruct p.
    2-5: injection H as <-; unfold visited; ex; (do 5 (split; [reflexivity || assumption|])); split; [apply moves_refl|]; split; [exact OK|];
         eexists _, buf; (split; [|split; [reflexivity|split; reflexivity]]); reflexivity.
    + unfold visit_dcep in H. destruct (e_state e) eqn:ES; try congruence.
      * (* AwaitConfig *)
        unfold eok in OK. rewrite ES in OK.
        assert (e_conf e = None) as CN by (destruct (e_conf e); [rewrite OK in CL by discriminate; discriminate|reflexivity]).
        destruct (open_read buf) as [d| |] eqn:OR; try discriminate.
        -- rewrite CN in H. destruct (configure P w1 (e_set_conf e (config_of_dcep d))) as [[[[ok w2] e2] t1]| |] eqn:C; try discriminate. cbn [bind] in H.
           apply configure_spec in C as (cf' & C1 & C2 & C3). ex. injection C1 as <-.
           destruct ok; cbn [negb] in H; subst e2 t1.
           ++ change (ack_write 1) with (@Ok (list Z) [2]) in H. cbn [bind] in H.
              destruct (p_write P w2 (e_id e) PDcep [2]) as [wok w3]. destruct wok; injection H as <-.
              ** unfold visited. ex. do 3 (split; [reflexivity|]). split; [congruence|]. split; [congruence|]. split.
                 --- eapply HRemote; eauto.
                 --- split.
                     +++ intros id p b K. cbn in K. destruct K as [K|[K|[K|[]]]]; try discriminate. injection K as <- <- <-. reflexivity.
                     +++ intros id p b K. cbn in K. destruct K as [K|[K|[K|[]]]]; try discriminate. injection K as <- <- <-.
                         split; [reflexivity|]. split; [reflexivity|]. right. split; [exact ES|]. split; [reflexivity|]. exists buf, d. auto.
              ** apply shut_visited; [congruence|reflexivity|]. acts.
           ++ injection H as <-. unfold visited. ex. split; [|split; [|split; [|split]]].
              ** split; ex; auto; congruence.
              ** unfold eok. ex. rewrite ES. auto.
              ** apply quiet_none. acts.
              ** congruence.
              ** congruence.
        -- injection H as <-. unfold visited. ex. split; [apply moves_close|]. split; [apply eok_close; unfold eok; rewrite ES; exact OK|].
           split; [apply quiet_none; acts|]. split; congruence.
      * (* AwaitDcepAck *)
        destruct (ack_read buf) as [[]| |] eqn:AR; try discriminate.
        -- destruct (e_conf e) as [cf|] eqn:CF; [|discriminate]. injection H as <-. unfold visited. ex.
           do 3 (split; [reflexivity|]). split; [congruence|]. split; [auto|]. split; [eapply HAck; eauto|]. apply quiet_none. acts.
        -- injection H as <-. unfold visited. ex. split; [apply moves_close|]. split; [apply eok_close; exact OK|].
           split; [apply quiet_none; acts|]. split; congruence.
      * injection H as <-. unfold visited. ex. split; [apply moves_close|]. split; [apply eok_close; exact OK|].
        split; [apply quiet_none; acts|]. split; congruence.
    + injection H as <-. unfold visited. ex. split; [apply moves_close|]. split; [apply eok_close; exact OK|].
      split; [apply quiet_none; acts|]. split; congruence.
Qed.

Lemma visit_spec now w rp e v : e_state e <> EClosed -> eok e -> visit P now w rp e = Ok v -> visited now e v.
Proof.
  intros SC OK H. unfold visit in H. destruct (estate_eqb (e_state e) AwaitOpen) eqn:E.
  { apply estate_eqb_eq in E. eapply visit_open_spec; eauto. }
  assert (e_state e <> AwaitOpen) as ST by (intro X; apply estate_eqb_eq in X; congruence).
  assert (estate_eqb (e_state e) EClosed = false) as EC by (destruct (estate_eqb (e_state e) EClosed) eqn:K; [apply estate_eqb_eq in K; contradiction|reflexivity]).
  rewrite EC in H. cbn [negb] in H. rewrite andb_true_r in H. destruct (e_close e) eqn:CL.
  { injection H as <-. apply shut_visited; [exact SC|reflexivity|intros a []]. }
  destruct (p_stream P w (e_id e)); cbn [negb] in H.
  2:{ injection H as <-. unfold visited. ex. split; [apply moves_close|]. split; [apply eok_close; exact OK|]. split; [apply quiet_nil|]. split; congruence. }
  destruct (e_thr e) as [|x|x] eqn:TH; try (eapply visit_read_spec; eassumption).
  destruct (p_thr P w (e_id e) x) as [ok w1]. destruct ok.
  - pose proof (visit_read_spec now w1 rp (e_set_thr e (Configured x)) v ST SC CL (eok_thr _ _ OK) H) as V.
    unfold visited in *. destruct (v_out v) as [| |[]]; ex; auto; try tauto.
    + destruct V as (V1 & V2 & V3 & V4 & V5). split; [destruct V1; split; ex; auto|auto].
    + destruct V as (V1 & V2 & V3 & V4 & V5 & V6 & V7). repeat (split; [assumption|]). split; [|exact V7].
      destruct V6; ex; [eapply HLocal|eapply HAck|eapply HRemote]; eauto.
    + destruct V as (V1 & V2 & V3 & V4 & V5 & V6 & V7). repeat (split; [assumption|]). split; [|exact V7]. destruct V6; split; ex; auto.
  - injection H as <-. unfold visited. ex. split; [split; ex; auto|]. split; [apply (eok_thr (e_set_close e)), eok_close, OK|]. split; [apply quiet_nil|]. split; congruence.
Qed.
End Inv.
End P.

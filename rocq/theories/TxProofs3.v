(** The retransmission cache of a stream is the cache of the packets it sent (C07-C09); NACKs are answered. *)
From Verif Require Import Base BaseFacts SeqModel SeqProofs MtimeModel SendQueueModel EvictModel EvictSpec EvictProofs EvictProofs2 EvictProps
  Vp8Model ExtModel HeaderModel NackModel TxModel TxSpec TxProofs TxProofs2.

(** * forgetting the contents of a cache *)
Section M.
Context {A B : Type} (f : A -> B).
Definition mapent (x : entry A) : entry B := mkEnt (position x) (EvictModel.timestamp x) (f (value x)).
Definition mapbuf (b : list (option (entry A))) : list (option (entry B)) := map (option_map mapent) b.
Definition emap (e : ebuf A) : ebuf B :=
  mkEbuf (mapbuf (buf e)) (max_age e) (max_size e) (last_position e) (next_evict e) (last_timeout e).

Lemma mapbuf_len b : zlen (mapbuf b) = zlen b.
Proof. unfold mapbuf, zlen. rewrite map_length. reflexivity. Qed.
Lemma mapbuf_index b p : index_for (mapbuf b) p = index_for b p.
Proof. unfold index_for. rewrite mapbuf_len. reflexivity. Qed.
Lemma mapbuf_slot b p : slot_at (mapbuf b) p = option_map mapent (slot_at b p).
Proof.
  unfold slot_at. rewrite mapbuf_index. unfold mapbuf. rewrite nth_error_map.
  destruct (nth_error b (index_for b p)); reflexivity.
Qed.
Lemma map_lset {X Y} (g : X -> Y) l : forall i x, map g (lset l i x) = lset (map g l) i (g x).
Proof. induction l as [|y l IH]; intros [|i] x; cbn [lset map]; [reflexivity..|]. rewrite IH. reflexivity. Qed.
Lemma mapbuf_lset b i x : mapbuf (lset b i x) = lset (mapbuf b) i (option_map mapent x).
Proof. apply map_lset. Qed.
Lemma map_rep {X Y} (g : X -> Y) x n : map g (rep x n) = rep (g x) n.
Proof. unfold rep. induction (Z.to_nat n) as [|k IH]; [reflexivity|]. cbn [repeat map]. rewrite IH. reflexivity. Qed.
Lemma mapbuf_reinsert l : forall b, mapbuf (fold_left reinsert l b) = fold_left reinsert (mapbuf l) (mapbuf b).
Proof.
  induction l as [|x l IH]; intro b; [reflexivity|]. cbn [fold_left mapbuf map]. rewrite IH. unfold mapbuf at 2. f_equal.
  destruct x as [e|]; [|reflexivity]. cbn [reinsert option_map mapent position]. rewrite mapbuf_lset, mapbuf_index. reflexivity.
Qed.
Lemma mapbuf_grow b m : mapbuf (grow b m) = grow (mapbuf b) m.
Proof.
  unfold grow. rewrite mapbuf_len. destruct (m <=? zlen b); [reflexivity|]. rewrite mapbuf_reinsert. unfold mapbuf at 2. rewrite map_rep. reflexivity.
Qed.
Lemma emap_inert e : is_inert (emap e) = is_inert e.
Proof. unfold is_inert. cbn [emap buf max_age]. rewrite mapbuf_len. reflexivity. Qed.
Lemma emap_push e p t v : emap (epush e p t v) = epush (emap e) p t (f v).
Proof.
  unfold epush. rewrite emap_inert. destruct (is_inert e); [reflexivity|].
  cbn [emap last_timeout next_evict buf max_size max_age]. destruct (t <? last_timeout e); [reflexivity|].
  destruct (p <? match next_evict e with Some x => x | None => p end); [reflexivity|].
  rewrite mapbuf_slot. unfold emap. cbn [buf max_age max_size last_position next_evict last_timeout]. f_equal.
  destruct (slot_at (buf e) p) as [en|]; cbn [option_map].
  - cbn [mapent position]. destruct (negb (position en =? p)); rewrite mapbuf_lset, <- ?mapbuf_grow, mapbuf_index; reflexivity.
  - rewrite mapbuf_lset, mapbuf_index. reflexivity.
Qed.
Lemma evict_loop_map age now n : forall b p, evict_loop (mapbuf b) age now p n = (mapbuf (fst (evict_loop b age now p n)), snd (evict_loop b age now p n)).
Proof.
  induction n as [|n IH]; intros b p; cbn [evict_loop]; [reflexivity|]. rewrite mapbuf_slot.
  destruct (slot_at b p) as [en|]; cbn [option_map]; [|apply IH]. cbn [mapent EvictModel.timestamp].
  destruct (age <? _); [|reflexivity]. rewrite mapbuf_index. change None with (option_map mapent None) at 1. rewrite <- mapbuf_lset. apply IH.
Qed.
Lemma emap_evict e now : emap (maybe_evict e now) = maybe_evict (emap e) now.
Proof.
  unfold maybe_evict. rewrite emap_inert. destruct (is_inert e); [reflexivity|].
  cbn [emap last_timeout next_evict buf max_size max_age last_position]. destruct (now <? last_timeout e); [reflexivity|].
  destruct (next_evict e) as [s|]; [|reflexivity].
  assert (length (mapbuf (buf e)) = length (buf e)) as -> by apply map_length. rewrite evict_loop_map.
  destruct (evict_loop (buf e) (max_age e) now s (length (buf e))) as [b p]. reflexivity.
Qed.
Lemma emap_get e p : eget (emap e) p = option_map f (eget e p).
Proof.
  unfold eget. rewrite emap_inert. destruct (is_inert e); [reflexivity|]. cbn [emap buf]. rewrite mapbuf_slot.
  destruct (slot_at (buf e) p) as [en|]; [|reflexivity]. cbn [option_map mapent position value]. destruct (position en =? p); reflexivity.
Qed.
Lemma lset_same {X} (l : list X) : forall i x, nth_error l i = Some x -> lset l i x = l.
Proof. induction l as [|y l IH]; intros [|i] x; cbn [nth_error lset]; try discriminate; [intros [= <-]; reflexivity|]. intro H. rewrite IH by assumption. reflexivity. Qed.
Lemma emap_set e p v x : eget e p = Some x -> f v = f x -> emap (eset e p v) = emap e.
Proof.
  unfold eget, eset. destruct (is_inert e); [discriminate|]. destruct (slot_at (buf e) p) as [en|] eqn:S; [|discriminate].
  destruct (position en =? p) eqn:Q; [|discriminate]. intros [= <-] E. unfold emap. cbn [buf max_age max_size last_position next_evict last_timeout].
  f_equal. rewrite mapbuf_lset. apply lset_same. apply slot_at_Some in S. unfold mapbuf. rewrite nth_error_map, S. cbn [option_map mapent].
  do 2 f_equal. unfold mapent. cbn [position EvictModel.timestamp value]. f_equal; [lia|congruence].
Qed.
End M.

Definition plain {K} (r : rpkt K) : rpkt unit := mkPkt (pseq r) (plen r) tt.

(** * the cache through a poll *)
Definition V (s : tx) : Prop := forall en, has (buf (by_seq (x_cache s))) en -> value en = rp (body (value en)).
Definition same_cache (s s' : tx) : Prop :=
  emap plain (by_seq (x_cache s')) = emap plain (by_seq (x_cache s)).

Lemma choose_cache ex s now s1 o : choose ex s now = Ok (s1, o) -> x_cache s1 = x_cache s.
Proof.
  assert (forall s s1 o, poll_resend ex s now = Ok (s1, o) -> x_cache s1 = x_cache s) as P1.
  { clear. intros s s1 o. unfold poll_resend.
    destruct (match x_cap s with None => Ok (s, false) | Some c => do (s1, rt) <- ratio_down s now; Ok (s1, ex c (fst rt) (snd rt)) end)
      as [[s0 over]| |] eqn:C; cbn [bind]; try discriminate.
    assert (exists st v, s0 = set_ratio (set_stats s st) v) as (st & v & ->).
    { destruct (x_cap s) as [c|].
      - destruct (ratio_down s now) as [[s' rt]| |] eqn:RD; cbn [bind] in C; try discriminate. injection C as <- _.
        eapply ratio_down_eff; eauto.
      - injection C as <- _. exists (x_stats s), (x_ratio s). destruct s; reflexivity. }
    destruct over; [intros [= <- _]; auto|]. destruct (next_resend _ _) as [[rest [q|]]| |]; cbn [bind]; try discriminate.
    - destruct (get_by_seq _ q); [|discriminate]. intros [= <- _]. auto.
    - intros [= <- _]. auto. }
  assert (forall s s1 o, poll_regular s now = (s1, o) -> x_cache s1 = x_cache s) as P2.
  { clear. intros s s1 o. unfold poll_regular. destruct (sq_peek (x_q s)); intros [= <- _]; auto. }
  assert (forall s s1 o, poll_padding s = Ok (s1, o) -> x_cache s1 = x_cache s) as P3.
  { clear. intros s s1 o. unfold poll_padding. destruct (negb _); [intros [= <- _]; auto|]. destruct (x_padding s =? 0); [intros [= <- _]; auto|].
    match goal with |- bind ?x _ = _ -> _ => destruct x as [[p|]| |] end; cbn [bind]; try discriminate.
    - intros [= <- _]. auto.
    - destruct (x_pt_pad s); [|discriminate]. intros [= <- _]. auto. }
  unfold choose. destruct (poll_resend ex s now) as [[sa [n|]]| |] eqn:E1; cbn [bind]; try discriminate.
  - intros [= <- _]. eapply P1; eauto.
  - destruct (poll_regular sa now) as [sb [n|]] eqn:E2.
    + intros [= <- _]. apply P1 in E1. apply P2 in E2. congruence.
    + destruct (poll_padding sb) as [[sc o3]| |] eqn:E3; cbn [bind]; try discriminate. intros [= <- _].
      apply P1 in E1. apply P2 in E2. apply P3 in E3. congruence.
Qed.

Lemma finish_cache_resend s0 s1 n pad now m twcc ps k st' tw' o : n_kind n = KResend k ->
  finish s0 s1 n pad now m twcc ps = Ok (st', tw', o) ->
  by_seq (x_cache st') = eset (by_seq (x_cache s1)) k (rp (p1_of s0 (n_pkt n))).
Proof.
  intros Ek. unfold finish. destruct (find _ ps) as [pr|].
  - unfold prep. rewrite Ek. destruct (p_rtx pr); [|discriminate]. destruct (x_rtx s1); [|discriminate]. cbn [bind].
    destruct (wire _ _ _ m) as [[[[bs sz] hl]|]| |]; cbn [bind]; try discriminate.
    + unfold sent. rewrite Ek. cbn [bind]. intros [= <- _ _]. reflexivity.
    + intros [= <- _ _]. reflexivity.
  - rewrite Ek. intros [= <- _ _]. reflexivity.
Qed.
Lemma finish_cache_blank s0 s1 n pad now m twcc ps k st' tw' o : n_kind n = KBlank k ->
  finish s0 s1 n pad now m twcc ps = Ok (st', tw', o) -> x_cache st' = x_cache s1.
Proof.
  intros Ek. unfold finish. destruct (find _ ps) as [pr|].
  - unfold prep. rewrite Ek. destruct (p_rtx pr); [|discriminate]. destruct (x_rtx s1); [|discriminate]. cbn [bind].
    destruct (wire _ _ _ m) as [[[[bs sz] hl]|]| |]; cbn [bind]; try discriminate.
    + unfold sent. rewrite Ek. cbn [bind]. intros [= <- _ _]. reflexivity.
    + intros [= <- _ _]. reflexivity.
  - rewrite Ek. intros [= <- _ _]. reflexivity.
Qed.
Lemma finish_cache_reg s0 s1 n pad now m twcc ps st' tw' o x t qr : n_kind n = KReg -> queue (x_q s1) = (x, Some t) :: qr ->
  k_nack (n_pkt n) = true -> (forall pr, In pr ps -> p_rtx pr <> None) ->
  finish s0 s1 n pad now m twcc ps = Ok (st', tw', o) ->
  match o with
  | None => x_cache st' = x_cache s1
  | Some (b, r) => exists p2, cache_sent (x_cache s1) (rp p2) now = Ok (x_cache st') /\ rc_size r = zlen (k_pay p2) /\
      k_pay p2 = k_pay (n_pkt n) /\ k_seq p2 = k_seq (n_pkt n) /\ k_hdr p2 = h_ev (k_hdr (p1_of s0 (n_pkt n))) (ext_vals (k_hdr p2)) /\
      ssrc (rc_hdr r) = ssrc (k_hdr (n_pkt n)) /\ rc_seq r = n_seq n
  end.
Proof.
  intros Ek EQ NK PR. unfold finish.
  destruct (find (fun pr => p_pt pr =? payload_type (k_hdr (p1_of s0 (n_pkt n)))) ps) as [pr|] eqn:F.
  - apply find_some in F as [F _]. specialize (PR _ F). unfold prep. rewrite Ek. cbn [bind].
    set (p1 := p1_of s0 (n_pkt n)). set (h := h_ev _ _). set (p2 := mkPk _ _ h _ _ _).
    destruct (wire n p2 _ m) as [[[[bs sz] hl]|]| |] eqn:W; cbn [bind]; try discriminate.
    2:{ apply wire_header in W as W2. destruct W2 as (hb & HW). destruct (wire_reg n p2 _ m hb None Ek HW W) as (bd & X & _). discriminate. }
    apply wire_header in W as W2. destruct W2 as (hb & HW). destruct (wire_reg n p2 _ m hb _ Ek HW W) as (bd & [= E1 E2 E3] & _).
    unfold sent. rewrite Ek. cbn [put_back]. rewrite EQ. cbn [set_q set_sent x_q]. unfold sq_pop. cbn [queue stotal].
    destruct (decrease _ now _ _) as [tt'| |]; cbn [bind]; try discriminate.
    change (k_nack (qbody (qp p2))) with (k_nack p2).
    assert (k_pay p1 = k_pay (n_pkt n) /\ k_seq p1 = k_seq (n_pkt n) /\ k_nack p1 = k_nack (n_pkt n) /\ ssrc (k_hdr p1) = ssrc (k_hdr (n_pkt n))) as (P1 & P2 & P3 & P4).
    { unfold p1, p1_of. destruct (x_ack s0); auto. }
    assert (k_nack p2 = true) as ->.
    { unfold p2. cbn [k_nack]. destruct (p_rtx pr); [congruence|]. destruct PR. reflexivity. }
    destruct (cache_sent _ _ now) as [c| |] eqn:C; cbn [bind]; try discriminate. intros [= <- <- <-].
    exists p2. split; [exact C|]. split; [cbn [rc_size]; exact E2|]. split; [exact P1|]. split; [exact P2|]. split; [reflexivity|].
    split; [|reflexivity]. rewrite <- P4. reflexivity.
  - rewrite Ek. cbn [put_back]. rewrite EQ. cbn [set_q x_q]. unfold sq_pop. cbn [queue stotal].
    destruct (decrease _ now _ _) as [tt'| |]; cbn [bind]; try discriminate. intros [= <- <- <-]. reflexivity.
Qed.

Lemma plain_p1 s p : plain (rp (p1_of s p)) = plain (rp p).
Proof. unfold p1_of. destruct (x_ack s); reflexivity. Qed.

Lemma poll_cache ex s tw a now m (en : bool) ps s' tw' o : R s tw a -> V s ->
  (forall w, In w (map fst (a_queue a)) -> w_nack w = true) -> (forall pr, In pr ps -> p_rtx pr <> None) ->
  poll_packet ex s now m (if en then Some tw else None) ps = Ok (s', tw', o) ->
  V s' /\
  ((exists b r pk, o = Some (b, r) /\ ssrc (rc_hdr r) = a_ssrc a /\ cache_sent (x_cache s) pk now = Ok (x_cache s') /\
      plain pk = mkPkt (rc_seq r) (rc_size r) tt) \/
   (same_cache s s' /\ (forall b r, o = Some (b, r) -> a_rtx a = Some (ssrc (rc_hdr r))) /\
    last_position (by_seq (x_cache s')) = last_position (by_seq (x_cache s)))).
Proof.
  intros HR HV NW PR. rewrite poll_packet_finish. destruct (choose ex s now) as [[s1 on]| |] eqn:CH; cbn [bind]; try discriminate.
  destruct (choose_frame _ _ _ _ _ CH) as (A1 & A2 & A3). pose proof (choose_cache _ _ _ _ _ CH) as CC.
  cbn [fst snd]. unfold choose in CH.
  assert (forall en, has (buf (by_seq (x_cache s1))) en -> value en = rp (body (value en))) as HV1 by (rewrite CC; exact HV).
  assert (forall n pad a1 e, R s1 tw a1 -> a_rtx a1 = a_rtx a -> has (buf (by_seq (x_cache s1))) e -> n_pkt n = body (value e) -> n_kind n = KResend (k_seq (body (value e))) ->
    finish s s1 n pad now m (if en then Some tw else None) ps = Ok (s', tw', o) ->
    V s' /\ same_cache s s' /\ (forall b r, o = Some (b, r) -> a_rtx a = Some (ssrc (rc_hdr r))) /\
    last_position (by_seq (x_cache s')) = last_position (by_seq (x_cache s))) as RES.
  { intros n pad a1 e RA EA H1 H2 H3 F. pose proof (finish_cache_resend _ _ _ _ _ _ _ _ _ _ _ _ H3 F) as EC.
    pose proof (has_eget _ _ (r_ei _ _ _ RA) H1) as G. pose proof (HV1 _ H1) as VE.
    assert (position e = k_seq (body (value e))) as PE by (destruct (r_cache _ _ _ RA _ H1) as (w & _ & _ & _ & _ & _ & X & Y & _); congruence).
    rewrite PE in G. spl.
    - unfold V. rewrite EC. intros x Hx. apply has_set in Hx as [Hx|[_ ->]]; [apply HV1, Hx|reflexivity].
    - unfold same_cache. rewrite EC, <- CC. apply (emap_set plain _ _ _ _ G). rewrite plain_p1, H2, <- VE. reflexivity.
    - destruct (finish_resend _ _ _ _ _ _ _ _ _ _ _ _ _ _ RA A1 A2 A3 H1 H2 H3 F) as (w & _ & _ & _ & _ & _ & _ & _ & _ & C).
      intros b r ->. destruct C as [[X _]|(rpt & rs & hb & bd & _ & C2 & _ & _ & C5)]; [discriminate|].
      injection C5 as -> ->. cbn. congruence.
    - rewrite EC, last_set, CC. reflexivity. }
  destruct (poll_resend ex s now) as [[sa [n|]]| |] eqn:E1; cbn [bind] in CH; try discriminate.
  - injection CH as -> <-. apply (poll_resend_ok _ _ _ _ _ _ _ HR) in E1 as (RA & e & H1 & H2 & H3 & H4 & H5).
    intro F. destruct (RES _ _ _ _ RA eq_refl H1 H2 H3 F) as (X1 & X2 & X3). split; [exact X1|]. right. split; assumption.
  - apply (poll_resend_ok _ _ _ _ _ _ _ HR) in E1 as (RA & _).
    destruct (poll_regular sa now) as [sb [n|]] eqn:E2.
    + injection CH as -> <-. apply (poll_regular_ok _ _ _ _ _ _ RA) in E2 as (RB & w & q & qr & Q1 & Q2 & Q3 & Q4).
      intro F. assert (k_nack (n_pkt n) = true) as NK by (rewrite Q2; apply NW; rewrite Q1; left; reflexivity).
      pose proof (finish_cache_reg _ _ n _ _ _ _ _ _ _ _ _ _ _ ltac:(rewrite Q2; reflexivity) Q3 NK PR F) as C.
      destruct o as [[b r]|].
      * destruct C as (p2 & C1 & C2 & C3 & C4 & C5 & C6 & C7). rewrite CC in C1. split.
        -- unfold cache_sent in C1. match type of C1 with (if ?c then _ else _) = _ => destruct c; [discriminate|] end.
           apply ok_inj in C1. unfold V. rewrite <- C1. cbn [by_seq]. intros x Hx. pose proof (r_ei _ _ _ HR) as HE.
           apply has_evict in Hx; [|apply ei_push, HE]. apply has_push in Hx; [|exact HE]. destruct Hx as [Hx| ->]; [apply HV, Hx|reflexivity].
        -- left. exists b, r, (rp p2). split; [reflexivity|]. split; [rewrite C6, Q2; reflexivity|]. split; [exact C1|].
           unfold plain. cbn [rp pseq plen]. rewrite C2, C7, C4, Q2. reflexivity.
      * split; [unfold V; rewrite C; exact HV1|]. right. unfold same_cache. rewrite C, CC. split; [reflexivity|]. split; [discriminate|reflexivity].
    + apply (poll_regular_ok _ _ _ _ _ _ RA) in E2 as (-> & NQ).
      destruct (poll_padding sa) as [[sc o3]| |] eqn:E3; cbn [bind] in CH; try discriminate. injection CH as -> <-.
      pose proof (poll_padding_ok _ _ _ _ _ RA E3) as (pad & PB & RC & C).
      destruct o3 as [n|].
      * destruct C as (XR & NB & C). intro F. destruct C as [(e & H1 & H2 & H3 & P50 & EP)|(H1 & H2 & P0 & EP)].
        -- destruct (RES _ _ _ _ RC eq_refl H1 H2 H3 F) as (X1 & X2 & X3). split; [exact X1|]. right. split; assumption.
        -- assert (x_rtx s1 <> None) as XR' by (rewrite (r_rtx _ _ _ RC); cbn [repad after a_rtx]; rewrite <- (r_rtx _ _ _ RA); exact XR).
           destruct (finish_blank _ _ _ _ _ _ _ _ _ _ _ _ _ _ RC A1 A2 A3 XR' H1 H2 ltac:(lia) F) as (_ & _ & _ & _ & C).
           pose proof (finish_cache_blank _ _ _ _ _ _ _ _ _ _ _ _ H1 F) as EC.
           split; [unfold V; rewrite EC; exact HV1|]. right. unfold same_cache. rewrite EC, CC. split; [reflexivity|]. split; [|reflexivity].
           intros b r ->. destruct C as [X|(pt & rpt & rs & hb & rr & k & _ & C2 & _ & _ & _ & _ & C6)]; [discriminate|].
           injection C6 as -> ->. cbn. exact C2.
      * intros [= <- <- <-]. split; [exact HV1|]. right. unfold same_cache. rewrite CC. split; [reflexivity|]. split; [discriminate|reflexivity].
Qed.

(** * the cache through a history *)
Section H.
Variables (mx ag al ss rs : Z) (ps : list param).
Hypothesis NE : rs <> ss.
Hypothesis PR : forall pr, In pr ps -> p_rtx pr <> None.
Definition CI (s : tx) (l : list (rpkt unit * Z)) : Prop :=
  V s /\ exists c, cache_all (rtx_new mx ag al) l = Ok c /\ emap plain (by_seq (x_cache s)) = by_seq c.
Definition AN (a : spec) : Prop := forall w, In w (map fst (a_queue a)) -> w_nack w = true.

Lemma cache_all_snoc (c : rtxcache unit) l pk t : cache_all c (l ++ [(pk, t)]) = bind (cache_all c l) (fun c' => cache_sent c' pk t).
Proof.
  revert c. induction l as [|[p u] l IH]; intro c; cbn [app cache_all bind].
  - destruct (cache_sent c pk t); reflexivity.
  - destruct (cache_sent c p u); cbn [bind]; [apply IH|reflexivity..].
Qed.
Lemma ci_sent s s' l pk now : CI s l -> V s' -> cache_sent (x_cache s) pk now = Ok (x_cache s') -> CI s' (l ++ [(plain pk, now)]).
Proof.
  intros (_ & c & C1 & C2) HV C. split; [exact HV|]. unfold cache_sent in C. destruct (SLOTS <=? plen pk / QUANT) eqn:Q; [discriminate|].
  apply ok_inj in C. eexists. split.
  - rewrite cache_all_snoc, C1. cbn [bind]. unfold cache_sent. cbn [plain plen]. rewrite Q. reflexivity.
  - rewrite <- C. cbn [by_seq]. rewrite emap_evict, emap_push, C2. reflexivity.
Qed.
Lemma ci_same s s' l : CI s l -> V s' -> same_cache s s' -> CI s' l.
Proof. intros (_ & c & C1 & C2) HV E. split; [exact HV|]. exists c. split; [exact C1|]. rewrite E. exact C2. Qed.
Lemma ci_eq s s' l : CI s l -> x_cache s' = x_cache s -> CI s' l.
Proof. intros (V1 & c & C1 & C2) E. unfold CI, V. rewrite E. split; [exact V1|]. exists c. auto. Qed.

Lemma run_cache ex ops : forall s tw a s' tw' ys l, R s tw a -> Id ss rs a -> AN a -> CI s l -> Forall op_ok ops -> Forall (steady ps) ops ->
  (forall w, In w (writes ops) -> w_nack w = true) -> txrun ex al s tw ops = Ok (s', tw', ys) ->
  CI s' (l ++ media_sent ss ops ys) /\ exists a', srun a ops ys a' /\ R s' tw' a' /\ Id ss rs a' /\ AN a'.
Proof.
  induction ops as [|o ops IH]; intros s tw a s' tw' ys l HR HI HA HC OK ST NW; cbn [txrun].
  - intros [= <- <- <-]. cbn [media_sent combine flat_map]. rewrite app_nil_r. split; [exact HC|]. exists a. split; [constructor|auto].
  - inversion OK as [|? ? O1 O2]; subst. inversion ST as [|? ? S1 S2]; subst.
    destruct (txstep ex al s tw o) as [[[s1 t1] y]| |] eqn:S; cbn [bind]; try discriminate.
    cbn [fst snd]. destruct (txrun ex al s1 t1 ops) as [[[s2 t2] ys2]| |] eqn:T; cbn [bind]; try discriminate. intros [= <- <- <-].
    destruct (step_ok _ _ _ _ _ _ _ _ _ HR O1 S) as (a1 & P1 & R1).
    assert (keeps_ssrc o) as KS by (destruct o; try exact I; destruct S1).
    assert (Id ss rs a1 /\ AN a1) as [I1 AN1].
    { destruct (packet_dec y) as [(b & r & ->)|N].
      - pose proof (step_packet _ _ _ _ _ P1) as E. split; [eapply id_effect; eauto|]. intros w Hw. apply HA.
        inversion E as [? ? w0 q asked tw0 _ EQ _|? ? ? ? ? ? _|? ? ? ? ? _]; subst; cbn [after a_queue] in Hw; [rewrite EQ; right|..]; assumption.
      - split; [eapply id_quiet; eauto|]. intros w Hw. destruct HI as (_ & _ & PP).
        destruct (step_quiet _ _ _ _ P1 KS N O1 PP) as (_ & _ & (q & Q1 & Q2) & _). apply (sublist_in _ _ Q1) in Hw.
        apply in_app_iff in Hw as [Hw|Hw]; [apply HA, (sublist_in _ _ Q2), Hw|].
        apply NW. change (o :: ops) with ([o] ++ ops). unfold writes. rewrite flat_map_app. apply in_app_iff. left. exact Hw. }
    assert (CI s1 (l ++ media_sent ss [o] [y])) as C1.
    { destruct o as [w|now au c f|now m en ps'|now f|n|now|now| | | |mx' ag' cap|b| |ns nr q1 q2]; cbn [txstep] in S; cbn [steady] in S1;
        try contradiction; try (injection S as <- _ <-; cbn [media_sent combine flat_map]; rewrite app_nil_r; eapply ci_eq; [exact HC|reflexivity]).
      - unfold tx_timeout in S. destruct (sq_timeout _ now) as [q'| |]; cbn [bind] in S; try discriminate. injection S as <- _ <-.
        cbn [media_sent combine flat_map]. rewrite app_nil_r. eapply ci_eq; [exact HC|]. destruct (x_audio s); reflexivity.
      - subst ps'. destruct (poll_packet ex s now m (if en then Some tw else None) ps) as [[[sp tp] o]| |] eqn:P; cbn [bind] in S; try discriminate.
        injection S as <- _ <-. destruct (poll_cache _ _ _ _ _ _ _ _ _ _ _ HR (proj1 HC) HA PR P) as (V1 & [(b & r & pk & -> & E1 & E2 & E3)|(SC & ER & _)]).
        + cbn [media_sent combine flat_map]. destruct HI as (I1' & _). rewrite E1, I1', Z.eqb_refl. cbn [app]. rewrite <- E3. eapply ci_sent; eauto.
        + assert (media_sent ss [XPoll now m en ps] [match o with Some (b, r) => YPacket b r | None => YNone end] = []) as ->.
          { destruct o as [[b r]|]; [|reflexivity]. cbn [media_sent combine flat_map]. specialize (ER _ _ eq_refl).
            destruct HI as (_ & H2 & _). specialize (H2 _ ER). destruct (ssrc (rc_hdr r) =? ss) eqn:Q; [lia|reflexivity]. }
          rewrite app_nil_r. eapply ci_same; eauto.
      - injection S as <- _ <-. cbn [media_sent combine flat_map]. rewrite app_nil_r. eapply ci_eq; [exact HC|].
        destruct f as [r|es| | |b|]; cbn [handle_rtcp]; try reflexivity.
        + destruct (x_rtx s); [destruct (_ =? _)|destruct (_ =? _)]; reflexivity.
        + unfold handle_nack. destruct (last_cached _); reflexivity.
      - injection S as <- _ <-. cbn [media_sent combine flat_map]. rewrite app_nil_r. eapply ci_eq; [exact HC|].
        unfold generate_padding. destruct (padding_enabled s); reflexivity.
      - unfold queue_state, sq_snapshot in S. destruct (move_time_forward _ now) as [t| |]; cbn [bind] in S; try discriminate. injection S as <- _ <-.
        cbn [media_sent combine flat_map]. rewrite app_nil_r. eapply ci_eq; [exact HC|reflexivity].
      - unfold create_sr in S. destruct (current_rtp_time s now) as [t| |]; cbn [bind] in S; try discriminate. injection S as <- _ <-.
        cbn [media_sent combine flat_map]. rewrite app_nil_r. eapply ci_eq; [exact HC|reflexivity]. }
    assert (forall w, In w (writes ops) -> w_nack w = true) as NW'.
    { intros w Hw. apply NW. change (o :: ops) with ([o] ++ ops). unfold writes. rewrite flat_map_app. apply in_app_iff. right. exact Hw. }
    destruct (IH _ _ _ _ _ _ _ R1 I1 AN1 C1 O2 S2 NW' T) as (C2 & a2 & P2 & R2 & I2 & A2).
    split.
    + replace (l ++ media_sent ss (o :: ops) (y :: ys2)) with ((l ++ media_sent ss [o] [y]) ++ media_sent ss ops ys2); [exact C2|].
      rewrite <- app_assoc. f_equal. unfold media_sent. cbn [combine flat_map]. rewrite app_nil_r. reflexivity.
    + exists a2. split; [econstructor; eassumption|auto].
Qed.
End H.
